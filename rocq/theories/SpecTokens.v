(** Base64 texts, as RFC 4648 describes them. *)
From Coq Require Import NArith Ascii String.
From stdpp Require Import base strings list.

Local Open Scope list_scope.

(** A letter, a digit, '+' or '/'. *)
Definition base64_char (c : ascii) : Prop :=
  let n := N_of_ascii c in
  ((65 <= n /\ n <= 90) \/ (97 <= n /\ n <= 122) \/ (48 <= n /\ n <= 57) \/ n = 43 \/ n = 47)%N.

Definition newline (c : ascii) : Prop := c = "010"%char \/ c = "013"%char.
Global Instance newline_dec c : Decision (newline c).
Proof. unfold newline. apply _. Defined.

(** [t] is base64 text for [n] bytes: such characters, then at most two '=',
    in all a multiple of four; each character stands for six bits. *)
Definition base64_text (t : list ascii) (n : nat) : Prop :=
  exists body pad, t = body ++ pad /\ Forall base64_char body /\
    (pad = [] \/ pad = ["="%char] \/ pad = ["="%char; "="%char]) /\
    length t mod 4 = 0 /\ n = length body * 6 / 8.
