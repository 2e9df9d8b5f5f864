(** Model of store/etag.go and store/continue.go: fixed-size little-endian
    structs in standard base64, including the parts of encoding/base64 and
    encoding/binary they rely on. *)
From Coq Require Import ZArith NArith Ascii String.
From stdpp Require Import base strings list.
From Verif Require Import GoBase.

(** Bytes are numbers below 256. *)
Notation byte := N (only parsing).

(** ** encoding/binary, little endian *)

Fixpoint le_bytes (n : nat) (x : N) : list byte :=
  match n with
  | O => []
  | S n' => (x mod 256)%N :: le_bytes n' (x / 256)%N
  end.

Fixpoint of_le_bytes (l : list byte) : N :=
  match l with
  | [] => 0
  | b :: l' => (b + 256 * of_le_bytes l')%N
  end.

(** The two's complement value of [n] bytes. *)
Definition signed (n : nat) (x : N) : Z :=
  if (x <? 2 ^ (8 * N.of_nat n - 1))%N then Z.of_N x else (Z.of_N x - 2 ^ (8 * Z.of_nat n))%Z.

(** uint64(v), uint32(v) of a signed integer. *)
Definition put_int (n : nat) (z : Z) : list byte := le_bytes n (Z.to_N (z mod 2 ^ (8 * Z.of_nat n))).
Definition get_int (n : nat) (l : list byte) : Z := signed n (of_le_bytes (take n l)).

(** ** encoding/base64, StdEncoding *)

Definition alphabet : string := "ABCDEFGHIJKLMNOPQRSTUVWXYZabcdefghijklmnopqrstuvwxyz0123456789+/".

Definition b64_char (n : N) : ascii :=
  match String.get (N.to_nat n) alphabet with Some c => c | None => "=" end.

Fixpoint find_char (c : ascii) (s : string) (i : N) : option N :=
  match s with
  | EmptyString => None
  | String c' s' => if Ascii.eqb c c' then Some i else find_char c s' (i + 1)
  end.

Definition b64_val (c : ascii) : option N := find_char c alphabet 0.

(** EncodeToString: groups of three bytes, padded with '='. *)
Fixpoint b64_encode (l : list byte) : string :=
  match l with
  | [] => ""
  | [a] =>
      String (b64_char (a / 4)) (String (b64_char (a mod 4 * 16)) "==")
  | [a; b] =>
      String (b64_char (a / 4)) (String (b64_char (a mod 4 * 16 + b / 16))
        (String (b64_char (b mod 16 * 4)) "="))
  | a :: b :: c :: l' =>
      String (b64_char (a / 4)) (String (b64_char (a mod 4 * 16 + b / 16))
        (String (b64_char (b mod 16 * 4 + c / 64)) (String (b64_char (c mod 64)) (b64_encode l'))))
  end%N.

(** Decoding skips carriage returns and newlines wherever they occur. *)
Fixpoint strip_newlines (s : string) : string :=
  match s with
  | EmptyString => EmptyString
  | String c s' =>
      if Ascii.eqb c "010" || Ascii.eqb c "013" then strip_newlines s'
      else String c (strip_newlines s')
  end.

(** DecodeString after newline removal: quanta of four characters; padding
    only in the last quantum; spare bits are ignored (not Strict mode). *)
Fixpoint b64_quanta (s : string) : option (list byte) :=
  match s with
  | EmptyString => Some []
  | String c1 (String c2 (String c3 (String c4 s'))) =>
      match b64_val c1, b64_val c2 with
      | Some v1, Some v2 =>
          if Ascii.eqb c3 "=" then
            if Ascii.eqb c4 "=" then
              match s' with
              | EmptyString => Some [v1 * 4 + v2 / 16]
              | _ => None
              end
            else None
          else
            match b64_val c3 with
            | None => None
            | Some v3 =>
                if Ascii.eqb c4 "=" then
                  match s' with
                  | EmptyString => Some [v1 * 4 + v2 / 16; v2 mod 16 * 16 + v3 / 4]
                  | _ => None
                  end
                else
                  match b64_val c4 with
                  | None => None
                  | Some v4 =>
                      match b64_quanta s' with
                      | None => None
                      | Some l =>
                          Some (v1 * 4 + v2 / 16 :: v2 mod 16 * 16 + v3 / 4 :: v3 mod 4 * 64 + v4 :: l)
                      end
                  end
            end
      | _, _ => None
      end
  | _ => None
  end%N.

Definition b64_decode (s : string) : option (list byte) := b64_quanta (strip_newlines s).

(** ** Tokens *)

(** store/etag.go l.18-32: cacheETagToken and getETag; the fields are the
    version and UpdatedAt.Unix(), both int64. *)
Definition make_etag (version unix : Z) : string := b64_encode (put_int 8 version ++ put_int 8 unix).

(** store/etag.go l.34-43, decodeETag: binary.Read needs sixteen bytes and
    ignores the rest. *)
Definition decode_etag (s : string) : option (Z * Z) :=
  match b64_decode s with
  | None => None
  | Some l =>
      if (16 <=? length l)%nat then Some (get_int 8 l, get_int 8 (drop 8 l)) else None
  end.

(** store/continue.go l.30-38, encodeCacheContinue: int64 nonce, then
    int32(offset). *)
Definition make_continue (nonce offset : Z) : string := b64_encode (put_int 8 nonce ++ put_int 4 offset).

(** store/continue.go l.19-28, decodeCacheContinue. *)
Definition decode_continue (s : string) : option Z :=
  match b64_decode s with
  | None => None
  | Some l => if (12 <=? length l)%nat then Some (get_int 4 (drop 8 l)) else None
  end.
