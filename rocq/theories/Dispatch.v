(** Model of store/dispatch.go.  Stores are numbered; maps are heap objects, so
    that sharing between a registry and its dispatchers is visible. *)
From Coq Require Import ZArith NArith Ascii String.
From stdpp Require Import base gmap strings list.
From Verif Require Import GoBase Encoding Records Env SyncMap Tokens Cache.

Local Open Scope list_scope.

(** The map key of a record's type (dispatch.go l.25, l.50). *)
Definition type_key (r : vrec) : string := type_meta_string (vrec_meta r).

(** A registry (dispatch.go l.14-16: [d_reg] is nil or refers to a map) and the
    dispatchers made from it so far (l.42-45: source and map). *)
Record dstate := DState {
  d_heap : gmap nat (gmap string nat);   (* allocated maps *)
  d_next : nat;                          (* next free address *)
  d_reg : option nat;
  d_disp : list (source_ref * nat);
}.

(** A zero DispatchRegistry. *)
Definition new_registry : dstate := DState ∅ 0 None [].

(** A map that must exist. *)
Definition deref (d : dstate) (a : nat) : gmap string nat := default ∅ (d_heap d !! a).

(** dispatch.go l.21-26, RegisterStore.  A nil record panics after the map has
    been made; the flag says whether the call panicked. *)
Definition register (d : dstate) (r : option vrec) (st : nat) : dstate * bool :=
  let '(d1, a) :=
    match d_reg d with
    | Some a => (d, a)
    | None => (DState (<[d_next d := ∅]> (d_heap d)) (S (d_next d)) (Some (d_next d)) (d_disp d), d_next d)
    end in
  match r with
  | None => (d1, true)
  | Some r => (DState (<[a := <[type_key r := st]> (deref d1 a)]> (d_heap d1)) (d_next d1) (d_reg d1) (d_disp d1), false)
  end.

(** dispatch.go l.31-33: the copying loop, over the entries in some order. *)
Definition copy_entries (l : list (string * nat)) (m : gmap string nat) : gmap string nat :=
  fold_left (fun acc '(k, v) => <[k := v]> acc) l m.

(** dispatch.go l.29-38, NewDispatcher. *)
Definition new_dispatcher (e : env) (d : dstate) (src : source_ref) : dstate :=
  let entries := match d_reg d with Some a => map_to_list (deref d a) | None => [] end in
  let a := d_next d in
  DState (<[a := copy_entries (env_iter e "registry" _ entries) ∅]> (d_heap d)) (S a) (d_reg d)
         (d_disp d ++ [(src, a)]).

Inductive cmd :=
  | CRegister (r : option vrec) (st : nat)
  | CNew (e : env) (src : source_ref).

Definition run_cmd (d : dstate) (c : cmd) : dstate :=
  match c with
  | CRegister r st => (register d r st).1
  | CNew e src => new_dispatcher e d src
  end.

Definition run_cmds (cs : list cmd) : dstate := fold_left run_cmd cs new_registry.

(** ** Dispatching *)

(** The stores' contents; store [i] has configuration [cfs i]. *)
Notation stores := (gmap nat (simap entry)).
Definition store_at (w : stores) (i : nat) : simap entry := default new_simap (w !! i).

(** dispatch.go l.48-61, Dispatch, on the records of a message, each with the
    environment of its Accumulate call.  Errors are logged; a panic (nil record,
    or in Accumulate) ends the call, which the flag reports.  Events are tagged
    with their store. *)
Fixpoint dispatch (cfs : nat -> config) (m : gmap string nat) (src : source_ref)
    (l : list (env * option vrec)) (w : stores) : stores * list (nat * event) * bool :=
  match l with
  | [] => (w, [], false)
  | (_, None) :: _ => (w, [], true)
  | (e, Some r) :: l' =>
      match m !! type_key r with
      | None => dispatch cfs m src l' w
      | Some i =>
          let '(s', out, ev) := run_op (cfs i) e (store_at w i) (OAccumulate src (Some r)) in
          let w' := <[i := s']> w in
          let ev' := (fun x => (i, x)) <$> ev in
          match out with
          | OutPanic => (w', ev', true)
          | _ => let '(w2, ev2, p) := dispatch cfs m src l' w' in (w2, ev' ++ ev2, p)
          end
      end
  end.

(** Dispatching with the n-th dispatcher. *)
Definition dispatch_with (cfs : nat -> config) (d : dstate) (n : nat) (l : list (env * option vrec)) (w : stores)
    : option (stores * list (nat * event) * bool) :=
  match d_disp d !! n with
  | Some (src, a) => Some (dispatch cfs (deref d a) src l w)
  | None => None
  end.
