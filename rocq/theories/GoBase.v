(** Basic vocabulary shared by the models: outcomes of Go calls, fixed-width
    arithmetic, times and dynamically typed attribute values.

    Conventions.  A Go [string] is a Coq [string] (a sequence of bytes).
    Unsigned integers are [N], signed ones [Z]; the ranges are stated by
    [has_type]-like predicates where they matter and every place where Go
    arithmetic wraps does so explicitly. *)
From Coq Require Import ZArith NArith Ascii String.
From stdpp Require Import base gmap strings list.

(** Outcome of a Go call: a value, an error value, or a run-time panic. *)
Inductive res (E A : Type) : Type :=
  | Ok (a : A)
  | Err (e : E)
  | Panic.
Arguments Ok {E A} a.
Arguments Err {E A} e.
Arguments Panic {E A}.

Definition res_bind {E A B} (r : res E A) (f : A -> res E B) : res E B :=
  match r with
  | Ok a => f a
  | Err e => Err e
  | Panic => Panic
  end.

(** Conversion of an arbitrary integer to int64 (two's complement wrap). *)
Definition wrap_i64 (z : Z) : Z := ((z + 2^63) mod 2^64 - 2^63)%Z.

(** Conversion of an int64 to uint64. *)
Definition to_u64 (z : Z) : N := Z.to_N (z mod 2^64)%Z.

Definition maxint64 : N := (2^63 - 1)%N.

(** time.Time reduced to what the code observes of it: seconds and
    nanoseconds since the Unix epoch.  Location and monotonic reading are
    dropped. *)
Record gotime := GoTime { t_sec : Z; t_nsec : Z }.

Global Instance gotime_eq_dec : EqDecision gotime.
Proof. solve_decision. Defined.

(** The zero time.Time: January 1, year 1, 00:00:00 UTC. *)
Definition zero_time : gotime := GoTime (-62135596800) 0.

(** time.Time.IsZero. *)
Definition time_is_zero (t : gotime) : bool := bool_decide (t = zero_time).

(** time.Time.UnixMicro: t.unixSec()*1e6 + int64(t.nsec())/1e3 in int64
    arithmetic (time package). *)
Definition unix_micro (t : gotime) : Z :=
  wrap_i64 (wrap_i64 (t_sec t * 1000000) + t_nsec t / 1000).

(** time.Time.UnixNano: (t.sec())*1e9 + int64(t.nsec()) in int64 arithmetic. *)
Definition unix_nano (t : gotime) : Z :=
  wrap_i64 (wrap_i64 (t_sec t * 1000000000) + t_nsec t).

(** time.UnixMicro(usec) = Unix(usec/1e6, (usec%1e6)*1e3); Unix normalises a
    negative nanosecond part.  Floor division gives the normalised result for
    either sign. *)
Definition of_unix_micro (us : Z) : gotime :=
  GoTime (us / 1000000) ((us mod 1000000) * 1000).

(** time.Unix(0, nsec), normalised. *)
Definition of_unix_nano (ns : Z) : gotime :=
  GoTime (ns / 1000000000) (ns mod 1000000000).

(** A value held in a Go [any] as far as the code distinguishes them: the five
    attribute types, nil, and anything else (identified by some name). *)
Inductive attr :=
  | AStr (s : string)
  | AU32 (n : N)
  | AU64 (n : N)
  | AI32 (z : Z)
  | AI64 (z : Z)
  | ANil
  | AOther (what : string).

Global Instance attr_eq_dec : EqDecision attr.
Proof. solve_decision. Defined.

(** Keys of a map[any]any: uint32 keys, or keys of any other dynamic type. *)
Inductive akey :=
  | KU32 (n : N)
  | KOther (what : string).

Global Instance akey_eq_dec : EqDecision akey.
Proof. solve_decision. Defined.

Global Instance akey_countable : Countable akey.
Proof.
  refine (inj_countable'
    (fun k => match k with KU32 n => inl n | KOther s => inr s end)
    (fun x => match x with inl n => KU32 n | inr s => KOther s end) _).
  by intros [].
Defined.

(** encoding/encoder.go l.25: RecordAttributeSet = map[any]any. *)
Notation attrset := (gmap akey attr).
