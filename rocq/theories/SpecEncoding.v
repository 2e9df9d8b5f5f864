(** Specification vocabulary for the codec properties.  Nothing here refers to
    field tables, index paths, field encoders or the registry. *)
From Coq Require Import ZArith NArith Ascii String.
From stdpp Require Import base gmap strings list.
From Verif Require Import GoBase Encoding.

(** ** What a struct tag means *)

Definition is_digit (c : ascii) : Prop := (48 <= N_of_ascii c <= 57)%N.

Fixpoint all_digits (s : string) : Prop :=
  match s with
  | EmptyString => True
  | String c s' => is_digit c /\ all_digits s'
  end.

(** Decimal value of a digit string, positional notation. *)
Fixpoint dec_value (s : string) : N :=
  match s with
  | EmptyString => 0
  | String c s' =>
      ((N_of_ascii c - 48) * 10 ^ N.of_nat (String.length s') + dec_value s')%N
  end.

(** [tag_denotes tag c r]: the tag is "<c>" or "<c>," (optional attribute with
    codepoint c) or "<c>,required". *)
Definition tag_denotes (tag : string) (c : N) (r : bool) : Prop :=
  exists ds, ds <> ""%string /\ all_digits ds /\ dec_value ds = c /\ (c < 2^32)%N /\
    ((tag = ds /\ r = false) \/
     (tag = (ds ++ ",")%string /\ r = false) \/
     (tag = (ds ++ ",required")%string /\ r = true)).

(** ** The attributes of a struct type *)

(** Types an attribute may have: strings, 32/64-bit integers, times, and
    pointers to such. *)
Inductive supported : gotype -> Prop :=
  | sup_prim k : supported (GPrim k)
  | sup_time : supported GTime
  | sup_ptr t : supported t -> supported (GPtr t).

Record tfield := TField { tf_name : string; tf_code : N; tf_req : bool; tf_type : gotype }.

(** [attributes fs l]: the tagged, exported fields of a struct with fields
    [fs], embedded structs included, in order.  A malformed tag has no
    derivation. *)
Inductive attributes : gofields -> list tfield -> Prop :=
  | at_nil : attributes FNil []
  | at_tagged n tag c r t rest l :
      tag <> ""%string -> tag_denotes tag c r -> attributes rest l ->
      attributes (FCons n false true tag t rest) (TField n c r t :: l)
  | at_untagged n t rest l :
      attributes rest l -> attributes (FCons n false true "" t rest) l
  | at_unexported n tag t rest l :
      attributes rest l -> attributes (FCons n false false tag t rest) l
  | at_embedded n e tag m fs rest l1 l2 :
      attributes fs l1 -> attributes rest l2 ->
      attributes (FCons n true e tag (GStruct m fs) rest) (l1 ++ l2)
  | at_embedded_other n e tag t rest l :
      (forall m fs, t <> GStruct m fs) -> attributes rest l ->
      attributes (FCons n true e tag t rest) l.

(** A struct type is well formed for registration. *)
Definition wf_record_fields (fs : gofields) : Prop :=
  exists l, attributes fs l /\ NoDup (tf_code <$> l) /\ Forall (fun f => supported (tf_type f)) l.

(** ** Values *)

(** [typed t v]: v is a value of Go type t. *)
Fixpoint typed (t : gotype) (v : goval) {struct t} : Prop :=
  match t, v with
  | GPrim PStr, VStr _ => True
  | GPrim PU64, VU64 n => (n < 2^64)%N
  | GPrim PU32, VU32 n => (n < 2^32)%N
  | GPrim PI64, VI64 z => (- 2^63 <= z < 2^63)%Z
  | GPrim PI32, VI32 z => (- 2^31 <= z < 2^31)%Z
  | GTime, VTime tm => (0 <= t_nsec tm < 1000000000)%Z
  | GPtr t', VPtr None => True
  | GPtr t', VPtr (Some v') => typed t' v'
  | GStruct _ fs, VStruct vs => typed_fields fs vs
  | GOther _, VOther _ => True
  | _, _ => False
  end
with typed_fields (fs : gofields) (vs : list goval) {struct fs} : Prop :=
  match fs, vs with
  | FNil, [] => True
  | FCons _ _ _ _ t rest, v :: vs' => typed t v /\ typed_fields rest vs'
  | _, _ => False
  end.

(** The value at the end of a chain of pointers. *)
Fixpoint pointee (v : goval) : goval :=
  match v with
  | VPtr (Some v') => pointee v'
  | _ => v
  end.

(** A field value that is indistinguishable on the wire from an absent one:
    nil, "", 0, the zero time, or a pointer to such. *)
Definition empty_value (v : goval) : Prop :=
  match pointee v with
  | VPtr None => True
  | VStr s => s = ""%string
  | VU64 n | VU32 n => n = 0%N
  | VI64 z | VI32 z => z = 0%Z
  | VTime t => t = zero_time
  | _ => False
  end.

Global Instance empty_value_dec v : Decision (empty_value v).
Proof. unfold empty_value. destruct (pointee v) as [| | | | | |[]| |]; apply _. Defined.

(** Microseconds since the epoch, without overflow. *)
Definition micros (t : gotime) : Z := (t_sec t * 1000000 + t_nsec t / 1000)%Z.

Definition fits_int64 (t : gotime) : Prop := (- 2^63 <= micros t < 2^63)%Z.

Definition before_epoch (t : gotime) : Prop := (micros t < 0)%Z.

Definition trunc_micro (t : gotime) : gotime := GoTime (t_sec t) (t_nsec t / 1000 * 1000).

(** The attribute value that represents a non-empty field value. *)
Definition attr_of (v : goval) : attr :=
  match pointee v with
  | VStr s => AStr s
  | VU64 n => AU64 n
  | VU32 n => AU32 n
  | VI64 z => AI64 z
  | VI32 z => AI32 z
  | VTime t => AU64 (Z.to_N (micros t))
  | _ => ANil
  end.

(** Normal form of one field value: pointers to empty values become nil, times
    are truncated to microseconds. *)
Fixpoint normal_value (v : goval) : goval :=
  match v with
  | VTime t => VTime (trunc_micro t)
  | VPtr (Some v') =>
      if bool_decide (empty_value v') then VPtr None else VPtr (Some (normal_value v'))
  | _ => v
  end.

(** [leaf_of fs vs f v]: the struct value with fields [vs] has value [v] in its
    attribute [f]. *)
Inductive leaf_of : gofields -> list goval -> tfield -> goval -> Prop :=
  | leaf_here n tag c r t rest v vs :
      tag <> ""%string -> tag_denotes tag c r ->
      leaf_of (FCons n false true tag t rest) (v :: vs) (TField n c r t) v
  | leaf_embedded n e tag m fs rest ws vs f v :
      leaf_of fs ws f v ->
      leaf_of (FCons n true e tag (GStruct m fs) rest) (VStruct ws :: vs) f v
  | leaf_later n a e tag t rest w vs f v :
      leaf_of rest vs f v ->
      leaf_of (FCons n a e tag t rest) (w :: vs) f v.

(** [normal fs vs ws]: [ws] is the normal form of the struct value [vs]:
    attributes in normal form, everything that is not an attribute zero. *)
Inductive normal : gofields -> list goval -> list goval -> Prop :=
  | nf_nil : normal FNil [] []
  | nf_tagged n tag c r t rest v vs ws :
      tag <> ""%string -> tag_denotes tag c r -> normal rest vs ws ->
      normal (FCons n false true tag t rest) (v :: vs) (normal_value v :: ws)
  | nf_untagged n t rest v vs ws :
      normal rest vs ws ->
      normal (FCons n false true "" t rest) (v :: vs) (zero_value t :: ws)
  | nf_unexported n tag t rest v vs ws :
      normal rest vs ws ->
      normal (FCons n false false tag t rest) (v :: vs) (zero_value t :: ws)
  | nf_embedded n e tag m fs rest us us' vs ws :
      normal fs us us' -> normal rest vs ws ->
      normal (FCons n true e tag (GStruct m fs) rest) (VStruct us :: vs) (VStruct us' :: ws)
  | nf_embedded_other n e tag t rest v vs ws :
      (forall m fs, t <> GStruct m fs) -> normal rest vs ws ->
      normal (FCons n true e tag t rest) (v :: vs) (zero_value t :: ws).

(** Every time held in an attribute is representable in int64 microseconds. *)
Definition times_fit (fs : gofields) (vs : list goval) : Prop :=
  forall f v t, leaf_of fs vs f v -> pointee v = VTime t -> fits_int64 t.

(** A struct value is complete and representable: required attributes are not
    empty and no attribute holds a time before the epoch (the zero time counts
    as unset). *)
Definition encodable (fs : gofields) (vs : list goval) : Prop :=
  forall f v, leaf_of fs vs f v ->
    (tf_req f = true -> ~ empty_value v) /\
    (forall t, pointee v = VTime t -> t = zero_time \/ ~ before_epoch t).

(** No attribute uses codepoint 0, which is reserved for the record type. *)
Definition no_zero_code (fs : gofields) : Prop :=
  forall l f, attributes fs l -> f ∈ l -> tf_code f <> 0%N.

(** An attribute value that a field of type [t] takes for "not set". *)
Fixpoint base_type (t : gotype) : gotype :=
  match t with GPtr t' => base_type t' | _ => t end.

Definition empty_attr (t : gotype) (a : attr) : Prop :=
  match base_type t with
  | GPrim _ =>
      a = AStr "" \/ a = AU64 0 \/ a = AU32 0 \/ a = AI64 0 \/ a = AI32 0
  | _ => False
  end.

(** The dynamic type an attribute of type [t] must have on the wire. *)
Definition wire_type_ok (t : gotype) (a : attr) : Prop :=
  match base_type t, a with
  | GPrim PStr, AStr _ => True
  | GPrim PU64, AU64 _ => True
  | GPrim PU32, AU32 _ => True
  | GPrim PI64, AI64 _ => True
  | GPrim PI32, AI32 _ => True
  | GTime, AU64 n => (n < 2^63)%N
  | _, _ => False
  end.

(** An attribute set satisfies what attribute [f] demands of it: present if
    required, and of the right wire type if present. *)
Definition attr_fine (set : attrset) (f : tfield) : Prop :=
  match set !! KU32 (tf_code f) with
  | None => tf_req f = false
  | Some a => wire_type_ok (tf_type f) a
  end.

(** Attribute values as they can occur in Go: integers within their width. *)
Definition attr_in_range (a : attr) : Prop :=
  match a with
  | AU32 n => (n < 2^32)%N
  | AU64 n => (n < 2^64)%N
  | AI32 z => (- 2^31 <= z < 2^31)%Z
  | AI64 z => (- 2^63 <= z < 2^63)%Z
  | _ => True
  end.

(** ** Registration histories *)

(** The registry after a sequence of MustRegisterRecord calls, starting from
    an empty one; calls that panic are recovered by the caller. *)
Definition register_all (calls : list (N * goany)) : registry :=
  fold_left
    (fun reg '(c, r) => match must_register c r reg with Ok reg' => reg' | _ => reg end)
    calls empty_registry.

(** Type [t] is registered with codepoint [c]. *)
Definition registered (reg : registry) (t : gotype) (c : N) : Prop :=
  exists te, lookup_encoding t (encodings reg) = Some te /\ te_code te = c.

(** A record of struct type [t], held by value or by (non-nil) pointer. *)
Definition record_any (by_ptr : bool) (t : gotype) (v : goval) : goany :=
  if by_ptr then AnyVal (GPtr t) (VPtr (Some v)) else AnyVal t v.

(** The interface value [x] holds a [t], by value or by non-nil pointer. *)
Definition holds (x : goany) (t : gotype) : Prop :=
  (exists v, x = AnyVal t v /\ (forall t', t <> GPtr t')) \/
  (exists v, x = AnyVal (GPtr t) (VPtr (Some v))).

(** Types that can be registered (vanflow.Time is itself a struct). *)
Definition registrable (t : gotype) : Prop :=
  t = GTime \/ exists n fs, t = GStruct n fs /\ wf_record_fields fs.
