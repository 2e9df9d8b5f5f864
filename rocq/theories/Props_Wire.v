(** C121: under which numbers the fields of the record types travel.  The table
    [wire_table] and the readings [sent] and [got] are in WireTable.v. *)
From Coq Require Import ZArith NArith Ascii String Lia.
From stdpp Require Import base gmap strings list.
From Verif Require Import GoBase Encoding SpecEncoding EncodingFacts CodecFacts DecodeFacts CodecTop
  Records CodecLemmas BuiltinFacts CodecExamples WireTable WireFacts.

Local Open Scope list_scope.

(** The registered types are those of the table: same codes, same names, and
    the same fields with the same codepoints and Go types, of which only the
    identity is required. *)
Theorem C121_types c t :
  registered vanflow_registry t c <->
  exists n fs l, (c, n, l) ∈ wire_table /\ t = GStruct n fs /\ (c, t) ∈ builtin_types /\
    attributes fs ((fun '(p, name, k) => TField name p (N.eqb p 1) (wtype k)) <$> all_fields l).
Proof. exact (wire_types c t). Qed.

(** Every field of the table has one value in a record of its type. *)
Theorem C121_fields c n l fs vs p name k :
  (c, n, l) ∈ wire_table -> registered vanflow_registry (GStruct n fs) c -> typed_fields fs vs ->
  (p, name, k) ∈ all_fields l ->
  exists v, field_value fs vs name v /\ typed (wtype k) v /\
    forall w, field_value fs vs name w -> w = v.
Proof. exact (wire_fields c n l fs vs p name k). Qed.

(** A sent record carries its type code, under each codepoint of the table what
    the field of that name says, and nothing else. *)
Theorem C121_sent c n l fs by_ptr vs a :
  (c, n, l) ∈ wire_table -> registered vanflow_registry (GStruct n fs) c ->
  typed_fields fs vs -> times_fit fs vs ->
  Encode vanflow_registry (record_any by_ptr (GStruct n fs) (VStruct vs)) = EncOk a ->
  a !! KU32 0 = Some (AU32 c) /\
  (forall p name k v, (p, name, k) ∈ all_fields l -> field_value fs vs name v ->
     a !! KU32 p = sent v) /\
  (forall key, is_Some (a !! key) ->
     key = KU32 0 \/ exists p name k, key = KU32 p /\ (p, name, k) ∈ all_fields l).
Proof. exact (wire_sent c n l fs by_ptr vs a). Qed.

(** A received record has in each field what the codepoint of the table says. *)
Theorem C121_received c n l fs a r :
  (c, n, l) ∈ wire_table -> registered vanflow_registry (GStruct n fs) c ->
  a !! KU32 0 = Some (AU32 c) -> Decode vanflow_registry (Some a) = Ok r ->
  exists vs, r = record_any true (GStruct n fs) (VStruct vs) /\
    forall p name k v, (p, name, k) ∈ all_fields l -> field_value fs vs name v ->
      got k (a !! KU32 p) = Some v.
Proof. exact (wire_received c n l fs a r). Qed.

(** It is accepted exactly if every codepoint can be read. *)
Theorem C121_accepted c n l fs a :
  (c, n, l) ∈ wire_table -> registered vanflow_registry (GStruct n fs) c ->
  a !! KU32 0 = Some (AU32 c) ->
  (exists r, Decode vanflow_registry (Some a) = Ok r) <->
  (forall p name k, (p, name, k) ∈ all_fields l -> got k (a !! KU32 p) <> None).
Proof. exact (wire_accepted c n l fs a). Qed.

Example C121_example :
  exists fs, registered vanflow_registry (GStruct "HostRecord" fs) 13 /\
  (13%N, "HostRecord"%string, [(10%N, "Provider"%string, FStringPtr); (30%N, "Name"%string, FStringPtr)])
    ∈ wire_table /\
  let vs := [VStruct [VStr "h1"; VPtr (Some (VTime (GoTime 7 5000))); VPtr None];
             VPtr (Some (VStr "aws")); VPtr (Some (VStr ""))] in
  typed_fields fs vs /\ times_fit fs vs /\
  Encode vanflow_registry (record_any false (GStruct "HostRecord" fs) (VStruct vs)) =
    EncOk {[ KU32 0 := AU32 13; KU32 1 := AStr "h1"; KU32 3 := AU64 7000005; KU32 10 := AStr "aws" ]} /\
  field_value fs vs "Provider" (VPtr (Some (VStr "aws"))).
Proof. exact ex_wire. Qed.

Print Assumptions C121_types.
Print Assumptions C121_fields.
Print Assumptions C121_sent.
Print Assumptions C121_received.
Print Assumptions C121_accepted.
