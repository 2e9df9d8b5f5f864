(** Properties C01-C10: the record codec and the type registry.

    Vocabulary: SpecEncoding.v.  [register_all calls] is the registry after an
    arbitrary sequence of MustRegisterRecord calls, some of which may have
    panicked.  The example type [ex_type] is in CodecExamples.v.  [Encode], [Decode] and [must_register] are the modelled API. *)
From Coq Require Import ZArith NArith Ascii String Lia.
From stdpp Require Import base gmap strings list.
From Verif Require Import GoBase Encoding SpecEncoding EncodingFacts CodecFacts DecodeFacts CodecTop
  Records CodecLemmas BuiltinFacts CodecExamples.

Local Open Scope list_scope.

(** C01: decoding what Encode produced gives the normal form of the record,
    which then encodes to the same set again.  A record in normal form comes
    back unchanged. *)
Theorem C01_record_round_trip calls by_ptr n fs vs a :
  typed_fields fs vs -> times_fit fs vs -> no_zero_code fs ->
  Encode (register_all calls) (record_any by_ptr (GStruct n fs) (VStruct vs)) = EncOk a ->
  exists ws, normal fs vs ws /\
    Decode (register_all calls) (Some a) = Ok (record_any true (GStruct n fs) (VStruct ws)) /\
    Encode (register_all calls) (record_any true (GStruct n fs) (VStruct ws)) = EncOk a.
Proof. exact (round_trip_stable _ _ _ _ _ _ (register_all_wf calls)). Qed.

Theorem C01_normal_unchanged calls by_ptr n fs vs a :
  typed_fields fs vs -> times_fit fs vs -> no_zero_code fs -> normal fs vs vs ->
  Encode (register_all calls) (record_any by_ptr (GStruct n fs) (VStruct vs)) = EncOk a ->
  Decode (register_all calls) (Some a) = Ok (record_any true (GStruct n fs) (VStruct vs)).
Proof. exact (round_trip_normal _ _ _ _ _ _ (register_all_wf calls)). Qed.

Example C01_example :
  typed_fields ex_fields ex_vals /\ times_fit ex_fields ex_vals /\ no_zero_code ex_fields /\
  (exists a, Encode (register_all ex_calls) (record_any true ex_type (VStruct ex_vals)) = EncOk a) /\
  normal ex_fields ex_vals
    [VStruct [VStr "a"; VTime (GoTime 5 1234000)]; VPtr (Some (VU64 9)); VStr ""; VStr ""].
Proof. exact ex_c01. Qed.
Print Assumptions C01_record_round_trip.
Print Assumptions C01_normal_unchanged.

(** C02: re-encoding what Decode accepted yields exactly the received
    attributes of the type minus the empty ones, or fails because a required
    attribute was received empty.  Doing it again changes nothing more. *)
Theorem C02_reencode calls n fs c l a r :
  registered (register_all calls) (GStruct n fs) c -> attributes fs l -> no_zero_code fs ->
  (forall k x, a !! k = Some x -> attr_in_range x) ->
  a !! KU32 0 = Some (AU32 c) -> Decode (register_all calls) (Some a) = Ok r ->
  (exists a', Encode (register_all calls) r = EncOk a' /\
     (forall k x, a' !! k = Some x <->
       (k = KU32 0 /\ x = AU32 c) \/
       (exists f, f ∈ l /\ k = KU32 (tf_code f) /\ a !! k = Some x /\ ~ empty_attr (tf_type f) x)) /\
     (exists r', Decode (register_all calls) (Some a') = Ok r' /\
        Encode (register_all calls) r' = EncOk a')) \/
  ((exists p e, Encode (register_all calls) r = EncErr p e) /\
   exists f x, f ∈ l /\ tf_req f = true /\ a !! KU32 (tf_code f) = Some x /\ empty_attr (tf_type f) x).
Proof. exact (reencode_both _ _ _ _ _ _ _ (register_all_wf calls)). Qed.

Example C02_example :
  registered (register_all ex_calls) ex_type 20 /\ attributes ex_fields ex_attrs /\
  (exists r, Decode (register_all ex_calls)
     (Some {[ KU32 0 := AU32 20; KU32 1 := AStr "a"; KU32 7 := AU64 0; KU32 99 := AStr "z" ]}) = Ok r).
Proof. exact ex_c02. Qed.
Print Assumptions C02_reencode.

(** C03: Encode succeeds exactly on complete, representable records and never
    panics on a registered one; nil and unregistered values are errors. *)
Theorem C03_encode_iff calls by_ptr n fs vs c :
  registered (register_all calls) (GStruct n fs) c -> typed_fields fs vs -> times_fit fs vs ->
  ((exists a, Encode (register_all calls) (record_any by_ptr (GStruct n fs) (VStruct vs)) = EncOk a)
     <-> encodable fs vs) /\
  Encode (register_all calls) (record_any by_ptr (GStruct n fs) (VStruct vs)) <> EncPanic.
Proof. exact (encode_iff _ _ _ _ _ _ (register_all_wf calls)). Qed.

Theorem C03_encode_rejects calls :
  (exists p e, Encode (register_all calls) NilIface = EncErr p e) /\
  (forall by_ptr t v, (forall c, ~ registered (register_all calls) t c) ->
     (forall t', t <> GPtr t') ->
     exists p e, Encode (register_all calls) (record_any by_ptr t v) = EncErr p e).
Proof. exact (encode_rejects _ (register_all_wf calls)). Qed.

Example C03_example :
  registered (register_all ex_calls) ex_type 20 /\ encodable ex_fields ex_vals /\
  ~ encodable ex_fields [VStruct [VStr ""; VTime zero_time]; VPtr None; VStr ""; VStr ""] /\
  (forall c, ~ registered (register_all ex_calls) GTime c).
Proof. exact ex_c03. Qed.
Print Assumptions C03_encode_iff.
Print Assumptions C03_encode_rejects.

(** C04: exactly which attribute sets crash Decode. *)
Theorem C04_decode_panic_iff calls n fs c l a :
  registered (register_all calls) (GStruct n fs) c -> attributes fs l ->
  a !! KU32 0 = Some (AU32 c) ->
  (Decode (register_all calls) (Some a) = Panic <->
     exists l1 f l2, l = l1 ++ f :: l2 /\ (forall g, g ∈ l1 -> attr_fine a g) /\
       base_type (tf_type f) <> GTime /\ a !! KU32 (tf_code f) = Some ANil).
Proof. exact (decode_panic_iff _ _ _ _ _ _ (register_all_wf calls)). Qed.

Theorem C04_no_nil_no_panic calls set :
  (forall a, set = Some a -> forall k, a !! k <> Some ANil) ->
  Decode (register_all calls) set <> Panic.
Proof. exact (decode_no_nil_no_panic _ _ (register_all_wf calls)). Qed.

(** The unrestricted claim is false: a Router record with a nil identity. *)
Theorem C04_decode_total_refuted :
  Decode vanflow_registry (Some {[ KU32 0 := AU32 1; KU32 1 := ANil ]}) = Panic.
Proof. exact decode_nil_panics. Qed.
Print Assumptions C04_decode_panic_iff.
Print Assumptions C04_no_nil_no_panic.
Print Assumptions C04_decode_total_refuted.

(** C05: Decode accepts a set exactly if its type code is registered and every
    attribute of the type is fine; it looks at nothing else. *)
Theorem C05_decode_strict calls n fs c l a :
  registered (register_all calls) (GStruct n fs) c -> attributes fs l ->
  a !! KU32 0 = Some (AU32 c) ->
  ((exists r, Decode (register_all calls) (Some a) = Ok r) <-> (forall f, f ∈ l -> attr_fine a f)).
Proof. exact (decode_ok_iff _ _ _ _ _ _ (register_all_wf calls)). Qed.

Theorem C05_decode_type_code calls a :
  (forall c, a !! KU32 0 = Some (AU32 c) -> forall t, ~ registered (register_all calls) t c) ->
  exists e, Decode (register_all calls) (Some a) = Err e.
Proof. exact (Decode_unregistered _ _ (register_all_wf calls)). Qed.

Theorem C05_decode_nil_set calls : exists e, Decode (register_all calls) None = Err e.
Proof. exact (Decode_nil_set _). Qed.

Theorem C05_decode_blind calls n fs c l a1 a2 :
  registered (register_all calls) (GStruct n fs) c -> attributes fs l ->
  a1 !! KU32 0 = Some (AU32 c) -> a2 !! KU32 0 = Some (AU32 c) ->
  (forall f, f ∈ l -> a1 !! KU32 (tf_code f) = a2 !! KU32 (tf_code f)) ->
  Decode (register_all calls) (Some a1) = Decode (register_all calls) (Some a2).
Proof. exact (decode_blind _ _ _ _ _ _ _ (register_all_wf calls)). Qed.

Example C05_example :
  let a := {[ KU32 0 := AU32 20; KU32 1 := AStr "a"; KU32 7 := AU64 0; KOther "x" := ANil ]} : attrset in
  registered (register_all ex_calls) ex_type 20 /\ attributes ex_fields ex_attrs /\
  (forall f, f ∈ ex_attrs -> attr_fine a f) /\
  (exists f, f ∈ ex_attrs /\ ~ attr_fine (<[KU32 7 := AStr "7"]> a) f).
Proof. exact ex_c05. Qed.
Print Assumptions C05_decode_strict.
Print Assumptions C05_decode_type_code.
Print Assumptions C05_decode_nil_set.
Print Assumptions C05_decode_blind.

(** C06: exactly what Encode puts into the set, and its shape. *)
Theorem C06_encode_exact calls by_ptr n fs vs c a :
  registered (register_all calls) (GStruct n fs) c -> typed_fields fs vs -> times_fit fs vs ->
  no_zero_code fs ->
  Encode (register_all calls) (record_any by_ptr (GStruct n fs) (VStruct vs)) = EncOk a ->
  forall k x, a !! k = Some x <->
    (k = KU32 0 /\ x = AU32 c) \/
    (exists f v, leaf_of fs vs f v /\ k = KU32 (tf_code f) /\ ~ empty_value v /\ x = attr_of v).
Proof. exact (encode_exact _ _ _ _ _ _ _ (register_all_wf calls)). Qed.

Theorem C06_encode_shape calls by_ptr n fs vs c a :
  registered (register_all calls) (GStruct n fs) c -> typed_fields fs vs -> times_fit fs vs ->
  no_zero_code fs ->
  Encode (register_all calls) (record_any by_ptr (GStruct n fs) (VStruct vs)) = EncOk a ->
  a !! KU32 0 = Some (AU32 c) /\
  (forall l f, attributes fs l -> f ∈ l -> tf_req f = true -> is_Some (a !! KU32 (tf_code f))) /\
  (forall k x, a !! k = Some x -> k <> KU32 0 ->
     exists l f, attributes fs l /\ f ∈ l /\ k = KU32 (tf_code f) /\
       x <> ANil /\ x <> AStr "" /\ x <> AU32 0 /\ x <> AI32 0 /\ x <> AI64 0 /\
       (x = AU64 0 -> base_type (tf_type f) = GTime)).
Proof. exact (encode_shape _ _ _ _ _ _ _ (register_all_wf calls)). Qed.
(** The hypotheses are those of C01 and C03: see [C01_example], [C03_example]. *)
Example C06_example :
  registered (register_all ex_calls) ex_type 20 /\
  exists a, Encode (register_all ex_calls) (record_any false ex_type (VStruct ex_vals)) = EncOk a /\
    a !! KU32 3 = Some (AU64 5001234) /\ a !! KU32 7 = Some (AU64 9).
Proof. exact ex_c06. Qed.
Print Assumptions C06_encode_exact.
Print Assumptions C06_encode_shape.

(** C07: the registry is one-to-one, holds exactly what successful calls put
    there, and never loses anything. *)
Theorem C07_registered_history calls t c :
  registered (register_all calls) t c <->
  exists pre x post reg', calls = pre ++ (c, x) :: post /\ holds x t /\
    must_register c x (register_all pre) = Ok reg'.
Proof. exact (registered_history calls t c). Qed.

Theorem C07_one_to_one calls t t' c c' :
  (registered (register_all calls) t c -> registered (register_all calls) t' c -> t = t') /\
  (registered (register_all calls) t c -> registered (register_all calls) t c' -> c = c').
Proof. exact (registry_one_to_one _ _ _ _ _ (register_all_wf calls)). Qed.

(** The decoder's table agrees with the encoder's. *)
Theorem C07_tables_agree calls t c :
  registered (register_all calls) t c <->
  exists te, decodings (register_all calls) !! c = Some te /\ te_t te = t.
Proof. exact (registry_tables_agree _ _ _ (register_all_wf calls)). Qed.

Theorem C07_distinct_codepoints calls n fs c :
  registered (register_all calls) (GStruct n fs) c -> wf_record_fields fs.
Proof. exact (registered_attributes _ _ _ _ (register_all_wf calls)). Qed.

Theorem C07_monotone calls more t c :
  registered (register_all calls) t c -> registered (register_all (calls ++ more)) t c.
Proof. exact (registered_mono calls more t c). Qed.

Theorem C07_failed_call_no_effect calls c x :
  (forall reg', must_register c x (register_all calls) <> Ok reg') ->
  register_all (calls ++ [(c, x)]) = register_all calls.
Proof. exact (failed_register calls c x). Qed.

Example C07_example :
  registered (register_all ex_calls) ex_type 20 /\
  must_register 20 (AnyVal ex_type (zero_value ex_type)) (register_all ex_calls) = Panic.
Proof. exact ex_c07. Qed.
Print Assumptions C07_registered_history.
Print Assumptions C07_one_to_one.
Print Assumptions C07_tables_agree.
Print Assumptions C07_distinct_codepoints.
Print Assumptions C07_monotone.
Print Assumptions C07_failed_call_no_effect.

(** C08: MustRegisterRecord returns normally exactly in the good case, and
    panics otherwise (it has no error result). *)
Theorem C08_register_iff calls c x :
  ((exists reg', must_register c x (register_all calls) = Ok reg') <->
     (forall t, ~ registered (register_all calls) t c) /\
     exists t, holds x t /\ registrable t /\ forall c', ~ registered (register_all calls) t c') /\
  (forall e, must_register c x (register_all calls) <> Err e).
Proof. exact (must_register_exact c x _ (register_all_wf calls)). Qed.

Example C08_example :
  registrable ex_type /\
  ~ registrable (GStruct "Bad" (FCons "A" false true "7" (GPrim PStr) (FCons "B" false true "7" (GPrim PStr) FNil))) /\
  ~ registrable (GStruct "Bad" (FCons "A" false true "7,maybe" (GPrim PStr) FNil)) /\
  ~ registrable (GStruct "Bad" (FCons "A" false true "4294967296" (GPrim PStr) FNil)) /\
  ~ registrable (GStruct "Bad" (FCons "A" false true "7" (GOther "bool") FNil)).
Proof. exact ex_c08. Qed.
Print Assumptions C08_register_iff.

(** C09: the fifteen built-in types. *)
Theorem C09_init_does_not_panic : init_registry = Ok vanflow_registry.
Proof. exact init_registry_ok. Qed.

Theorem C09_builtin_types c t :
  (c, t) ∈ builtin_types ->
  registered vanflow_registry t c /\
  exists n fs l, t = GStruct n fs /\ attributes fs l /\ no_zero_code fs /\
    TField "ID" 1 true (GPrim PStr) ∈ l /\
    (forall f, f ∈ l -> (tf_req f = true <-> tf_code f = 1%N)).
Proof. exact (builtin_facts c t). Qed.

Theorem C09_shared_codepoints c n fs l f c' n' fs' l' f' :
  (c, GStruct n fs) ∈ builtin_types -> attributes fs l -> f ∈ l ->
  (c', GStruct n' fs') ∈ builtin_types -> attributes fs' l' -> f' ∈ l' ->
  tf_code f = tf_code f' -> tf_type f = tf_type f'.
Proof. exact (builtin_shared c n fs l f c' n' fs' l' f'). Qed.

Theorem C09_builtin_round_trip c n fs by_ptr vs :
  (c, GStruct n fs) ∈ builtin_types -> typed_fields fs vs -> times_fit fs vs ->
  identity_of (VStruct vs) <> ""%string ->
  (forall f v t, leaf_of fs vs f v -> pointee v = VTime t -> t = zero_time \/ ~ before_epoch t) ->
  exists a ws, Encode vanflow_registry (record_any by_ptr (GStruct n fs) (VStruct vs)) = EncOk a /\
    normal fs vs ws /\
    Decode vanflow_registry (Some a) = Ok (record_any true (GStruct n fs) (VStruct ws)).
Proof. exact (builtin_round_trip c n fs by_ptr vs). Qed.

Example C09_example :
  map fst builtin_types = map N.of_nat (seq 0 15) /\
  (3%N, ControllerRecord) ∈ builtin_types.
Proof. exact ex_c09. Qed.
Print Assumptions C09_init_does_not_panic.
Print Assumptions C09_builtin_types.
Print Assumptions C09_shared_codepoints.
Print Assumptions C09_builtin_round_trip.

(** C10: times. *)
Theorem C10_time_round_trip t :
  (0 <= t_nsec t < 1000000000)%Z -> (0 <= micros t < 2^63)%Z ->
  exists n, encode_time t = OutVal (AU64 n) /\ decode_time (AU64 n) = Some (trunc_micro t).
Proof. exact (time_round_trip t). Qed.

(** Exactly which times are encoded, and as what: the microsecond count is
    reduced to int64. *)
Theorem C10_time_encode_iff t n :
  (0 <= t_nsec t < 1000000000)%Z ->
  encode_time t = OutVal (AU64 n) <->
  t <> zero_time /\ (n < 2^63)%N /\ exists k, Z.of_N n = (micros t + k * 2^64)%Z.
Proof. exact (time_encode_iff t n). Qed.

Theorem C10_time_encode_other t :
  (encode_time t = OutNotSet <-> t = zero_time) /\ encode_time t <> OutPanic /\
  (t <> zero_time -> (- 2^63 <= micros t < 0)%Z -> encode_time t = OutErr).
Proof. exact (time_encode_other t). Qed.

Theorem C10_time_decode_iff x t :
  decode_time x = Some t <-> exists n, x = AU64 n /\ (n < 2^63)%N /\ t = of_unix_micro (Z.of_N n).
Proof. exact (time_decode_iff x t). Qed.

(** The claim without the int64 bound is false: the first instant of the year
    586524 (approximately) is sent as 0.448384 s after the epoch. *)
Theorem C10_far_future_refuted :
  encode_time (GoTime 18446744073710 0) = OutVal (AU64 448384).
Proof. exact far_future. Qed.

Example C10_example : (0 <= micros (GoTime 1700000000 999999999) < 2^63)%Z.
Proof. exact ex_c10. Qed.
Print Assumptions C10_time_round_trip.
Print Assumptions C10_time_encode_iff.
Print Assumptions C10_time_encode_other.
Print Assumptions C10_time_decode_iff.
Print Assumptions C10_far_future_refuted.
