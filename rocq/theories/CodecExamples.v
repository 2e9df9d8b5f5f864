(** Witnesses for the codec properties, and small variations of the lemmas. *)
From Coq Require Import ZArith NArith Ascii String Lia.
From stdpp Require Import base gmap strings list.
From Verif Require Import GoBase Encoding SpecEncoding EncodingFacts CodecFacts DecodeFacts CodecTop
  Records CodecLemmas BuiltinFacts.

Local Open Scope list_scope.

(** A small record type used in the examples:
    struct { Base; Count *uint64 `vflow:"7"`; note string; Extra string }
    with Base = struct { ID string `vflow:"1,required"`; At Time `vflow:"3"` }. *)
Definition ex_fields : gofields :=
  FCons "Base" true true "" (GStruct "Base" (
    FCons "ID" false true "1,required" (GPrim PStr) (
    FCons "At" false true "3" GTime FNil))) (
  FCons "Count" false true "7" (GPtr (GPrim PU64)) (
  FCons "note" false false "" (GPrim PStr) (
  FCons "Extra" false true "" (GPrim PStr) FNil))).
Definition ex_type : gotype := GStruct "Ex" ex_fields.
Definition ex_vals : list goval :=
  [VStruct [VStr "a"; VTime (GoTime 5 1234567)]; VPtr (Some (VU64 9)); VStr "n"; VStr "x"].
Definition ex_calls : list (N * goany) :=
  [(20%N, AnyVal ex_type (zero_value ex_type)); (20%N, AnyVal ex_type (zero_value ex_type))].
Definition ex_attrs : list tfield :=
  [TField "ID" 1 true (GPrim PStr); TField "At" 3 false GTime; TField "Count" 7 false (GPtr (GPrim PU64))].

Lemma round_trip_normal reg b n fs vs a :
  reg_wf reg -> typed_fields fs vs -> times_fit fs vs -> no_zero_code fs -> normal fs vs vs ->
  Encode reg (record_any b (GStruct n fs) (VStruct vs)) = EncOk a ->
  Decode reg (Some a) = Ok (record_any true (GStruct n fs) (VStruct vs)).
Proof.
  intros Hwf Hty Hfit Hz Hn He. destruct (round_trip _ _ _ _ _ _ Hwf Hty Hfit Hz He) as (ws & Hn' & ->).
  by rewrite (normal_fun _ _ _ _ Hn Hn').
Qed.

Lemma reencode_both reg n fs c l a r :
  reg_wf reg -> registered reg (GStruct n fs) c -> attributes fs l -> no_zero_code fs ->
  (forall k x, a !! k = Some x -> attr_in_range x) ->
  a !! KU32 0 = Some (AU32 c) -> Decode reg (Some a) = Ok r ->
  (exists a', Encode reg r = EncOk a' /\
     (forall k x, a' !! k = Some x <->
       (k = KU32 0 /\ x = AU32 c) \/
       (exists f, f ∈ l /\ k = KU32 (tf_code f) /\ a !! k = Some x /\ ~ empty_attr (tf_type f) x)) /\
     (exists r', Decode reg (Some a') = Ok r' /\ Encode reg r' = EncOk a')) \/
  ((exists p e, Encode reg r = EncErr p e) /\
   exists f x, f ∈ l /\ tf_req f = true /\ a !! KU32 (tf_code f) = Some x /\ empty_attr (tf_type f) x).
Proof.
  intros Hwf Hr Hat Hz Hrange H0 Hdec.
  assert (forall k x, k <> KU32 0 -> a !! k = Some x -> attr_in_range x) as Hrange' by eauto.
  destruct (reencode _ _ _ _ _ _ _ Hwf Hr Hat Hz Hrange' H0 Hdec) as [(a' & Ha & Hx)|H]; [left|by right].
  exists a'. split; [done|]. split; [done|]. by eapply (reencode_stable reg n fs c l a r a').
Qed.

Lemma encode_rejects reg :
  reg_wf reg ->
  (exists p e, Encode reg NilIface = EncErr p e) /\
  (forall b t v, (forall c, ~ registered reg t c) -> (forall t', t <> GPtr t') ->
     exists p e, Encode reg (record_any b t v) = EncErr p e).
Proof.
  intros Hwf. split; [simpl; eauto|]. intros b t v Hn Hp.
  assert (lookup_encoding t (encodings reg) = None) as E.
  { destruct (lookup_encoding t (encodings reg)) as [te|] eqn:E; [|done]. exfalso.
    apply (Hn (te_code te)). by exists te. }
  destruct b; simpl.
  - rewrite lookup_ptr_none by done. rewrite E. eauto.
  - rewrite E. destruct t as [| |t'| |]; eauto. by destruct (Hp t').
Qed.

Lemma decode_panic_iff reg n fs c l a :
  reg_wf reg -> registered reg (GStruct n fs) c -> attributes fs l ->
  a !! KU32 0 = Some (AU32 c) ->
  (Decode reg (Some a) = Panic <->
     exists l1 f l2, l = l1 ++ f :: l2 /\ (forall g, g ∈ l1 -> attr_fine a g) /\
       base_type (tf_type f) <> GTime /\ a !! KU32 (tf_code f) = Some ANil).
Proof. intros Hwf Hr Hat H0. by apply (decode_strict reg n fs c l a). Qed.

Lemma decode_ok_iff reg n fs c l a :
  reg_wf reg -> registered reg (GStruct n fs) c -> attributes fs l ->
  a !! KU32 0 = Some (AU32 c) ->
  ((exists r, Decode reg (Some a) = Ok r) <-> (forall f, f ∈ l -> attr_fine a f)).
Proof. intros Hwf Hr Hat H0. by apply (decode_strict reg n fs c l a). Qed.

Lemma decode_nil_panics :
  Decode vanflow_registry (Some {[ KU32 0 := AU32 1; KU32 1 := ANil ]}) = Panic.
Proof. vm_compute. reflexivity. Qed.

Lemma Decode_nil_set reg : exists e, Decode reg None = Err e.
Proof. simpl. eauto. Qed.

Lemma registry_one_to_one reg t t' c c' :
  reg_wf reg ->
  (registered reg t c -> registered reg t' c -> t = t') /\
  (registered reg t c -> registered reg t c' -> c = c').
Proof. intros Hwf. split; [by apply registered_code_inj|apply registered_type_inj]. Qed.

Lemma registry_tables_agree reg t c :
  reg_wf reg -> registered reg t c <-> exists te, decodings reg !! c = Some te /\ te_t te = t.
Proof.
  intros Hwf. split; [by apply registered_decodings|].
  intros (te & Hd & <-). by apply decodings_registered.
Qed.

Lemma failed_register calls c x :
  (forall reg', must_register c x (register_all calls) <> Ok reg') ->
  register_all (calls ++ [(c, x)]) = register_all calls.
Proof.
  intros H. rewrite register_all_snoc.
  destruct (must_register c x (register_all calls)) as [r| |]; try done. by destruct (H r).
Qed.

Lemma must_register_exact c x reg :
  reg_wf reg ->
  ((exists reg', must_register c x reg = Ok reg') <->
     (forall t, ~ registered reg t c) /\
     exists t, holds x t /\ registrable t /\ forall c', ~ registered reg t c') /\
  (forall e, must_register c x reg <> Err e).
Proof. intros Hwf. split; [by apply must_register_iff|apply must_register_not_err]. Qed.

Lemma builtin_facts c t :
  (c, t) ∈ builtin_types ->
  registered vanflow_registry t c /\
  exists n fs l, t = GStruct n fs /\ attributes fs l /\ no_zero_code fs /\
    TField "ID" 1 true (GPrim PStr) ∈ l /\
    (forall f, f ∈ l -> (tf_req f = true <-> tf_code f = 1%N)).
Proof.
  intros Hin. split; [by apply builtin_registered|].
  destruct (builtin_shape _ _ Hin) as (n & rest & ->). eexists n, _.
  destruct (registered_attributes _ _ _ _ vanflow_wf (builtin_registered _ _ Hin)) as (l & Hat & _).
  exists l. split; [done|]. split; [done|]. split; [by eapply builtin_no_zero|].
  split; [by eapply builtin_has_id|]. intros f Hf. by eapply builtin_required.
Qed.

Lemma time_encode_other t :
  (encode_time t = OutNotSet <-> t = zero_time) /\ encode_time t <> OutPanic /\
  (t <> zero_time -> (- 2^63 <= micros t < 0)%Z -> encode_time t = OutErr).
Proof.
  unfold encode_time, time_is_zero. rewrite unix_micro_spec. case_bool_decide as Hz; [done|].
  split; [|split].
  - split; [|done]. by destruct (Z.ltb _ _).
  - by destruct (Z.ltb _ _).
  - intros _ Hm. rewrite wrap_i64_id by lia. destruct (Z.ltb_spec (micros t) 0); [done|lia].
Qed.

Lemma far_future : encode_time (GoTime 18446744073710 0) = OutVal (AU64 448384).
Proof. vm_compute. reflexivity. Qed.

(** Witnesses *)

Lemma ex_registered : registered (register_all ex_calls) ex_type 20.
Proof.
  assert (match lookup_encoding ex_type (encodings (register_all ex_calls)) with
    | Some te => N.eqb (te_code te) 20 | None => false end = true) as H by (vm_compute; reflexivity).
  destruct (lookup_encoding ex_type (encodings (register_all ex_calls))) as [te|] eqn:E; [|discriminate H].
  exists te. split; [done|]. by apply N.eqb_eq.
Qed.

Lemma ex_attributes : attributes ex_fields ex_attrs.
Proof.
  destruct (registered_attributes _ _ _ _ (register_all_wf ex_calls) ex_registered) as (l & Hat & _).
  apply (at_embedded _ _ _ _ _ _ [_; _] [_]).
  - apply at_tagged; [done|by apply parse_opts_some|].
    apply at_tagged; [done|by apply parse_opts_some|]. constructor.
  - apply at_tagged; [done|by apply parse_opts_some|]. apply at_unexported, at_untagged. constructor.
Qed.

Ltac leaves H :=
  repeat match type of H with
  | leaf_of FNil _ _ _ => inversion H
  | leaf_of _ _ _ _ => inversion H; clear H; subst;
      try match goal with H' : leaf_of _ _ _ _ |- _ => leaves H' end
  end.

Lemma ex_fit : times_fit ex_fields ex_vals.
Proof.
  intros f v t H E. unfold ex_fields, ex_vals in H. leaves H; try discriminate E.
  simpl in E. injection E as <-. unfold fits_int64, micros. simpl. lia.
Qed.

Lemma ex_no_zero : no_zero_code ex_fields.
Proof.
  intros l f Hat Hf. rewrite (attributes_fun _ _ _ Hat ex_attributes) in Hf. unfold ex_attrs in Hf.
  repeat (apply elem_of_cons in Hf as [->|Hf]; [done|]). by apply elem_of_nil in Hf.
Qed.

Lemma ex_typed : typed_fields ex_fields ex_vals.
Proof. cbn. repeat split; lia. Qed.

Lemma ex_encodable : encodable ex_fields ex_vals.
Proof.
  destruct (encodable_dec _ _ _ _ ex_vals (register_all_wf ex_calls) ex_registered ex_typed) as [H|H]; [done|].
  intros f v Hl. unfold ex_fields, ex_vals in Hl. leaves Hl; split; try done; try (intros t Et; discriminate Et).
  intros t [= <-]. right. unfold before_epoch, micros. simpl. lia.
Qed.

Lemma ex_encode b : exists a, Encode (register_all ex_calls) (record_any b ex_type (VStruct ex_vals)) = EncOk a.
Proof.
  apply (encode_iff _ b _ _ _ _ (register_all_wf ex_calls) ex_registered ex_typed ex_fit), ex_encodable.
Qed.

Lemma ex_c01 :
  typed_fields ex_fields ex_vals /\ times_fit ex_fields ex_vals /\ no_zero_code ex_fields /\
  (exists a, Encode (register_all ex_calls) (record_any true ex_type (VStruct ex_vals)) = EncOk a) /\
  normal ex_fields ex_vals
    [VStruct [VStr "a"; VTime (GoTime 5 1234000)]; VPtr (Some (VU64 9)); VStr ""; VStr ""].
Proof.
  split; [apply ex_typed|]. split; [apply ex_fit|]. split; [apply ex_no_zero|].
  split; [apply ex_encode|].
  apply nf_embedded.
  - apply (nf_tagged _ _ 1 true); [done|by apply parse_opts_some|].
    apply (nf_tagged _ _ 3 false _ _ (VTime (GoTime 5 1234567))); [done|by apply parse_opts_some|constructor].
  - apply (nf_tagged _ _ 7 false _ _ (VPtr (Some (VU64 9)))); [done|by apply parse_opts_some|].
    apply nf_unexported, nf_untagged. constructor.
Qed.

Lemma ex_c02 :
  registered (register_all ex_calls) ex_type 20 /\ attributes ex_fields ex_attrs /\
  (exists r, Decode (register_all ex_calls)
     (Some {[ KU32 0 := AU32 20; KU32 1 := AStr "a"; KU32 7 := AU64 0; KU32 99 := AStr "z" ]}) = Ok r).
Proof.
  split; [apply ex_registered|]. split; [apply ex_attributes|].
  apply (decode_ok_iff _ _ _ _ _ _ (register_all_wf ex_calls) ex_registered ex_attributes); [done|].
  intros f Hf. unfold ex_attrs in Hf.
  repeat (apply elem_of_cons in Hf as [->|Hf]; [done|]). by apply elem_of_nil in Hf.
Qed.

Lemma ex_c03 :
  registered (register_all ex_calls) ex_type 20 /\ encodable ex_fields ex_vals /\
  ~ encodable ex_fields [VStruct [VStr ""; VTime zero_time]; VPtr None; VStr ""; VStr ""] /\
  (forall c, ~ registered (register_all ex_calls) GTime c).
Proof.
  split; [apply ex_registered|]. split; [apply ex_encodable|]. split.
  - intros H. destruct (H (TField "ID" 1 true (GPrim PStr)) (VStr "")) as [Hr _].
    + apply leaf_embedded, leaf_here; [done|]. by apply parse_opts_some.
    + by apply Hr.
  - intros c (te & Hl & _). vm_compute in Hl. discriminate Hl.
Qed.

Lemma ex_c05 :
  let a := {[ KU32 0 := AU32 20; KU32 1 := AStr "a"; KU32 7 := AU64 0; KOther "x" := ANil ]} : attrset in
  registered (register_all ex_calls) ex_type 20 /\ attributes ex_fields ex_attrs /\
  (forall f, f ∈ ex_attrs -> attr_fine a f) /\
  (exists f, f ∈ ex_attrs /\ ~ attr_fine (<[KU32 7 := AStr "7"]> a) f).
Proof.
  intros a. split; [apply ex_registered|]. split; [apply ex_attributes|]. split.
  - intros f Hf. unfold ex_attrs in Hf.
    repeat (apply elem_of_cons in Hf as [->|Hf]; [done|]). by apply elem_of_nil in Hf.
  - exists (TField "Count" 7 false (GPtr (GPrim PU64))). split.
    + unfold ex_attrs. do 2 right. by left.
    + unfold attr_fine. cbn [tf_code tf_type]. rewrite lookup_insert. by intros [].
Qed.

Lemma ex_c06 :
  registered (register_all ex_calls) ex_type 20 /\
  exists a, Encode (register_all ex_calls) (record_any false ex_type (VStruct ex_vals)) = EncOk a /\
    a !! KU32 3 = Some (AU64 5001234) /\ a !! KU32 7 = Some (AU64 9).
Proof.
  split; [apply ex_registered|]. destruct (ex_encode false) as [a Ha]. exists a. split; [done|].
  pose proof (encode_exact _ _ _ _ _ _ _ (register_all_wf ex_calls) ex_registered ex_typed ex_fit
    ex_no_zero Ha) as Hx. split; apply Hx; right.
  - exists (TField "At" 3 false GTime), (VTime (GoTime 5 1234567)). split; [|done].
    apply leaf_embedded, leaf_later, leaf_here; [done|]. by apply parse_opts_some.
  - exists (TField "Count" 7 false (GPtr (GPrim PU64))), (VPtr (Some (VU64 9))). split; [|done].
    apply leaf_later, leaf_here; [done|]. by apply parse_opts_some.
Qed.

Lemma ex_c07 :
  registered (register_all ex_calls) ex_type 20 /\
  must_register 20 (AnyVal ex_type (zero_value ex_type)) (register_all ex_calls) = Panic.
Proof. split; [apply ex_registered|]. vm_compute. reflexivity. Qed.

Lemma not_registrable n fs :
  match fields_for fs [] 0 with Ok l => codes_distinct l [] | _ => false end = false ->
  ~ registrable (GStruct n fs).
Proof.
  intros H [Hr|(n' & fs' & [= <- <-] & Hw)]; [done|].
  apply wf_record_fields_iff in Hw as (l & E & Hd). rewrite E, Hd in H. done.
Qed.

Lemma ex_c08 :
  registrable ex_type /\
  ~ registrable (GStruct "Bad" (FCons "A" false true "7" (GPrim PStr) (FCons "B" false true "7" (GPrim PStr) FNil))) /\
  ~ registrable (GStruct "Bad" (FCons "A" false true "7,maybe" (GPrim PStr) FNil)) /\
  ~ registrable (GStruct "Bad" (FCons "A" false true "4294967296" (GPrim PStr) FNil)) /\
  ~ registrable (GStruct "Bad" (FCons "A" false true "7" (GOther "bool") FNil)).
Proof.
  split; [by eapply (registered_registrable _ _ _ (register_all_wf ex_calls) ex_registered)|].
  repeat split; apply not_registrable; vm_compute; reflexivity.
Qed.

Lemma ex_c09 :
  map fst builtin_types = map N.of_nat (seq 0 15) /\ (3%N, ControllerRecord) ∈ builtin_types.
Proof. split; [reflexivity|]. unfold builtin_types. do 3 right. by left. Qed.

Lemma ex_c10 : (0 <= micros (GoTime 1700000000 999999999) < 2^63)%Z.
Proof. unfold micros. simpl. lia. Qed.
