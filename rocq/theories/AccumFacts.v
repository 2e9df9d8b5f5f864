(** Attribute sets of built-in records: encoding, merging and decoding them. *)
From Coq Require Import ZArith NArith Ascii String Lia.
From stdpp Require Import base gmap strings list.
From Verif Require Import GoBase Encoding SpecEncoding EncodingFacts CodecFacts DecodeFacts CodecTop Records
  CodecLemmas BuiltinFacts Messages SpecMessages MessageFacts.

Local Open Scope list_scope.
Local Opaque vanflow_registry builtin_types record_types.

(** What Decode returns is a well-typed record with times in range. *)
Lemma decode_typed reg n fs c l a r :
  reg_wf reg -> registered reg (GStruct n fs) c -> attributes fs l -> no_zero_code fs ->
  (forall k x, k <> KU32 0 -> a !! k = Some x -> attr_in_range x) ->
  a !! KU32 0 = Some (AU32 c) -> Decode reg (Some a) = Ok r ->
  exists ws, r = record_any true (GStruct n fs) (VStruct ws) /\ typed_fields fs ws /\ times_fit fs ws /\
    forall f v, leaf_of fs ws f v ->
      match a !! KU32 (tf_code f) with
      | None => tf_req f = false /\ v = zero_value (tf_type f)
      | Some x => wire_type_ok (tf_type f) x /\ v = dec_attr_value (tf_type f) x
      end.
Proof.
  intros Hwf Hr Hat Hz Hrange H0 Hdec.
  destruct (registered_attributes reg n fs c Hwf Hr) as (l' & Hat' & Hnd & Hsup).
  rewrite (attributes_fun _ _ _ Hat' Hat) in *. clear l' Hat'.
  rewrite (Decode_registered reg n fs c a Hwf Hr H0) in Hdec.
  destruct (dec_struct a fs (zero_fields fs)) as [ws| |] eqn:Ews; try done. injection Hdec as <-.
  pose proof (dec_struct_ok a fs ws l Hat Hsup Ews) as Hok.
  exists ws. split; [done|]. split; [|split; [|done]].
  - apply (dec_struct_typed (delete (KU32 0) a) fs ws l Hat Hsup).
    + intros k x Hx. apply lookup_delete_Some in Hx as [? Hx]. by eapply Hrange.
    + rewrite <- Ews. symmetry. apply (dec_struct_ext a _ fs _ l Hat).
      intros f Hf. rewrite lookup_delete_ne; [done|]. intros [= E]. by eapply Hz.
  - intros f v t Hlf Et. specialize (Hok _ _ Hlf).
    assert (supported (tf_type f)) as Hs.
    { rewrite Forall_forall in Hsup. apply Hsup. by eapply leaf_of_attribute. }
    destruct (a !! KU32 (tf_code f)) as [x|].
    + destruct Hok as [Hw ->]. rewrite pointee_dec_attr in Et. unfold wire_type_ok in Hw.
      destruct (base_type (tf_type f)) as [[]| | | |]; destruct x; try done.
      cbn in Et. injection Et as <-. unfold fits_int64. rewrite micros_of_unix_micro. lia.
    + destruct Hok as [_ ->]. apply zero_value_time in Et as ->; [|done]. done.
Qed.

(** One attribute value as a record of the type may produce it. *)
Definition attr_clean (f : tfield) (x : attr) : Prop :=
  wire_type_ok (tf_type f) x /\ ~ empty_attr (tf_type f) x /\ attr_in_range x.

(** [usable c l a]: [a] decodes as type code [c] with attributes [l]. *)
Record usable (c : N) (l : list tfield) (a : attrset) : Prop := {
  us_code : a !! KU32 0 = Some (AU32 c);
  us_own : forall f x, f ∈ l -> a !! KU32 (tf_code f) = Some x -> attr_clean f x;
  us_req : forall f, f ∈ l -> tf_req f = true -> is_Some (a !! KU32 (tf_code f));
  us_range : forall k x, k <> KU32 0 -> a !! k = Some x -> attr_in_range x;
}.

(** [clean c l a]: additionally nothing foreign. *)
Definition clean (c : N) (l : list tfield) (a : attrset) : Prop :=
  usable c l a /\ forall k x, k <> KU32 0 -> a !! k = Some x -> exists f, f ∈ l /\ k = KU32 (tf_code f).

(** A record of built-in type [GStruct n fs], code [c], attributes [l]. *)
Definition builtin (c : N) (n : string) (fs : gofields) (l : list tfield) : Prop :=
  (c, GStruct n fs) ∈ builtin_types /\ attributes fs l.

Lemma good_builtin r : good_record r ->
  exists c n fs l p vs, builtin c n fs l /\ GStruct n fs ∈ record_types /\
    r = VRec p (GStruct n fs) (VStruct vs) /\ typed_fields fs vs /\ times_fit fs vs.
Proof.
  intros (n & fs & vs & Et & Ev & Hin & Hty & Hfit).
  destruct (record_types_builtin _ Hin) as [c Hc]. rewrite Et in Hc, Hin.
  destruct (registered_attributes _ _ _ _ vanflow_wf (builtin_registered _ _ Hc)) as (l & Hat & _).
  exists c, n, fs, l, (vr_ptr r), vs. split; [done|]. split; [done|]. split; [|done].
  destruct r; simpl in *; congruence.
Qed.

Lemma clean_decode c n fs l a : builtin c n fs l -> usable c l a ->
  exists ws a', Decode vanflow_registry (Some a) = Ok (record_any true (GStruct n fs) (VStruct ws)) /\
    typed_fields fs ws /\ times_fit fs ws /\
    Encode vanflow_registry (record_any true (GStruct n fs) (VStruct ws)) = EncOk a' /\ clean c l a' /\
    (forall k x, a' !! k = Some x <-> a !! k = Some x /\ (k = KU32 0 \/ exists f, f ∈ l /\ k = KU32 (tf_code f))) /\
    (clean c l a -> a' = a).
Proof.
  intros [Hin Hat] [H0 Hown Hreq Hrange].
  pose proof (builtin_registered _ _ Hin) as Hr. pose proof (builtin_no_zero _ _ _ Hin) as Hz.
  destruct (decode_strict _ _ _ _ _ a vanflow_wf Hr Hat H0) as [[_ Hdec] _].
  destruct Hdec as [r Hd].
  { intros f Hf. unfold attr_fine. destruct (a !! KU32 (tf_code f)) as [x|] eqn:Ex.
    - by destruct (Hown f x Hf Ex).
    - destruct (tf_req f) eqn:Eq; [|done]. destruct (Hreq f Hf Eq) as [y Hy]. congruence. }
  destruct (decode_typed _ _ _ _ _ _ _ vanflow_wf Hr Hat Hz Hrange H0 Hd) as (ws & -> & Hty & Hfit & _).
  exists ws.
  destruct (reencode _ _ _ _ _ _ _ vanflow_wf Hr Hat Hz Hrange H0 Hd)
    as [(a' & He & Ha')|[_ (f & x & Hf & _ & Hx & Hemp)]].
  2:{ by destruct (Hown f x Hf Hx) as (_ & ? & _). }
  assert (forall k x, a' !! k = Some x <->
    a !! k = Some x /\ (k = KU32 0 \/ exists f, f ∈ l /\ k = KU32 (tf_code f))) as Hk.
  { intros k x. rewrite Ha'. split.
    - intros [[-> ->]|(f & Hf & -> & Hx & _)]; [by split; [|left]|]. split; [done|]. right. eauto.
    - intros [Hx [->|(f & Hf & ->)]]; [left; split; [done|congruence]|]. right. exists f. split; [done|].
      split; [done|]. split; [done|]. by destruct (Hown f x Hf Hx) as (_ & ? & _). }
  exists a'. do 4 (split; [done|]). split; [|split; [done|]].
  - split.
    + split.
      * apply Hk. split; [done|by left].
      * intros f x Hf Hx. apply Hk in Hx as [Hx _]. by apply Hown.
      * intros f Hf Hq. destruct (Hreq f Hf Hq) as [x Hx]. exists x. apply Hk. split; [done|]. right. eauto.
      * intros k x Hne Hx. apply Hk in Hx as [Hx _]. by eapply Hrange.
    + intros k x Hne Hx. apply Hk in Hx as [_ [E|E]]; [destruct (Hne E)|exact E].
  - intros [_ Hf]. apply map_eq. intros k. apply option_eq. intros x. rewrite Hk. split; [tauto|].
    intros Hx. split; [done|]. destruct (decide (k = KU32 0)) as [|Hne]; [by left|]. right. exact (Hf k x Hne Hx).
Qed.

Lemma encode_clean c n fs l b vs a :
  builtin c n fs l -> typed_fields fs vs -> times_fit fs vs ->
  Encode vanflow_registry (record_any b (GStruct n fs) (VStruct vs)) = EncOk a -> clean c l a.
Proof.
  intros [Hin Hat] Hty Hfit He.
  pose proof (builtin_registered _ _ Hin) as Hr. pose proof (builtin_no_zero _ _ _ Hin) as Hz.
  destruct (registered_attributes _ _ _ _ vanflow_wf Hr) as (l' & Hat' & Hnd & Hsup).
  rewrite (attributes_fun _ _ _ Hat' Hat) in *. clear l' Hat'.
  destruct (encode_shape _ _ _ _ _ _ _ vanflow_wf Hr Hty Hfit Hz He) as (H0 & Hreq & Hsh).
  destruct (round_trip _ _ _ _ _ _ vanflow_wf Hty Hfit Hz He) as (ws & _ & Hd).
  destruct (decode_strict _ _ _ _ _ a vanflow_wf Hr Hat H0) as [[Hfine _] _].
  assert (forall f, f ∈ l -> attr_fine a f) as Hf by eauto.
  assert (forall k x, k <> KU32 0 -> a !! k = Some x -> attr_in_range x) as Hrange.
  { intros k x Hk Hx. apply (encode_exact _ _ _ _ _ _ _ vanflow_wf Hr Hty Hfit Hz He) in Hx
      as [[? _]|(f & v & Hlf & -> & _ & ->)]; [done|].
    assert (f ∈ l) as Hfl by (by eapply leaf_of_attribute).
    destruct (attribute_leaf _ _ _ _ Hat Hty Hfl) as (w & Hw & Htw).
    destruct (leaf_of_fun_code fs vs l f v f w Hat Hnd Hlf Hw eq_refl) as [_ <-].
    eapply attr_of_in_range; [|done|].
    - rewrite Forall_forall in Hsup. by apply Hsup.
    - intros tm Etm. by eapply Hfit. }
  split; [split|].
  - done.
  - intros f x Hfl Hx. split; [|split].
    + specialize (Hf f Hfl). unfold attr_fine in Hf. by rewrite Hx in Hf.
    + assert (KU32 (tf_code f) <> KU32 0) as Hne by (intros [= E]; by eapply Hz).
      destruct (Hsh _ _ Hx Hne) as (l' & f' & Hat' & Hin' & Ef & _ & H1 & H2 & H3 & H4 & H5).
      rewrite (attributes_fun _ _ _ Hat' Hat) in Hin'.
      assert (f' = f) as -> by (eapply codes_unique; eauto; congruence).
      by apply empty_attr_shape.
    + eapply Hrange; [|done]. intros [= E]. by eapply Hz.
  - intros f Hfl Hq. by eapply Hreq.
  - done.
  - intros k x Hne Hx. destruct (Hsh _ _ Hx Hne) as (l' & f' & Hat' & Hin' & Ef & _).
    rewrite (attributes_fun _ _ _ Hat' Hat) in Hin'. eauto.
Qed.

(** Merging the attributes of a second record over those of a first. *)
Lemma merge_usable c n fs l a c' n' fs' l' b :
  builtin c n fs l -> clean c l a -> builtin c' n' fs' l' -> clean c' l' b -> usable c' l' (b ∪ a).
Proof.
  intros [Hin Hat] [[H0 Hown Hreq Hrange] Hfor] [Hin' Hat'] [[H0' Hown' Hreq' Hrange'] Hfor'].
  split.
  - by apply lookup_union_Some_l.
  - intros f x Hf Hx. apply lookup_union_Some_raw in Hx as [Hx|[_ Hx]]; [by apply Hown'|].
    assert (KU32 (tf_code f) <> KU32 0) as Hne by (intros [= E]; by eapply (builtin_no_zero _ _ _ Hin')).
    destruct (Hfor _ _ Hne Hx) as (g & Hg & Eg). injection Eg as Eg.
    unfold attr_clean. rewrite (builtin_shared _ _ _ _ _ _ _ _ _ _ Hin' Hat' Hf Hin Hat Hg Eg).
    rewrite Eg in Hx. by apply Hown.
  - intros f Hf Hq. destruct (Hreq' f Hf Hq) as [x Hx]. exists x. by apply lookup_union_Some_l.
  - intros k x Hne Hx. apply lookup_union_Some_raw in Hx as [Hx|[_ Hx]]; eauto.
Qed.

Lemma merge_clean c l a b : clean c l a -> clean c l b -> clean c l (b ∪ a).
Proof.
  intros [[H0 Hown Hreq Hrange] Hfor] [[H0' Hown' Hreq' Hrange'] Hfor'].
  split; [split|].
  - by apply lookup_union_Some_l.
  - intros f x Hf Hx. apply lookup_union_Some_raw in Hx as [Hx|[_ Hx]]; [by apply Hown'|by apply Hown].
  - intros f Hf Hq. destruct (Hreq' f Hf Hq) as [x Hx]. exists x. by apply lookup_union_Some_l.
  - intros k x Hne Hx. apply lookup_union_Some_raw in Hx as [Hx|[_ Hx]]; eauto.
  - intros k x Hne Hx. apply lookup_union_Some_raw in Hx as [Hx|[_ Hx]]; eauto.
Qed.

(** The identity is attribute 1. *)
Lemma encode_identity c n fs l b vs a :
  builtin c n fs l -> typed_fields fs vs -> times_fit fs vs ->
  Encode vanflow_registry (record_any b (GStruct n fs) (VStruct vs)) = EncOk a ->
  a !! KU32 1 = Some (AStr (identity_of (VStruct vs))) /\ identity_of (VStruct vs) <> ""%string.
Proof.
  intros [Hin Hat] Hty Hfit He.
  pose proof (builtin_registered _ _ Hin) as Hr. pose proof (builtin_no_zero _ _ _ Hin) as Hz.
  pose proof (builtin_has_id _ _ _ _ Hin Hat) as Hid.
  destruct (attribute_leaf _ _ _ _ Hat Hty Hid) as (v & Hlf & _).
  pose proof (builtin_id_leaf _ _ _ _ _ _ Hin Hty Hlf eq_refl) as ->.
  assert (encodable fs vs) as Henc.
  { apply (encode_iff _ b n fs vs c vanflow_wf Hr Hty Hfit). eauto. }
  destruct (Henc _ _ Hlf) as [Hne _]. specialize (Hne eq_refl).
  split; [|done].
  apply (encode_exact _ _ _ _ _ _ _ vanflow_wf Hr Hty Hfit Hz He). right.
  eexists _, _. split; [exact Hlf|]. done.
Qed.

(** Decoding the merge of two encoded records. *)
Lemma merge_records r1 a r2 b :
  good_record r1 -> Encode vanflow_registry (vrec_any r1) = EncOk a ->
  good_record r2 -> Encode vanflow_registry (vrec_any r2) = EncOk b ->
  exists r a', Decode vanflow_registry (Some (b ∪ a)) = Ok (vrec_any r) /\ good_record r /\
    vr_ptr r = true /\ vr_type r = vr_type r2 /\ vrec_identity r = vrec_identity r2 /\
    Encode vanflow_registry (vrec_any r) = EncOk a' /\ b ⊆ a' /\ a' ⊆ b ∪ a /\
    (vr_type r1 = vr_type r2 -> a' = b ∪ a).
Proof.
  intros G1 E1 G2 E2.
  destruct (good_builtin _ G1) as (c & n & fs & l & p & vs & B & Hin & -> & Hty & Hfit).
  destruct (good_builtin _ G2) as (c' & n' & fs' & l' & p' & vs' & B' & Hin' & -> & Hty' & Hfit').
  unfold vrec_any in *. cbn [vr_ptr vr_type vr_val] in *.
  pose proof (encode_clean _ _ _ _ _ _ _ B Hty Hfit E1) as C1.
  pose proof (encode_clean _ _ _ _ _ _ _ B' Hty' Hfit' E2) as C2.
  pose proof (merge_usable _ _ _ _ _ _ _ _ _ _ B C1 B' C2) as Hu.
  destruct (clean_decode _ _ _ _ _ B' Hu) as (ws & a' & Hd & Hty2 & Hfit2 & He & Hc & Hk & Hfix).
  exists (VRec true (GStruct n' fs') (VStruct ws)), a'. cbn [vr_ptr vr_type vr_val].
  assert (b ⊆ a') as Hsub.
  { apply map_subseteq_spec. intros k x Hx. apply Hk. split; [by apply lookup_union_Some_l|].
    destruct (decide (k = KU32 0)) as [|Hne]; [by left|]. right. by eapply C2. }
  split; [exact Hd|]. split.
  { exists n', fs', ws. split; [reflexivity|]. split; [reflexivity|]. split; [exact Hin'|]. split; [exact Hty2|exact Hfit2]. }
  split; [reflexivity|]. split; [reflexivity|]. split.
  { destruct (encode_identity _ _ _ _ _ _ _ B' Hty2 Hfit2 He) as [I1 _].
    destruct (encode_identity _ _ _ _ _ _ _ B' Hty' Hfit' E2) as [I2 _].
    pose proof (lookup_weaken _ _ _ _ I2 Hsub) as I3. unfold vrec_identity. simpl. congruence. }
  split; [done|]. split; [done|]. split.
  { apply map_subseteq_spec. intros k x Hx. by apply Hk in Hx as [? _]. }
  intros [= <- <-]. apply Hfix.
  assert (c' = c) as ->.
  { destruct B as [B1 B2], B' as [B1' B2'].
    eapply registered_type_inj; eapply builtin_registered; eassumption. }
  assert (l' = l) as -> by (eapply attributes_fun; [apply B'|apply B]).
  by apply merge_clean.
Qed.

(** An encodable record has a non-empty identity, held by attribute 1. *)
Lemma good_identity r a : good_record r -> Encode vanflow_registry (vrec_any r) = EncOk a ->
  a !! KU32 1 = Some (AStr (vrec_identity r)) /\ vrec_identity r <> ""%string.
Proof.
  intros G E. destruct (good_builtin _ G) as (c & n & fs & l & p & vs & B & Hin & -> & Hty & Hfit).
  unfold vrec_any, vrec_identity in *. cbn [vr_ptr vr_type vr_val] in *. by eapply encode_identity.
Qed.

Lemma good_meta r : good_record r -> get_type_meta (vr_type r) = Some (vrec_meta r).
Proof.
  intros G. destruct (good_builtin _ G) as (c & n & fs & l & p & vs & B & Hin & Er & Hty & Hfit).
  unfold vrec_meta. rewrite Er. cbn [vr_type].
  destruct (get_type_meta (GStruct n fs)) as [m|] eqn:E; [done|]. by apply get_type_meta_None in E.
Qed.
