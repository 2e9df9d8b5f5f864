(** The codec properties in the form used by the property files. *)
From Coq Require Import ZArith NArith Ascii String Lia.
From stdpp Require Import base gmap strings list.
From Verif Require Import GoBase Encoding SpecEncoding EncodingFacts CodecFacts DecodeFacts CodecTop Records.

Local Open Scope list_scope.

Lemma Encode_ok_registered reg b n fs vs a :
  reg_wf reg -> Encode reg (record_any b (GStruct n fs) vs) = EncOk a ->
  exists te, lookup_encoding (GStruct n fs) (encodings reg) = Some te /\ encode_with te vs = EncOk a.
Proof.
  intros Hwf. destruct b; simpl.
  - rewrite lookup_ptr_none by done.
    destruct (lookup_encoding (GStruct n fs) (encodings reg)) as [te|]; [eauto|done].
  - destruct (lookup_encoding (GStruct n fs) (encodings reg)) as [te|]; [eauto|done].
Qed.

Lemma normal_fun fs vs ws ws' : normal fs vs ws -> normal fs vs ws' -> ws = ws'.
Proof.
  intros H; revert ws'; induction H as [|n tg c b t rest v vs ws Hne Hd H IH|n t rest v vs ws H IH
    |n tg t rest v vs ws H IH|n e tg m fs rest us us' vs ws Hu IHu H IH|n e tg t rest v vs ws Hns H IH];
    intros ws' H'; inversion H'; subst; try done; f_equal; auto.
  - f_equal. by apply IHu.
  - exfalso. match goal with H : forall m fs, GStruct _ _ <> _ |- _ => by eapply H end.
  - exfalso. by eapply Hns.
Qed.

Lemma round_trip reg b n fs vs a :
  reg_wf reg -> typed_fields fs vs -> times_fit fs vs -> no_zero_code fs ->
  Encode reg (record_any b (GStruct n fs) (VStruct vs)) = EncOk a ->
  exists ws, normal fs vs ws /\
    Decode reg (Some a) = Ok (record_any true (GStruct n fs) (VStruct ws)).
Proof.
  intros Hwf Hty Hfit Hz He.
  apply Encode_ok_registered in He as (te & Hl & He); [|done].
  set (c := te_code te).
  assert (registered reg (GStruct n fs) c) as Hreg by (by exists te).
  destruct (registered_attributes _ _ _ _ Hwf Hreg) as (l & Hat & Hnd & Hsup).
  pose proof (encode_with_lookup _ _ _ _ _ _ _ Hwf Hl eq_refl Hty Hfit He) as Hlk.
  assert (encodable fs vs) as Henc.
  { destruct (encode_with_ok _ _ _ _ _ _ Hwf Hl eq_refl Hty Hfit) as [_ Hbad].
    intros f v Hlf. split.
    - intros Hr Hempty. destruct Hbad as (p & e & Hp); [|congruence].
      intros Hx. by apply (Hx f v Hlf).
    - intros t Et. destruct (decide (t = zero_time)); [by left|].
      destruct (decide (before_epoch t)); [|by right].
      destruct Hbad as (p & e & Hp); [|congruence].
      intros Hx. destruct (proj2 (Hx f v Hlf) _ Et); done. }
  destruct (dec_struct_roundtrip a fs vs l Hat Hsup Hty) as (ws & Hdec & Hn).
  { intros f v Hlf. destruct (Henc f v Hlf) as [Hreq Htm]. split; [|split; [done|]].
    - intros tm Etm. split; [by eapply Hfit|by apply Htm].
    - assert (f ∈ l) as Hin by (by eapply leaf_of_attribute).
      case_bool_decide as Hempty.
      + destruct (a !! KU32 (tf_code f)) as [x|] eqn:Ex; [|done]. exfalso.
        apply Hlk in Ex as [[Ek _]|[_ (g & w & Hg & Ek & Hne & _)]].
        * injection Ek as Ek. by eapply Hz.
        * injection Ek as Ek. by destruct (leaf_of_fun_code fs vs l f v g w Hat Hnd Hlf Hg Ek) as [-> ->].
      + apply Hlk. right. split.
        * intros [= Ek]. by eapply Hz.
        * exists f, v. done. }
  exists ws. split; [done|].
  rewrite (Decode_registered reg n fs c a Hwf Hreg).
  - by rewrite Hdec.
  - apply Hlk. left. done.
Qed.

Lemma encode_iff reg b n fs vs c :
  reg_wf reg -> registered reg (GStruct n fs) c -> typed_fields fs vs -> times_fit fs vs ->
  ((exists a, Encode reg (record_any b (GStruct n fs) (VStruct vs)) = EncOk a) <-> encodable fs vs) /\
  Encode reg (record_any b (GStruct n fs) (VStruct vs)) <> EncPanic.
Proof.
  intros Hwf (te & Hl & Hc) Hty Hfit.
  rewrite (Encode_registered _ b _ _ _ Hwf Hl).
  destruct (encode_with_ok _ _ _ _ _ _ Hwf Hl Hc Hty Hfit) as [Hgood Hbad].
  destruct (encodable_dec reg n fs c vs Hwf) as [Hx|Hx]; [by exists te|done|..].
  - destruct (Hgood Hx) as [a Ha]. split; [|congruence]. split; [done|]. intros _. eauto.
  - destruct (Hbad Hx) as (p & e & Ha). split; [|congruence]. split; [|done]. intros [a Ha']. congruence.
Qed.

Lemma encode_exact reg b n fs vs c a :
  reg_wf reg -> registered reg (GStruct n fs) c -> typed_fields fs vs -> times_fit fs vs ->
  no_zero_code fs ->
  Encode reg (record_any b (GStruct n fs) (VStruct vs)) = EncOk a ->
  forall k x, a !! k = Some x <->
    (k = KU32 0 /\ x = AU32 c) \/
    (exists f v, leaf_of fs vs f v /\ k = KU32 (tf_code f) /\ ~ empty_value v /\ x = attr_of v).
Proof.
  intros Hwf (te & Hl & Hc) Hty Hfit Hz He k x.
  rewrite (Encode_registered _ b _ _ _ Hwf Hl) in He.
  rewrite (encode_with_lookup _ _ _ _ _ _ _ Hwf Hl Hc Hty Hfit He k x).
  destruct (registered_attributes reg n fs c Hwf) as (l & Hat & Hnd & Hsup); [by exists te|].
  split; (intros [H|H]; [by left|right]); [by destruct H|].
  destruct H as (f & v & Hlf & -> & Hr). split; [|by exists f, v].
  intros [= E]. eapply Hz; [done| |done]. by eapply leaf_of_attribute.
Qed.

(** A non-empty attribute value is never nil, an empty string or zero, except a
    time exactly at the epoch. *)
Lemma attr_of_nonempty t v :
  supported t -> typed t v -> ~ empty_value v ->
  attr_of v <> ANil /\ attr_of v <> AStr "" /\ attr_of v <> AU32 0 /\ attr_of v <> AI32 0 /\
  attr_of v <> AI64 0 /\ (attr_of v = AU64 0 -> base_type t = GTime).
Proof.
  intros Hs; revert v; induction Hs as [k| |t Hs IH]; intros v Hv He.
  - destruct k, v; try done; unfold empty_value in He; cbn in *; repeat split; try congruence;
      intros [= ?]; done.
  - destruct v; try done.
  - destruct v as [| | | | | |[v'|]| |]; try done. exact (IH v' Hv He).
Qed.

Lemma encode_shape reg b n fs vs c a :
  reg_wf reg -> registered reg (GStruct n fs) c -> typed_fields fs vs -> times_fit fs vs ->
  no_zero_code fs ->
  Encode reg (record_any b (GStruct n fs) (VStruct vs)) = EncOk a ->
  a !! KU32 0 = Some (AU32 c) /\
  (forall l f, attributes fs l -> f ∈ l -> tf_req f = true -> is_Some (a !! KU32 (tf_code f))) /\
  (forall k x, a !! k = Some x -> k <> KU32 0 ->
     exists l f, attributes fs l /\ f ∈ l /\ k = KU32 (tf_code f) /\
       x <> ANil /\ x <> AStr "" /\ x <> AU32 0 /\ x <> AI32 0 /\ x <> AI64 0 /\
       (x = AU64 0 -> base_type (tf_type f) = GTime)).
Proof.
  intros Hwf Hr Hty Hfit Hz He.
  pose proof (encode_exact _ _ _ _ _ _ _ Hwf Hr Hty Hfit Hz He) as Hx.
  destruct (registered_attributes reg n fs c Hwf Hr) as (l & Hat & Hnd & Hsup).
  split; [apply Hx; by left|]. split.
  - intros l' f Hat' Hin Hreq. rewrite (attributes_fun _ _ _ Hat' Hat) in Hin.
    destruct (attribute_leaf _ _ _ _ Hat Hty Hin) as (v & Hlf & _).
    exists (attr_of v). apply Hx. right. exists f, v. split; [done|]. split; [done|]. split; [|done].
    destruct (encode_iff reg b n fs vs c Hwf Hr Hty Hfit) as [[Hi _] _].
    destruct (Hi (ex_intro _ a He) f v Hlf) as [Hne _]. by apply Hne.
  - intros k x Hk Hne. apply Hx in Hk as [[? _]|(f & v & Hlf & -> & Hempty & ->)]; [done|].
    assert (f ∈ l) as Hin by (by eapply leaf_of_attribute).
    exists l, f. split; [done|]. split; [done|]. split; [done|].
    destruct (attribute_leaf _ _ _ _ Hat Hty Hin) as (w & Hw & Htw).
    destruct (leaf_of_fun_code fs vs l f v f w Hat Hnd Hlf Hw eq_refl) as [_ <-].
    eapply attr_of_nonempty; [|done..]. rewrite Forall_forall in Hsup. by apply Hsup.
Qed.

(** ** Decode *)

Lemma decode_blind reg n fs c l a1 a2 :
  reg_wf reg -> registered reg (GStruct n fs) c -> attributes fs l ->
  a1 !! KU32 0 = Some (AU32 c) -> a2 !! KU32 0 = Some (AU32 c) ->
  (forall f, f ∈ l -> a1 !! KU32 (tf_code f) = a2 !! KU32 (tf_code f)) ->
  Decode reg (Some a1) = Decode reg (Some a2).
Proof.
  intros Hwf Hr Hat H1 H2 Heq.
  rewrite (Decode_registered reg n fs c a1 Hwf Hr H1), (Decode_registered reg n fs c a2 Hwf Hr H2).
  by rewrite (dec_struct_ext a1 a2 fs _ l Hat Heq).
Qed.

Lemma decode_strict reg n fs c l a :
  reg_wf reg -> registered reg (GStruct n fs) c -> attributes fs l ->
  a !! KU32 0 = Some (AU32 c) ->
  ((exists r, Decode reg (Some a) = Ok r) <-> (forall f, f ∈ l -> attr_fine a f)) /\
  (Decode reg (Some a) = Panic <->
     exists l1 f l2, l = l1 ++ f :: l2 /\ (forall g, g ∈ l1 -> attr_fine a g) /\
       base_type (tf_type f) <> GTime /\ a !! KU32 (tf_code f) = Some ANil).
Proof.
  intros Hwf Hr Hat H0.
  destruct (registered_attributes reg n fs c Hwf Hr) as (l' & Hat' & Hnd & Hsup).
  rewrite (attributes_fun _ _ _ Hat' Hat) in *.
  rewrite (Decode_registered reg n fs c a Hwf Hr H0). split.
  - rewrite <- (dec_struct_total a fs l Hat Hsup). destruct (dec_struct a fs (zero_fields fs)) as [ws| |].
    + split; eauto.
    + split; by intros [? ?].
    + split; by intros [? ?].
  - pose proof (dec_struct_panic_iff a fs l Hat Hsup) as Hp. unfold nil_raw in Hp.
    rewrite <- Hp. by destruct (dec_struct a fs (zero_fields fs)).
Qed.

Lemma Decode_unregistered reg a :
  reg_wf reg ->
  (forall c, a !! KU32 0 = Some (AU32 c) -> forall t, ~ registered reg t c) ->
  exists e, Decode reg (Some a) = Err e.
Proof.
  intros [He Hd] H. unfold Decode, type_of_record.
  destruct (a !! KU32 0) as [[| c| | | | |]|] eqn:E; eauto.
  destruct (decodings reg !! c) as [te|] eqn:Ed; eauto.
  exfalso. destruct (Hd _ _ Ed) as [<- Hl]. eapply H; [done|]. by exists te.
Qed.

Lemma Decode_GTime reg c a :
  reg_wf reg -> registered reg GTime c -> a !! KU32 0 = Some (AU32 c) ->
  Decode reg (Some a) = Ok (record_any true GTime (VTime zero_time)).
Proof.
  intros [He Hd] (te & Hl & <-) H0. destruct (He _ _ Hl) as (Ht & Hdec & [(n & fs & Et & _)|[Et Ef]]); [congruence|].
  unfold Decode, type_of_record. by rewrite H0, Hdec, Ef, Et.
Qed.

Lemma registered_shape reg t c :
  reg_wf reg -> registered reg t c -> t = GTime \/ exists n fs, t = GStruct n fs.
Proof.
  intros [He Hd] (te & Hl & <-). destruct (He _ _ Hl) as (Ht & _ & [(n & fs & Et & _)|[Et _]]).
  - right. exists n, fs. congruence.
  - left. congruence.
Qed.

Lemma decode_no_nil_no_panic reg set :
  reg_wf reg ->
  (forall a, set = Some a -> forall k, a !! k <> Some ANil) ->
  Decode reg set <> Panic.
Proof.
  intros Hwf Hn. destruct set as [a|]; [|done]. specialize (Hn a eq_refl).
  destruct (a !! KU32 0) as [x|] eqn:E.
  2:{ unfold Decode, type_of_record. by rewrite E. }
  assert ((exists c, x = AU32 c) \/ ~ (exists c, x = AU32 c)) as [[c ->]|Hx].
  { destruct x; try (right; by intros [? ?]). left. eauto. }
  2:{ unfold Decode, type_of_record. rewrite E. destruct x; try done. exfalso; eauto. }
  destruct (decodings reg !! c) as [te|] eqn:Ed.
  2:{ unfold Decode, type_of_record. by rewrite E, Ed. }
  assert (registered reg (te_t te) c) as Hr.
  { destruct Hwf as [_ Hd]. destruct (Hd _ _ Ed) as [<- Hl]. by exists te. }
  destruct (registered_shape _ _ _ Hwf Hr) as [Et|(n & fs & Et)]; rewrite Et in Hr.
  - by rewrite (Decode_GTime _ _ _ Hwf Hr E).
  - destruct (registered_attributes _ _ _ _ Hwf Hr) as (l & Hat & _).
    destruct (decode_strict _ _ _ _ _ _ Hwf Hr Hat E) as [_ Hp]. rewrite Hp.
    intros (l1 & f & l2 & _ & _ & _ & Hnil). by eapply Hn.
Qed.

(** ** Re-encoding *)

Lemma reencode reg n fs c l a r :
  reg_wf reg -> registered reg (GStruct n fs) c -> attributes fs l -> no_zero_code fs ->
  (forall k x, k <> KU32 0 -> a !! k = Some x -> attr_in_range x) ->
  a !! KU32 0 = Some (AU32 c) -> Decode reg (Some a) = Ok r ->
  (exists a', Encode reg r = EncOk a' /\
     forall k x, a' !! k = Some x <->
       (k = KU32 0 /\ x = AU32 c) \/
       (exists f, f ∈ l /\ k = KU32 (tf_code f) /\ a !! k = Some x /\ ~ empty_attr (tf_type f) x)) \/
  ((exists p e, Encode reg r = EncErr p e) /\
   exists f x, f ∈ l /\ tf_req f = true /\ a !! KU32 (tf_code f) = Some x /\ empty_attr (tf_type f) x).
Proof.
  intros Hwf Hr Hat Hz Hrange H0 Hdec.
  destruct (registered_attributes reg n fs c Hwf Hr) as (l' & Hat' & Hnd & Hsup).
  rewrite (attributes_fun _ _ _ Hat' Hat) in *. clear l' Hat'.
  rewrite (Decode_registered reg n fs c a Hwf Hr H0) in Hdec.
  destruct (dec_struct a fs (zero_fields fs)) as [ws| |] eqn:Ews; try done. injection Hdec as <-.
  pose proof (dec_struct_ok a fs ws l Hat Hsup Ews) as Hok.
  assert (typed_fields fs ws) as Hty.
  { apply (dec_struct_typed (delete (KU32 0) a) fs ws l Hat Hsup).
    - intros k x Hx. apply lookup_delete_Some in Hx as [? Hx]. by eapply Hrange.
    - rewrite <- Ews. symmetry. apply (dec_struct_ext a _ fs _ l Hat).
      intros f Hf. rewrite lookup_delete_ne; [done|]. intros [= E]. by eapply Hz. }
  change (AnyVal (GPtr (GStruct n fs)) (VPtr (Some (VStruct ws))))
    with (record_any true (GStruct n fs) (VStruct ws)).
  (* times in decoded values are zero or in range *)
  assert (forall f v t, leaf_of fs ws f v -> pointee v = VTime t ->
            fits_int64 t /\ (t = zero_time \/ ~ before_epoch t)) as Htimes.
  { intros f v t Hlf Et. specialize (Hok _ _ Hlf).
    assert (supported (tf_type f)) as Hs.
    { rewrite Forall_forall in Hsup. apply Hsup. by eapply leaf_of_attribute. }
    destruct (a !! KU32 (tf_code f)) as [x|].
    - destruct Hok as [Hw ->]. rewrite pointee_dec_attr in Et. unfold wire_type_ok in Hw.
      destruct (base_type (tf_type f)) as [[]| | | |]; destruct x; try done.
      cbn in Et. injection Et as <-. unfold fits_int64, before_epoch. rewrite micros_of_unix_micro.
      split; [lia|right; lia].
    - destruct Hok as [_ ->]. apply zero_value_time in Et as ->; [|done]. split; [done|by left]. }
  assert (times_fit fs ws) as Hfit by (intros f v t Hlf Et; by eapply Htimes).
  destruct (encode_iff reg true n fs ws c Hwf Hr Hty Hfit) as [Hiff Hnp].
  destruct (encodable_dec reg n fs c ws Hwf Hr Hty) as [Hx|Hx].
  - left. destruct (proj2 Hiff Hx) as [a' Ha']. exists a'. split; [done|]. intros k x.
    rewrite (encode_exact _ _ _ _ _ _ _ Hwf Hr Hty Hfit Hz Ha' k x).
    apply or_iff_compat_l. split.
    + intros (f & v & Hlf & -> & Hne & ->).
      assert (f ∈ l) as Hin by (by eapply leaf_of_attribute).
      exists f. split; [done|]. split; [done|]. specialize (Hok _ _ Hlf).
      destruct (a !! KU32 (tf_code f)) as [y|].
      * destruct Hok as [Hw ->]. rewrite dec_attr_value_attr by done. split; [done|].
        by rewrite <- dec_attr_value_empty.
      * destruct Hok as [_ ->]. exfalso. apply Hne. apply zero_value_empty.
        rewrite Forall_forall in Hsup. by apply Hsup.
    + intros (f & Hin & -> & Ha & Hne).
      destruct (attribute_leaf _ _ _ _ Hat Hty Hin) as (v & Hlf & _).
      exists f, v. specialize (Hok _ _ Hlf). rewrite Ha in Hok. destruct Hok as [Hw ->].
      split; [done|]. split; [done|]. rewrite dec_attr_value_empty by done.
      by rewrite dec_attr_value_attr.
  - right. split.
    + destruct (Encode reg (record_any true (GStruct n fs) (VStruct ws))) as [a'|p e|] eqn:E; eauto; [|done].
      exfalso. apply Hx, Hiff. eauto.
    + (* find the offending required attribute *)
      assert (Forall (fun f => ~ (tf_req f = true /\ exists x, a !! KU32 (tf_code f) = Some x /\ empty_attr (tf_type f) x)) l
        \/ Exists (fun f => tf_req f = true /\ exists x, a !! KU32 (tf_code f) = Some x /\ empty_attr (tf_type f) x) l)
        as [HF|HE].
      { clear. induction l as [|f l IH]; [left; constructor|].
        destruct IH as [IH|IH]; [|right; by constructor 2].
        destruct (decide (tf_req f = true)) as [Hreq|Hreq].
        2:{ left. constructor; [|done]. by intros [? _]. }
        destruct (a !! KU32 (tf_code f)) as [x|] eqn:Ex.
        2:{ left. constructor; [|done]. rewrite Ex. by intros [_ (x & ? & _)]. }
        assert (Decision (empty_attr (tf_type f) x)) as [Hy|Hy].
        { unfold empty_attr. destruct (base_type (tf_type f)); apply _. }
        - right. constructor 1. eauto.
        - left. constructor; [|done]. rewrite Ex. intros [_ (y & [= <-] & ?)]. done. }
      * exfalso. apply Hx. intros f v Hlf. split; [|intros t Et; by eapply Htimes].
        intros Hreq Hempty.
        assert (f ∈ l) as Hin by (by eapply leaf_of_attribute).
        specialize (Hok _ _ Hlf). rewrite Forall_forall in HF. apply (HF f Hin).
        split; [done|].
        destruct (a !! KU32 (tf_code f)) as [y|]; [|destruct Hok; congruence].
        destruct Hok as [Hw ->]. exists y. split; [done|]. by apply dec_attr_value_empty.
      * apply Exists_exists in HE as (f & Hin & Hreq & x & Hx1 & Hx2). eauto 10.
Qed.

(** ** Registration *)

Lemma registered_mono calls more t c :
  registered (register_all calls) t c -> registered (register_all (calls ++ more)) t c.
Proof.
  intros H. induction more as [|[c' r] more IH] using rev_ind; [by rewrite app_nil_r|].
  rewrite app_assoc, register_all_snoc.
  destruct (must_register c' r (register_all (calls ++ more))) as [reg'| |] eqn:E; try done.
  unfold must_register in E.
  destruct (decodings (register_all (calls ++ more)) !! c') eqn:Ec; [done|].
  destruct (new_encoding_for_type c' r) as [te| |] eqn:En; try done.
  destruct (lookup_encoding (te_t te) (encodings (register_all (calls ++ more)))) eqn:El; [done|].
  injection E as <-. destruct IH as (te' & Hl & Hc). exists te'. split; [|done]. simpl.
  destruct (gotype_eqb t (te_t te)) eqn:Et; [|done]. apply gotype_eqb_eq in Et. congruence.
Qed.

Lemma registered_type_inj reg t c c' : registered reg t c -> registered reg t c' -> c = c'.
Proof. intros (te & Hl & <-) (te' & Hl' & <-). congruence. Qed.

Lemma decodings_registered reg c te :
  reg_wf reg -> decodings reg !! c = Some te -> registered reg (te_t te) c.
Proof. intros [_ Hd] H. destruct (Hd _ _ H) as [<- Hl]. by exists te. Qed.

Lemma registered_decodings reg t c :
  reg_wf reg -> registered reg t c -> exists te, decodings reg !! c = Some te /\ te_t te = t.
Proof. intros [He _] (te & Hl & <-). destruct (He _ _ Hl) as (Ht & Hd & _). eauto. Qed.

Lemma registered_registrable reg t c : reg_wf reg -> registered reg t c -> registrable t.
Proof.
  intros Hwf Hr. destruct (registered_shape _ _ _ Hwf Hr) as [->|(n & fs & ->)]; [by left|].
  right. exists n, fs. split; [done|]. by eapply registered_attributes.
Qed.

Lemma indirect_type_holds x t : indirect_type x = Some t <-> holds x t.
Proof.
  unfold holds. split.
  - destruct x as [|t' v]; [done|].
    destruct t'; try (intros [= <-]; left; eexists; split; [done|done]).
    destruct v as [| | | | | |[v|]| |]; try done. intros [= <-]. right. eauto.
  - intros [(v & -> & Hn)|(v & ->)]; [|done]. destruct t; try done. exfalso; by eapply Hn.
Qed.

Lemma wf_record_fields_iff fs :
  wf_record_fields fs <-> exists l, fields_for fs [] 0 = Ok l /\ codes_distinct l [] = true.
Proof.
  split.
  - intros (l & Ha & Hnd & Hs). destruct (fields_for_complete fs l [] 0 Ha Hs) as (l' & E & <-).
    exists l'. split; [done|]. apply codes_distinct_spec. split.
    + by rewrite <- list_fmap_compose in Hnd.
    + intros f _. apply not_elem_of_nil.
  - intros (l & E & Hd). apply codes_distinct_spec in Hd as [Hnd _].
    destruct (fields_for_attributes _ _ _ _ E) as [Ha Hc]. exists (tf <$> l). split; [done|].
    split; [by rewrite <- list_fmap_compose|by apply codecs_supported].
Qed.

Lemma new_encoding_ok c x :
  (exists te, new_encoding_for_type c x = Ok te) <-> exists t, holds x t /\ registrable t.
Proof.
  unfold new_encoding_for_type. split.
  - intros [te H]. destruct (indirect_type x) as [t|] eqn:E; [|done].
    exists t. split; [by apply indirect_type_holds|].
    destruct t as [| | |n fs|]; try done; [by left|]. right. exists n, fs. split; [done|].
    apply wf_record_fields_iff. destruct (fields_for fs [] 0) as [l| |]; try done.
    exists l. split; [done|]. by destruct (codes_distinct l []).
  - intros (t & Hh & Hr). apply indirect_type_holds in Hh. rewrite Hh.
    destruct Hr as [->|(n & fs & -> & Hw)]; [eauto|].
    apply wf_record_fields_iff in Hw as (l & -> & ->). eauto.
Qed.

Lemma new_encoding_type c x te t :
  new_encoding_for_type c x = Ok te -> holds x t -> te_t te = t.
Proof.
  unfold new_encoding_for_type. intros H Hh. apply indirect_type_holds in Hh. rewrite Hh in H.
  destruct t as [| | |n fs|]; try done; [by injection H as <-|].
  destruct (fields_for fs [] 0) as [l| |]; try done. destruct (codes_distinct l []); [|done].
  by injection H as <-.
Qed.

Lemma must_register_not_err c x reg e : must_register c x reg <> Err e.
Proof.
  unfold must_register. destruct (decodings reg !! c); [done|].
  unfold new_encoding_for_type. destruct (indirect_type x) as [[| | |n fs|]|]; try done.
  - destruct (lookup_encoding _ _); done.
  - destruct (fields_for fs [] 0) eqn:E; try done; [|by apply fields_for_not_err in E].
    destruct (codes_distinct a []); [|done]. by destruct (lookup_encoding _ _).
Qed.

Lemma must_register_iff c x reg :
  reg_wf reg ->
  (exists reg', must_register c x reg = Ok reg') <->
  (forall t, ~ registered reg t c) /\
  exists t, holds x t /\ registrable t /\ forall c', ~ registered reg t c'.
Proof.
  intros Hwf. unfold must_register. split.
  - intros [reg' H]. destruct (decodings reg !! c) eqn:Ec; [done|].
    destruct (new_encoding_for_type c x) as [te| |] eqn:En; try done.
    destruct (lookup_encoding (te_t te) (encodings reg)) eqn:El; [done|]. split.
    + intros t Hr. destruct (registered_decodings _ _ _ Hwf Hr) as (te' & H' & _). congruence.
    + destruct (proj1 (new_encoding_ok c x)) as (t & Hh & Hr); [eauto|]. exists t.
      split; [done|]. split; [done|]. rewrite (new_encoding_type _ _ _ _ En Hh) in El.
      intros c' (te' & Hl & _). congruence.
  - intros [Hc (t & Hh & Hr & Ht)].
    destruct (decodings reg !! c) as [te0|] eqn:Ec.
    { exfalso. by eapply Hc, decodings_registered. }
    destruct (proj2 (new_encoding_ok c x)) as [te Hte]; [eauto|]. rewrite Hte.
    rewrite (new_encoding_type _ _ _ _ Hte Hh).
    destruct (lookup_encoding t (encodings reg)) as [te0|] eqn:El; [|eauto].
    exfalso. eapply Ht. by exists te0.
Qed.

(** Effect of a successful registration. *)
Lemma must_register_effect c x reg reg' t :
  reg_wf reg -> must_register c x reg = Ok reg' -> holds x t -> registered reg' t c.
Proof.
  intros Hwf. unfold must_register. destruct (decodings reg !! c) eqn:Ec; [done|].
  destruct (new_encoding_for_type c x) as [te| |] eqn:En; try done.
  destruct (lookup_encoding (te_t te) (encodings reg)) eqn:El; [done|]. intros [= <-] Hh.
  exists te. simpl. rewrite (new_encoding_type _ _ _ _ En Hh), gotype_eqb_refl. split; [done|].
  by apply new_encoding_wf in En as [_ ?].
Qed.
