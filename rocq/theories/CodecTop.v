(** Registry invariant and the top-level facts about Encode and Decode. *)
From Coq Require Import ZArith NArith Ascii String Lia.
From stdpp Require Import base gmap strings list.
From Verif Require Import GoBase Encoding SpecEncoding EncodingFacts CodecFacts DecodeFacts.

Local Open Scope list_scope.

Lemma codes_distinct_spec l seen :
  codes_distinct l seen = true <->
  NoDup (f_code <$> l) /\ (forall f, f ∈ l -> f_code f ∉ seen).
Proof.
  revert seen; induction l as [|f l IH]; intros seen; simpl.
  - split; [|done]. intros _. split; [constructor|]. intros f Hf. by apply elem_of_nil in Hf.
  - rewrite NoDup_cons. case_bool_decide as Hs.
    + split; [done|]. intros [_ H]. exfalso. by apply (H f); [left|].
    + rewrite IH. split.
      * intros [Hnd Hd]. split.
        -- split; [|done]. intros Hin. apply elem_of_list_fmap in Hin as (g & E & Hg).
           apply (Hd g Hg). rewrite <- E. left.
        -- intros g Hg. apply elem_of_cons in Hg as [->|Hg]; [done|].
           intros Hin. apply (Hd g Hg). by right.
      * intros [[Hn Hnd] Hd]. split; [done|]. intros g Hg Hin.
        apply elem_of_cons in Hin as [E|Hin].
        -- apply Hn. rewrite <- E. by apply elem_of_list_fmap_1.
        -- apply (Hd g); [by right|done].
Qed.

Definition te_wf (te : type_encoding) : Prop :=
  (exists n fs, te_t te = GStruct n fs /\ fields_for fs [] 0 = Ok (te_fields te) /\
     NoDup (f_code <$> te_fields te)) \/
  (te_t te = GTime /\ te_fields te = []).

Definition reg_wf (reg : registry) : Prop :=
  (forall t te, lookup_encoding t (encodings reg) = Some te ->
     te_t te = t /\ decodings reg !! te_code te = Some te /\ te_wf te) /\
  (forall c te, decodings reg !! c = Some te ->
     te_code te = c /\ lookup_encoding (te_t te) (encodings reg) = Some te).

Lemma empty_reg_wf : reg_wf empty_registry.
Proof. split; [done|]. intros c te H. simpl in H. by rewrite lookup_empty in H. Qed.

Lemma new_encoding_wf c r te :
  new_encoding_for_type c r = Ok te -> te_wf te /\ te_code te = c.
Proof.
  unfold new_encoding_for_type. destruct (indirect_type r) as [t|]; [|done].
  destruct t as [k| |t|n fs|n]; try done.
  - intros [= <-]. split; [by right|done].
  - destruct (fields_for fs [] 0) as [l| |] eqn:E; try done.
    destruct (codes_distinct l []) eqn:Ed; [|done]. intros [= <-]. split; [|done].
    apply codes_distinct_spec in Ed as [Hnd _]. left. eauto.
Qed.

Lemma must_register_wf c r reg reg' :
  reg_wf reg -> must_register c r reg = Ok reg' -> reg_wf reg'.
Proof.
  intros [He Hd]. unfold must_register.
  destruct (decodings reg !! c) eqn:Ec; [done|].
  destruct (new_encoding_for_type c r) as [te| |] eqn:En; try done.
  destruct (lookup_encoding (te_t te) (encodings reg)) eqn:El; [done|].
  intros [= <-]. apply new_encoding_wf in En as [Hwf Hcode]. split; simpl.
  - intros t te'. destruct (gotype_eqb t (te_t te)) eqn:Et.
    + apply gotype_eqb_eq in Et as ->. intros [= <-]. split; [done|].
      split; [|done]. rewrite Hcode. apply lookup_insert.
    + intros H. destruct (He _ _ H) as (H1 & H2 & H3). split; [done|]. split; [|done].
      rewrite lookup_insert_ne; [done|]. intros ->. congruence.
  - intros c' te' H. apply lookup_insert_Some in H as [[<- <-]|[Hne H]].
    + split; [done|]. by rewrite gotype_eqb_refl.
    + destruct (Hd _ _ H) as [H1 H2]. split; [done|].
      destruct (gotype_eqb (te_t te') (te_t te)) eqn:Et; [|done].
      apply gotype_eqb_eq in Et. congruence.
Qed.

Lemma register_all_snoc calls c r :
  register_all (calls ++ [(c, r)]) =
  match must_register c r (register_all calls) with Ok reg' => reg' | _ => register_all calls end.
Proof. unfold register_all. by rewrite fold_left_app. Qed.

Lemma register_all_wf calls : reg_wf (register_all calls).
Proof.
  induction calls as [|[c r] calls IH] using rev_ind; [apply empty_reg_wf|].
  rewrite register_all_snoc. destruct (must_register c r (register_all calls)) eqn:E; try done.
  by eapply must_register_wf.
Qed.

(** ** Encode *)

Lemma lookup_ptr_none reg t : reg_wf reg -> lookup_encoding (GPtr t) (encodings reg) = None.
Proof.
  intros [He _]. destruct (lookup_encoding (GPtr t) (encodings reg)) as [te|] eqn:E; [|done].
  apply He in E as (E1 & _ & [(n & fs & E2 & _)|[E2 _]]); congruence.
Qed.

Lemma Encode_registered reg by_ptr t v te :
  reg_wf reg -> lookup_encoding t (encodings reg) = Some te ->
  Encode reg (record_any by_ptr t v) = encode_with te v.
Proof.
  intros Hwf Hl. destruct by_ptr; simpl; [rewrite lookup_ptr_none by done|]; by rewrite Hl.
Qed.

(** The fields of a registered struct type. *)
Lemma registered_fields reg n fs c :
  reg_wf reg -> registered reg (GStruct n fs) c ->
  exists te, lookup_encoding (GStruct n fs) (encodings reg) = Some te /\
    decodings reg !! c = Some te /\ te_code te = c /\ te_t te = GStruct n fs /\
    fields_for fs [] 0 = Ok (te_fields te) /\ NoDup (f_code <$> te_fields te) /\
    attributes fs (tf <$> te_fields te) /\ Forall codecs_ok (te_fields te).
Proof.
  intros [He Hd] (te & Hl & <-). destruct (He _ _ Hl) as (Ht & Hdec & [(n' & fs' & Et & Ef & Hnd)|[Et _]]); [|congruence].
  rewrite Ht in Et. injection Et as <- <-. exists te.
  destruct (fields_for_attributes _ _ _ _ Ef). done.
Qed.

Lemma codecs_supported l : Forall codecs_ok l -> Forall (fun f => supported (tf_type f)) (tf <$> l).
Proof.
  intros H. apply Forall_fmap. eapply Forall_impl; [done|]. intros f [He _]. simpl.
  apply get_enc_supported; eauto.
Qed.

Lemma fields_typed fs l vs :
  fields_for fs [] 0 = Ok l -> typed_fields fs vs -> times_fit fs vs ->
  Forall codecs_ok l -> Forall (field_typed (VStruct vs)) l.
Proof.
  intros Hf Ht Hfit Hc. apply Forall_forall. intros f Hin.
  destruct (fields_leaf fs [] 0 l (VStruct vs) [] vs f Hf eq_refl eq_refl Ht Hin) as (v & Hg & Hl & Htv).
  exists v. split; [done|]. split; [done|]. split; [by eapply Forall_forall in Hc|].
  intros t Et. by eapply Hfit.
Qed.

Lemma fields_fine_iff fs l vs :
  fields_for fs [] 0 = Ok l -> typed_fields fs vs ->
  Forall (field_fine (VStruct vs)) l <-> encodable fs vs.
Proof.
  intros Hf Ht. split.
  - intros H f v Hl.
    destruct (leaf_fields fs [] 0 l (VStruct vs) [] vs f v Hf eq_refl eq_refl Hl) as (g & Hin & <- & Hg).
    rewrite Forall_forall in H. destruct (H _ Hin) as (v' & Hg' & Hr & Htm).
    rewrite Hg in Hg'. injection Hg' as <-. done.
  - intros H. apply Forall_forall. intros f Hin.
    destruct (fields_leaf fs [] 0 l (VStruct vs) [] vs f Hf eq_refl eq_refl Ht Hin) as (v & Hg & Hl & Htv).
    exists v. split; [done|]. by destruct (H _ _ Hl).
Qed.

Lemma encode_with_ok reg n fs c vs te :
  reg_wf reg -> lookup_encoding (GStruct n fs) (encodings reg) = Some te -> te_code te = c ->
  typed_fields fs vs -> times_fit fs vs ->
  (encodable fs vs -> exists a, encode_with te (VStruct vs) = EncOk a) /\
  (~ encodable fs vs -> exists p e, encode_with te (VStruct vs) = EncErr (Some p) e).
Proof.
  intros Hwf Hl Hc Hty Hfit.
  destruct (registered_fields reg n fs c Hwf) as (te' & Hl' & _ & _ & _ & Hf & Hnd & _ & Hok); [by exists te|].
  rewrite Hl in Hl'. injection Hl' as <-.
  pose proof (fields_typed _ _ _ Hf Hty Hfit Hok) as HT.
  rewrite <- (fields_fine_iff _ _ _ Hf Hty). unfold encode_with. split; intros H.
  - destruct (encode_fields_fine _ _ ∅ HT H) as [a ->]. eauto.
  - destruct (encode_fields_not_fine _ _ ∅ HT H) as (p & e & ->). eauto.
Qed.

Lemma encode_with_lookup reg n fs c vs te a :
  reg_wf reg -> lookup_encoding (GStruct n fs) (encodings reg) = Some te -> te_code te = c ->
  typed_fields fs vs -> times_fit fs vs ->
  encode_with te (VStruct vs) = EncOk a ->
  forall k x, a !! k = Some x <->
    (k = KU32 0 /\ x = AU32 c) \/
    (k <> KU32 0 /\ exists f v, leaf_of fs vs f v /\ k = KU32 (tf_code f) /\ ~ empty_value v /\ x = attr_of v).
Proof.
  intros Hwf Hl Hc Hty Hfit He k x.
  destruct (registered_fields reg n fs c Hwf) as (te' & Hl' & _ & _ & _ & Hf & Hnd & _ & Hok); [by exists te|].
  rewrite Hl in Hl'. injection Hl' as <-.
  pose proof (fields_typed _ _ _ Hf Hty Hfit Hok) as HT.
  unfold encode_with in He.
  destruct (encode_fields (te_fields te) (VStruct vs) ∅) as [b|[] |] eqn:Eb; try done.
  injection He as <-.
  pose proof (encode_fields_lookup _ _ _ _ HT Hnd (fun f _ => lookup_empty _) Eb k x) as Hb.
  unfold type_of_record. destruct (decide (k = KU32 0)) as [->|Hk].
  - rewrite lookup_insert. split.
    + intros [= <-]. left. by rewrite Hc.
    + intros [[_ ->]|[? _]]; [by rewrite Hc|done].
  - rewrite lookup_insert_ne by done. rewrite Hb. split.
    + intros [H|(f & v & Hin & -> & Hg & Hne & ->)]; [by rewrite lookup_empty in H|].
      right. split; [done|].
      destruct (fields_leaf fs [] 0 _ (VStruct vs) [] vs f Hf eq_refl eq_refl Hty Hin) as (v' & Hg' & Hlf & _).
      rewrite Hg in Hg'. injection Hg' as <-. exists (tf f), v. done.
    + intros [[? _]|[_ (f & v & Hlf & -> & Hne & ->)]]; [done|]. right.
      destruct (leaf_fields fs [] 0 _ (VStruct vs) [] vs f v Hf eq_refl eq_refl Hlf) as (g & Hin & <- & Hg).
      exists g, v. done.
Qed.

(** ** Decode *)

Lemma Decode_struct reg n fs c te attrs :
  reg_wf reg -> registered reg (GStruct n fs) c -> attrs !! KU32 0 = Some (AU32 c) ->
  fields_for fs [] 0 = Ok (te_fields te) -> te_t te = GStruct n fs -> decodings reg !! c = Some te ->
  Decode reg (Some attrs) =
  match dec_struct attrs fs (zero_fields fs) with
  | Ok vs => Ok (AnyVal (GPtr (GStruct n fs)) (VPtr (Some (VStruct vs))))
  | Err e => Err e
  | Panic => Panic
  end.
Proof.
  intros Hwf Hr Ha Hf Ht Hd. unfold Decode, type_of_record. rewrite Ha, Hd, Ht.
  rewrite (decode_fields_zero attrs n fs _ Hf). by destruct (dec_struct attrs fs (zero_fields fs)).
Qed.

Lemma Decode_registered reg n fs c attrs :
  reg_wf reg -> registered reg (GStruct n fs) c -> attrs !! KU32 0 = Some (AU32 c) ->
  Decode reg (Some attrs) =
  match dec_struct attrs fs (zero_fields fs) with
  | Ok vs => Ok (AnyVal (GPtr (GStruct n fs)) (VPtr (Some (VStruct vs))))
  | Err e => Err e
  | Panic => Panic
  end.
Proof.
  intros Hwf Hr Ha.
  destruct (registered_fields reg n fs c Hwf Hr) as (te & _ & Hd & _ & Ht & Hf & _).
  by eapply Decode_struct.
Qed.

(** Type information of a registered type, as used by the properties. *)
Lemma registered_attributes reg n fs c :
  reg_wf reg -> registered reg (GStruct n fs) c ->
  exists l, attributes fs l /\ NoDup (tf_code <$> l) /\ Forall (fun f => supported (tf_type f)) l.
Proof.
  intros Hwf Hr. destruct (registered_fields reg n fs c Hwf Hr) as (te & _ & _ & _ & _ & _ & Hnd & Hat & Hok).
  exists (tf <$> te_fields te). split; [done|]. split; [|by apply codecs_supported].
  rewrite <- list_fmap_compose. done.
Qed.

Lemma registered_code_inj reg t t' c :
  reg_wf reg -> registered reg t c -> registered reg t' c -> t = t'.
Proof.
  intros [He _] (te & Hl & <-) (te' & Hl' & Hc).
  destruct (He _ _ Hl) as (<- & Hd & _). destruct (He _ _ Hl') as (<- & Hd' & _).
  rewrite Hc in Hd'. rewrite Hd in Hd'. by injection Hd' as <-.
Qed.

Lemma codes_unique (l : list tfield) f g :
  NoDup (tf_code <$> l) -> f ∈ l -> g ∈ l -> tf_code f = tf_code g -> f = g.
Proof.
  induction l as [|h l IH]; intros Hnd Hf Hg E; [by apply elem_of_nil in Hf|].
  rewrite fmap_cons in Hnd. apply NoDup_cons in Hnd as [Hh Hnd].
  apply elem_of_cons in Hf as [->|Hf]; apply elem_of_cons in Hg as [->|Hg]; [done|..|by apply IH].
  - exfalso. apply Hh. rewrite E. by apply elem_of_list_fmap_1.
  - exfalso. apply Hh. rewrite <- E. by apply elem_of_list_fmap_1.
Qed.

(** Two leaves of one value with the same attribute have the same value
    (attributes are at most once in a struct). *)
Lemma leaf_of_fun_code fs vs l f v g w :
  attributes fs l -> NoDup (tf_code <$> l) ->
  leaf_of fs vs f v -> leaf_of fs vs g w -> tf_code f = tf_code g -> f = g /\ v = w.
Proof.
  intros Ha; revert vs f v g w; induction Ha as [|n tg c b t rest l Hne Hd Hr IH|n t rest l Hr IH|n tg t rest l Hr IH
    |n e tg m fs rest l1 l2 Hf IHf Hr IHr|n e tg t rest l Hns Hr IH]; intros vs f v g w Hnd H1 H2 E;
    try (inversion H1; inversion H2; subst; simplify_eq; try done; by eapply IH).
  - rewrite fmap_cons in Hnd. apply NoDup_cons in Hnd as [Hh Hnd]. simpl in Hh.
    inversion H1; inversion H2; subst; simplify_eq.
    + match goal with
      | A : tag_denotes tg c0 r, B : tag_denotes tg ?d ?s |- _ =>
          destruct (tag_denotes_fun _ _ _ _ _ Hne A Hd) as [-> ->];
          destruct (tag_denotes_fun _ _ _ _ _ Hne B Hd) as [-> ->]
      end. done.
    + exfalso. apply Hh.
      match goal with A : tag_denotes tg _ _, B : leaf_of rest _ _ _ |- _ =>
        destruct (tag_denotes_fun _ _ _ _ _ Hne A Hd) as [-> ->]; simpl in E; rewrite E;
        apply elem_of_list_fmap_1; by eapply leaf_of_attribute end.
    + exfalso. apply Hh.
      match goal with A : tag_denotes tg _ _, B : leaf_of rest _ _ _ |- _ =>
        destruct (tag_denotes_fun _ _ _ _ _ Hne A Hd) as [-> ->]; simpl in E; rewrite <- E;
        apply elem_of_list_fmap_1; by eapply leaf_of_attribute end.
    + by eapply IH.
  - rewrite fmap_app in Hnd. apply NoDup_app in Hnd as (Hnd1 & Hdis & Hnd2).
    inversion H1; inversion H2; subst; simplify_eq.
    + by eapply IHf.
    + exfalso. eapply (Hdis (tf_code f)).
      * apply elem_of_list_fmap_1. by eapply leaf_of_attribute.
      * rewrite E. apply elem_of_list_fmap_1. by eapply leaf_of_attribute.
    + exfalso. eapply (Hdis (tf_code g)).
      * apply elem_of_list_fmap_1. by eapply leaf_of_attribute.
      * rewrite <- E. apply elem_of_list_fmap_1. by eapply leaf_of_attribute.
    + by eapply IHr.
  - inversion H1; inversion H2; subst; simplify_eq; try (exfalso; by eapply Hns); by eapply IH.
Qed.

Lemma encodable_dec reg n fs c vs :
  reg_wf reg -> registered reg (GStruct n fs) c -> typed_fields fs vs ->
  encodable fs vs \/ ~ encodable fs vs.
Proof.
  intros Hwf Hr Hty.
  destruct (registered_fields reg n fs c Hwf Hr) as (te & _ & _ & _ & _ & Hf & _).
  rewrite <- (fields_fine_iff _ _ _ Hf Hty).
  destruct (decide (Forall (field_fine (VStruct vs)) (te_fields te))); auto.
Qed.
