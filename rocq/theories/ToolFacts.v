(** The collector store and fixture data of the tool. *)
From Coq Require Import ZArith NArith Ascii String Lia.
From stdpp Require Import base gmap strings list.
From Verif Require Import GoBase Encoding SpecEncoding EncodingFacts Records Messages SpecMessages MessageFacts AccumFacts
  Env SyncMap Tokens Cache SpecStore StoreFacts StoreLemmas ListFacts EventFacts HistFacts StoreExamples Dispatch DispatchFacts Diff Tool.

Local Open Scope list_scope.
Local Opaque vanflow_registry builtin_types record_types Encode Decode attrs_of.

(** ** Specification *)

(** A call of a collector: it accumulates, or reads. *)
Definition collecting (o : op) : Prop :=
  match o with OAccumulate _ _ | OGet _ | OList _ | OIndex _ _ _ | OIndexValues _ => True | _ => False end.
Definition collects (l : list (env * op)) : Prop := Forall (fun '(_, o) => collecting o) l.

(** The records a history accumulates. *)
Definition received (l : list (env * op)) (r : vrec) : Prop :=
  exists e src, (e, OAccumulate src (Some r)) ∈ l.

(** The usable records of a history; none is nil. *)
Definition usable_history (l : list (env * op)) : Prop :=
  envs_ok l /\ collects l /\ forall e src p, (e, OAccumulate src p) ∈ l ->
    exists r a, p = Some r /\ good_record r /\ Encode vanflow_registry (vrec_any r) = EncOk a.

(** An entry that names a type and identity, as given to Get. *)
Definition names (x : entry) (t : gotype) (id : string) : Prop :=
  get_type_meta t = Some (e_tm x) /\ exists r, e_rec x = Some r /\ vrec_identity r = id.

(** ** Strings *)

Lemma sapp_cons c s t : ((String c s) ++ t = String c (s ++ t))%string.
Proof. reflexivity. Qed.
Lemma sapp_inj s t u : (s ++ t = s ++ u)%string -> t = u.
Proof. induction s as [|c s IH]; [done|]. rewrite !sapp_cons. intros [=]. by apply IH. Qed.
Lemma sapp_assoc s t u : ((s ++ t) ++ u = s ++ (t ++ u))%string.
Proof. induction s as [|c s IH]; [done|]. rewrite !sapp_cons. by rewrite IH. Qed.

(** ** Keys *)

Lemma bare_key r : fixture_key (bare r) = Ok ("//" ++ vrec_identity r)%string.
Proof. reflexivity. Qed.

Local Transparent record_types.
Lemma meta_version t m : get_type_meta t = Some m -> tm_version m = "flow/v1"%string.
Proof. unfold get_type_meta. destruct (existsb _ _); [|done]. destruct t; try done. by intros [= <-]. Qed.

Lemma meta_in t m : get_type_meta t = Some m -> t ∈ record_types.
Proof.
  unfold get_type_meta. destruct (existsb (gotype_eqb t) record_types) eqn:E; [|done]. intros _.
  apply existsb_exists in E as (u & Hin & Hu). apply gotype_eqb_eq in Hu as ->. by apply elem_of_list_In.
Qed.

Lemma meta_inj t t' m : get_type_meta t = Some m -> get_type_meta t' = Some m -> t = t'.
Proof.
  intros H H'. pose proof (meta_in _ _ H) as Hi. pose proof (meta_in _ _ H') as Hi'.
  apply (type_key_inj (VRec false t (VStr "")) (VRec false t' (VStr "")) Hi Hi').
  unfold type_key, vrec_meta. cbn [vr_type]. by rewrite H, H'.
Qed.

(** Keys of typed entries start with the type, those of accumulated records do
    not. *)
Lemma typed_key_ne m id id' : tm_version m = "flow/v1"%string -> (type_meta_string m ++ "/" ++ id)%string <> ("//" ++ id')%string.
Proof. destruct m as [v t]. cbn [tm_version]. intros ->. unfold type_meta_string. cbn. discriminate. Qed.

Fixpoint no_slash (s : string) : Prop :=
  match s with
  | EmptyString => True
  | String c s' => c <> "/"%char /\ no_slash s'
  end.
Lemma slash_split a b s t : no_slash a -> no_slash b -> (a ++ "/" ++ s = b ++ "/" ++ t)%string -> a = b /\ s = t.
Proof.
  revert b. induction a as [|c a IH]; intros [|d b]; cbn [no_slash]; intros Ha Hb.
  - cbn. by intros [= ->].
  - rewrite sapp_cons. intros [= <- _]. by destruct Hb.
  - rewrite sapp_cons. intros [= -> _]. by destruct Ha.
  - rewrite !sapp_cons. intros [= -> H]. destruct (IH b) as [-> ->]; tauto.
Qed.

Lemma type_name_no_slash t m : get_type_meta t = Some m -> no_slash (tm_type m).
Proof.
  intros H. pose proof (meta_in _ _ H) as Hin.
  assert (Forall (fun t => forall m, get_type_meta t = Some m -> no_slash (tm_type m)) record_types) as HF.
  { unfold record_types. repeat constructor; intros m' Hm; vm_compute in Hm; injection Hm as <-; vm_compute; repeat split; discriminate. }
  rewrite Forall_forall in HF. by eapply HF.
Qed.
Local Opaque record_types.

Lemma fixture_key_inj t t' m m' id id' : get_type_meta t = Some m -> get_type_meta t' = Some m' ->
  (type_meta_string m ++ "/" ++ id = type_meta_string m' ++ "/" ++ id')%string -> m = m' /\ id = id'.
Proof.
  intros H H' E. pose proof (meta_version _ _ H) as V. pose proof (meta_version _ _ H') as V'.
  pose proof (type_name_no_slash _ _ H) as S1. pose proof (type_name_no_slash _ _ H') as S2.
  unfold type_meta_string in E. rewrite V, V', !sapp_assoc in E. apply sapp_inj, sapp_inj in E.
  destruct (slash_split _ _ _ _ S1 S2 E) as [E1 ->]. split; [|done].
  destruct m, m'. cbn in *. congruence.
Qed.

Lemma type_string_inj t t' m m' : get_type_meta t = Some m -> get_type_meta t' = Some m' ->
  type_meta_string m = type_meta_string m' -> m = m'.
Proof. intros H H' E. eapply (fixture_key_inj t t' m m' "" "" H H'). by rewrite E. Qed.

(** ** Collected records *)

(** Every key of a collector's store is one of an accumulated record. *)
Lemma collected_key l k x v : envs_ok l -> collects l -> contents (state_after fixture_config l) !! k = Some (x, v) ->
  exists r, received l r /\ k = ("//" ++ vrec_identity r)%string.
Proof.
  intros He Hc Hx. destruct (last_write _ _ _ _ _ He Hx) as (l1 & e & o & l2 & -> & Ho & _).
  unfold collects in Hc. rewrite Forall_app, Forall_cons in Hc. destruct Hc as (_ & Hco & _).
  destruct o as [y|y i|y|y|src p|y|y|n y z|n]; try done. destruct Ho as [Hk _].
  change (cf_key fixture_config) with fixture_key in Hk. unfold fixture_key in Hk. cbn [e_rec] in Hk.
  destruct p as [r|]; [|discriminate]. exists r. split.
  - exists e, src. apply elem_of_app. right. left.
  - injection Hk as <-. reflexivity.
Qed.

Lemma get_misses l x t id : envs_ok l -> collects l -> names x t id ->
  get fixture_config (state_after fixture_config l) x = OutSingle None None.
Proof.
  intros He Hc (Ht & r & Hr & Hid). unfold get. change (cf_key fixture_config x) with (fixture_key x).
  unfold fixture_key. rewrite Hr. unfold sm_get.
  destruct (sm_items (state_after fixture_config l) !! _) as [w|] eqn:E; [exfalso|done].
  destruct (collected_key l (type_meta_string (e_tm x) ++ "/" ++ vrec_identity r)%string (vc_res w) (vc_ver w) He Hc) as (r' & _ & Hk).
  { rewrite contents_lookup. by rewrite E. }
  by apply typed_key_ne in Hk; [|eapply meta_version].
Qed.

(** The first of a list of records with a key decides its type. *)
Definition type_of_key (rs : list vrec) (k : string) : gotype :=
  match head (filter (fun r => bool_decide (("//" ++ vrec_identity r)%string = k)) rs) with
  | Some r => vr_type r
  | None => SiteRecord
  end.

Definition recs_of (l : list (env * op)) : list vrec :=
  omap (fun '(_, o) => match o with OAccumulate _ p => p | _ => None end) l.
Lemma recs_of_received l r : r ∈ recs_of l <-> received l r.
Proof.
  unfold recs_of, received. rewrite elem_of_list_omap. split.
  - intros ((e & o) & Hin & Ho). destruct o; try discriminate. subst. eauto.
  - intros (e & src & Hin). exists (e, OAccumulate src (Some r)). eauto.
Qed.

Lemma head_elem {A} (l : list A) x : head l = Some x -> x ∈ l.
Proof. destruct l; [done|]. intros [= ->]. left. Qed.

Lemma usable_typed l : usable_history l ->
  (forall r r', received l r -> received l r' -> vrec_identity r = vrec_identity r' -> vr_type r = vr_type r') ->
  typed_ops fixture_config (type_of_key (recs_of l)) l.
Proof.
  intros (He & Hc & Hu) Hone. unfold typed_ops. rewrite Forall_forall. intros (e & o) Hin.
  unfold collects in Hc. rewrite Forall_forall in Hc. specialize (Hc _ Hin). cbn in Hc.
  destruct o as [y|y i|y|y|src p|y|y|n y z|n]; try done.
  destruct (Hu _ _ _ Hin) as (r & a & -> & Hg & Ha). exists r. split; [done|]. split; [done|].
  intros k Hk. injection Hk as <-. unfold type_of_key.
  assert (r ∈ filter (fun r' => bool_decide (("//" ++ vrec_identity r')%string = ("//" ++ vrec_identity r)%string)) (recs_of l)) as Hf.
  { apply elem_of_list_filter. split; [by apply bool_decide_spec|]. apply recs_of_received. by exists e, src. }
  destruct (head _) as [r'|] eqn:E.
  - apply head_elem, elem_of_list_filter in E as [E Hr']. apply bool_decide_spec in E. apply (sapp_inj "//") in E.
    apply Hone; [by exists e, src|by apply recs_of_received|done].
  - destruct (filter _ _) as [|? ?] eqn:Ef; [by apply elem_of_nil in Hf|done].
Qed.

Lemma collected_by_type l e x t : usable_history l ->
  (forall r r', received l r -> received l r' -> vrec_identity r = vrec_identity r' -> vr_type r = vr_type r') ->
  env_ok e -> get_type_meta t = Some (e_tm x) ->
  exists out, run_op fixture_config e (state_after fixture_config l) (OIndex "ByType" x None) =
      (state_after fixture_config l, OutSet out "" None, []) /\
    enumerates (contents (state_after fixture_config l)) (fun y => exists r, e_rec y = Some r /\ vr_type r = t) out.
Proof.
  intros Hu Hone He Ht. pose proof (usable_typed _ Hu Hone) as Hty. destruct Hu as (Hes & Hc & Hu).
  pose proof (consistent_after _ _ _ Hes Hty) as Hcons.
  destruct (index_exact fixture_config e (state_after fixture_config l) "ByType" by_type x) as (out & Hrun & ks & Hnd & Hl & Hks).
  - by exists l.
  - done.
  - reflexivity.
  - exists out. split; [done|]. exists ks. split; [done|]. split; [done|]. intros k. rewrite Hks. split.
    + intros (y & Hy & b & Hb1 & Hb2). exists y. split; [done|].
      unfold by_type in *. apply elem_of_list_singleton in Hb1 as ->. apply elem_of_list_singleton in Hb2.
      destruct (Hcons _ _ Hy) as (r & Hr & Hg & _ & Hm). exists r. split; [done|].
      pose proof (good_meta r Hg) as Hgm. rewrite <-Hm in Hgm.
      pose proof (type_string_inj _ _ _ _ Ht Hgm Hb2) as E. rewrite <-E in Hgm. symmetry. by eapply meta_inj.
    + intros (y & Hy & r & Hr & Htr). exists y. split; [done|]. exists (type_meta_string (e_tm x)).
      split; [left|]. unfold by_type. apply elem_of_list_singleton.
      destruct (Hcons _ _ Hy) as (r' & Hr' & Hg & _ & Hm). assert (r' = r) as -> by congruence.
      pose proof (good_meta r Hg) as Hgm. rewrite Htr in Hgm. congruence.
Qed.

(** The received records of one identity, in order. *)
Definition received_as (id : string) (l : list (env * op)) : list vrec :=
  filter (fun r => vrec_identity r = id) (recs_of l).

(** The entry of an identity: labelled with the type of the first record
    received, holding a record of the type of the last. *)
Definition labelled (rs : list vrec) (o : option entry) : Prop :=
  match rs with
  | [] => o = None
  | first :: _ => exists x r last', o = Some x /\ e_rec x = Some r /\ good_record r /\ (exists a, Encode vanflow_registry (vrec_any r) = EncOk a) /\
      vrec_identity r = vrec_identity first /\ last rs = Some last' /\
      e_tm x = vrec_meta first /\ vr_type r = vr_type last'
  end.

Lemma recs_of_app l1 l2 : recs_of (l1 ++ l2) = recs_of l1 ++ recs_of l2.
Proof. unfold recs_of. by rewrite omap_app. Qed.

Local Transparent builtin_types.
Lemma builtin_code_inj c t t' : (c, t) ∈ builtin_types -> (c, t') ∈ builtin_types -> t = t'.
Proof.
  assert (NoDup (fst <$> builtin_types)) as Hnd by (apply (bool_decide_eq_true_1 (NoDup (fst <$> builtin_types))); vm_compute; reflexivity).
  intros H H'. apply elem_of_list_lookup in H as [i Hi], H' as [j Hj].
  assert (i = j) as ->; [|congruence].
  eapply NoDup_lookup; [exact Hnd|by rewrite list_lookup_fmap, Hi|by rewrite list_lookup_fmap, Hj].
Qed.
Local Opaque builtin_types.

Lemma encoded_type r a : good_record r -> Encode vanflow_registry (vrec_any r) = EncOk a ->
  forall r' a', good_record r' -> Encode vanflow_registry (vrec_any r') = EncOk a' -> (a !! KU32 0) = (a' !! KU32 0) -> vr_type r = vr_type r'.
Proof.
  intros Hg Ha r' a' Hg' Ha' E.
  destruct (good_builtin _ Hg) as (c & n & fs & l & p & vs & B & _ & -> & Hty & Hfit).
  destruct (good_builtin _ Hg') as (c' & n' & fs' & l' & p' & vs' & B' & _ & -> & Hty' & Hfit').
  unfold vrec_any in *. cbn [vr_ptr vr_type vr_val] in *.
  destruct (encode_clean _ _ _ _ _ _ _ B Hty Hfit Ha) as [[H0 _] _].
  destruct (encode_clean _ _ _ _ _ _ _ B' Hty' Hfit' Ha') as [[H0' _] _].
  rewrite H0, H0' in E. injection E as <-. destruct B as [B _], B' as [B' _].
  exact (builtin_code_inj _ _ _ B B').
Qed.

Lemma encoded_has_type r a : good_record r -> Encode vanflow_registry (vrec_any r) = EncOk a -> is_Some (a !! KU32 0).
Proof.
  intros Hg Ha. destruct (good_builtin _ Hg) as (c & n & fs & l & p & vs & B & _ & -> & Hty & Hfit).
  unfold vrec_any in *. cbn [vr_ptr vr_type vr_val] in *.
  destruct (encode_clean _ _ _ _ _ _ _ B Hty Hfit Ha) as [[H0 _] _]. by eexists.
Qed.

Lemma accumulate_elsewhere cf e s src p s' out ev k : env_ok e -> reachable cf s ->
  run_op cf e s (OAccumulate src p) = (s', out, ev) -> cf_key cf (Entry zero_meta (TypeMeta "" "") p) <> Ok k ->
  contents s' !! k = contents s !! k.
Proof.
  intros He Hr Hrun Hne. destruct (step_refines _ _ _ _ _ _ _ He (reachable_inv _ _ Hr) Hrun) as [_ H].
  destruct H as [(-> & _)|(k' & a & Hk & _ & H)]; [done|].
  destruct a; destruct H as [_ ->]; [|done..]. unfold put. rewrite lookup_insert_ne; [done|congruence].
Qed.

Lemma state_after_snoc cf l e o : state_after cf (l ++ [(e, o)]) = (run_op cf e (state_after cf l) o).1.1.
Proof.
  unfold state_after, run. rewrite run_from_app. destruct (run_from cf new_simap l) as [[s rs] evs].
  cbn [run_from fst]. by destruct (run_op cf e s o) as [[? ?] ?].
Qed.

Lemma collected_labelled l : usable_history l -> forall id,
  labelled (received_as id l) (entry_at (contents (state_after fixture_config l)) ("//" ++ id)%string).
Proof.
  induction l as [|(e & o) l IH] using rev_ind; intros (He & Hc & Hu) id.
  { exact (eq_refl (A:=option entry)). }
  unfold envs_ok in He. rewrite Forall_app, Forall_singleton in He. destruct He as [He Heo].
  unfold collects in Hc. rewrite Forall_app, Forall_singleton in Hc. destruct Hc as [Hc Hco].
  assert (usable_history l) as Hul.
  { split; [done|]. split; [done|]. intros e' src p Hin. apply (Hu e' src p). apply elem_of_app. by left. }
  specialize (IH Hul). rewrite state_after_snoc. unfold received_as. rewrite recs_of_app, filter_app.
  destruct o as [y|y i|y|y|src p|y|y|n y z|n]; try done; try (cbn; rewrite app_nil_r; apply IH).
  destruct (Hu e src p) as (r & b & -> & Hg & Hb). { apply elem_of_app. right. by left. }
  change (recs_of [(e, OAccumulate src (Some r))]) with [r].
  rewrite filter_cons, filter_nil.
  pose proof (IH (vrec_identity r)) as IHr. specialize (IH id).
  set (s := state_after fixture_config l) in *.
  assert (cf_key fixture_config (bare r) = Ok ("//" ++ vrec_identity r)%string) as Hk by reflexivity.
  destruct (decide (vrec_identity r = id)) as [<-|Hne].
  - clear IH. change (filter (fun r0 => vrec_identity r0 = vrec_identity r) (recs_of l)) with (received_as (vrec_identity r) l).
    destruct (contents s !! ("//" ++ vrec_identity r)%string) as [[x0 v0]|] eqn:Ex.
    + assert (entry_at (contents s) ("//" ++ vrec_identity r)%string = Some x0) as Ee by (unfold entry_at; by rewrite Ex).
      rewrite Ee in IHr. destruct (received_as (vrec_identity r) l) as [|f rs] eqn:Er; [discriminate IHr|].
      destruct IHr as (x & r0 & z & [= <-] & Hr0 & Hg0 & (a & Ha) & Hid & Hz & Htm & Hty).
      destruct (accumulate_more fixture_config e s src r b _ x0 v0 r0 a Heo Hk Ex Hr0 Hg0 Ha Hg Hb) as [H1 H2].
      cbn [app labelled].
      assert (vrec_identity f = vrec_identity r) as Hf.
      { assert (f ∈ received_as (vrec_identity r) l) as Hin by (rewrite Er; left). by apply elem_of_list_filter in Hin as [? _]. }
      destruct (decide (b ⊆ a)) as [Hs|Hs].
      * rewrite (H1 Hs). cbn [fst]. exists x0, r0, r. split; [done|]. split; [done|]. split; [done|]. split; [by exists a|]. split; [done|].
        split; [by rewrite app_comm_cons, last_snoc|]. split; [done|].
        eapply encoded_type; [exact Hg0|exact Ha|exact Hg|exact Hb|].
        destruct (b !! KU32 0) as [t|] eqn:Et; [by eapply lookup_weaken|].
        destruct (encoded_has_type _ _ Hg Hb) as [? ?]. congruence.
      * destruct (H2 Hs) as (s' & r' & a' & Hrun & Hcs & Hg' & _ & Ht & Hi & He' & _).
        rewrite Hrun. cbn [fst]. rewrite Hcs, entry_at_put, decide_True by done.
        eexists _, r', r. split; [reflexivity|]. split; [reflexivity|]. split; [done|]. split; [by exists a'|].
        split; [congruence|]. split; [by rewrite app_comm_cons, last_snoc|]. split; [exact Htm|exact Ht].
    + assert (entry_at (contents s) ("//" ++ vrec_identity r)%string = None) as Ee by (unfold entry_at; by rewrite Ex).
      rewrite Ee in IHr. destruct (received_as (vrec_identity r) l) as [|f rs] eqn:Er.
      2: { destruct IHr as (x & r0 & z & [=] & _). }
      destruct (accumulate_first fixture_config e s src r _ Hk Ex) as (s' & Hrun & Hcs). rewrite Hrun. cbn [fst app labelled].
      rewrite Hcs, entry_at_put, decide_True by done. eexists _, r, r.
      split; [reflexivity|]. split; [reflexivity|]. split; [done|]. split; [by exists b|]. done.
  - rewrite app_nil_r. change (filter (fun r0 => vrec_identity r0 = id) (recs_of l)) with (received_as id l).
    destruct (run_op fixture_config e s (OAccumulate src (Some r))) as [[s' out] ev] eqn:Hrun. cbn [fst].
    assert (contents s' !! ("//" ++ id)%string = contents s !! ("//" ++ id)%string) as Hsame.
    { eapply accumulate_elsewhere; [exact Heo|by exists l|exact Hrun|]. rewrite Hk. intros [= E]. done. }
    unfold entry_at. rewrite Hsame. exact IH.
Qed.

(** ** Fixture data *)

(** A partial entry of a configured type whose record parses gives an entry. *)
Definition makes (parse : json_parser) (types : list gotype) (p : partial_entry) (x : entry) : Prop :=
  exists t v, t ∈ types /\ get_type_meta t = Some (pe_tm p) /\ parse t (pe_raw p) = Some v /\
    x = Entry (pe_meta p) (pe_tm p) (Some (VRec true t v)).

(** The entries of one source, in order. *)
Inductive entries_of (parse : json_parser) (types : list gotype) (src : source_ref) : list partial_entry -> list entry -> Prop :=
  | eo_nil : entries_of parse types src [] []
  | eo_keep p x l xs : m_source (pe_meta p) = src -> makes parse types p x ->
      entries_of parse types src l xs -> entries_of parse types src (p :: l) (x :: xs)
  | eo_skip p l xs : m_source (pe_meta p) <> src \/ (forall x, ~ makes parse types p x) ->
      entries_of parse types src l xs -> entries_of parse types src (p :: l) xs.

Lemma type_map_spec types k t : type_map types !! k = Some t <-> t ∈ types /\ get_type_meta t = Some k.
Proof.
  unfold type_map. induction types as [|u types IH] using rev_ind; cbn [fold_left].
  { rewrite lookup_empty. split; [done|]. intros [H _]. by apply elem_of_nil in H. }
  rewrite fold_left_app. cbn [fold_left]. rewrite elem_of_app, elem_of_list_singleton.
  destruct (get_type_meta u) as [m|] eqn:E.
  - destruct (decide (m = k)) as [->|Hne].
    + rewrite lookup_insert. split; [intros [= <-]; eauto|]. intros [_ H]. by rewrite (meta_inj _ _ _ E H).
    + rewrite lookup_insert_ne by done. rewrite IH. split; [tauto|]. intros [[? | ->] ?]; [tauto|congruence].
  - rewrite IH. split; [tauto|]. intros [[? | ->] ?]; [tauto|congruence].
Qed.

Lemma entry_from_spec parse types p x : entry_from parse types p = Some x <-> makes parse types p x.
Proof.
  unfold entry_from, makes. destruct (type_map types !! pe_tm p) as [t|] eqn:E.
  - apply type_map_spec in E as [Hin Ht]. destruct (parse t (pe_raw p)) as [v|] eqn:Ep.
    + split; [intros [= <-]; eauto 10|]. intros (t' & v' & _ & Ht' & Hp & ->).
      rewrite (meta_inj _ _ _ Ht' Ht) in *. congruence.
    + split; [done|]. intros (t' & v' & _ & Ht' & Hp & ->). rewrite (meta_inj _ _ _ Ht' Ht) in *. congruence.
  - split; [done|]. intros (t' & v' & Hin & Ht' & _). assert (type_map types !! pe_tm p = Some t') by (by apply type_map_spec). congruence.
Qed.

Lemma entries_of_app parse types src l1 x1 l2 x2 : entries_of parse types src l1 x1 -> entries_of parse types src l2 x2 ->
  entries_of parse types src (l1 ++ l2) (x1 ++ x2).
Proof. intros H H2. induction H; cbn; [done|by apply eo_keep|by apply eo_skip]. Qed.

Lemma entries_of_fun parse types src l x1 x2 : entries_of parse types src l x1 -> entries_of parse types src l x2 -> x1 = x2.
Proof.
  intros H. revert x2. induction H as [|p x l xs Hs Hm H IH|p l xs Hn H IH]; intros y Hy; inversion Hy as [|? ? ? ? Hs2 Hm2|? ? ? Hn2]; subst.
  - done.
  - apply entry_from_spec in Hm, Hm2. f_equal; [congruence|by apply IH].
  - destruct Hn2 as [?|?]; [done|]. naive_solver.
  - destruct Hn as [?|?]; [done|]. naive_solver.
  - by apply IH.
Qed.

Lemma group_spec parse types data src :
  entries_of parse types src data (default [] (group_by_source parse types data !! src)) /\
  group_by_source parse types data !! src <> Some [].
Proof.
  unfold group_by_source. induction data as [|p data IH] using rev_ind; [split; [constructor|done]|].
  rewrite fold_left_app. cbn [fold_left]. set (m := fold_left _ data ∅) in *. clearbody m. destruct IH as [IH Hne].
  destruct (entry_from parse types p) as [x|] eqn:E.
  - destruct (decide (m_source (pe_meta p) = src)) as [<-|Hs].
    + rewrite lookup_insert. cbn [default]. split.
      * apply entries_of_app; [done|]. apply eo_keep; [done|by apply entry_from_spec|constructor].
      * intros [=Hn]. by apply app_eq_nil in Hn as [_ ?].
    + rewrite lookup_insert_ne by done. split; [|done]. rewrite <-(app_nil_r (default [] (m !! src))).
      apply entries_of_app; [done|]. apply eo_skip; [by left|constructor].
  - split; [|done]. rewrite <-(app_nil_r (default [] (m !! src))). apply entries_of_app; [done|].
    apply eo_skip; [|constructor]. right. intros x Hx. apply entry_from_spec in Hx. congruence.
Qed.

(** What the entries of a source look like. *)
Lemma entries_of_makes parse types src l xs x : entries_of parse types src l xs -> x ∈ xs ->
  exists p, p ∈ l /\ m_source (pe_meta p) = src /\ makes parse types p x.
Proof.
  intros H. induction H as [|p y l xs Hs Hm H IH|p l xs Hn H IH]; intros Hx.
  - by apply elem_of_nil in Hx.
  - apply elem_of_cons in Hx as [->|Hx]; [exists p; split; [left|done]|]. destruct (IH Hx) as (q & ? & ?). exists q. split; [by right|done].
  - destruct (IH Hx) as (q & ? & ?). exists q. split; [by right|done].
Qed.

(** The last of the entries of a type and identity. *)
Definition last_of (xs : list entry) (t : gotype) (id : string) (y : entry) : Prop :=
  exists before after, xs = before ++ y :: after /\ names y t id /\ forall z, z ∈ after -> ~ names z t id.

Lemma names_key x t id : names x t id -> exists m, get_type_meta t = Some m /\ cf_key fixture_config x = Ok (type_meta_string m ++ "/" ++ id)%string.
Proof.
  intros (Ht & r & Hr & Hid). exists (e_tm x). split; [done|]. change (cf_key fixture_config x) with (fixture_key x).
  unfold fixture_key. rewrite Hr. by rewrite Hid.
Qed.

Lemma makes_names parse types p x : makes parse types p x -> exists t id, names x t id.
Proof. intros (t & v & _ & Ht & _ & ->). eexists t, _. split; [exact Ht|]. by eexists. Qed.

Lemma key_names x y t id : names x t id -> (exists t' id', names y t' id') -> cf_key fixture_config y = cf_key fixture_config x -> names y t id.
Proof.
  intros Hx (t' & id' & Hy) E. destruct (names_key _ _ _ Hx) as (m & Hm & Ex). destruct (names_key _ _ _ Hy) as (m' & Hm' & Ey).
  rewrite Ex, Ey in E. injection E as E. destruct (fixture_key_inj _ _ _ _ _ _ Hm' Hm E) as [-> ->].
  by rewrite (meta_inj _ _ _ Hm Hm').
Qed.

(** The stores made from a request. *)
Definition stores_for (parse : json_parser) (types : list gotype) (es : source_ref -> env) (data : list partial_entry) : gmap source_ref items :=
  fixture_stores es (group_by_source parse types data).

Lemma stores_for_spec parse types es data src xs : entries_of parse types src data xs ->
  stores_for parse types es data !! src =
    match xs with [] => None | _ => Some (replace fixture_config (es src) new_simap xs).1.1 end.
Proof.
  intros Hx. destruct (group_spec parse types data src) as [Hg Hne]. unfold stores_for, fixture_stores.
  rewrite map_lookup_imap. rewrite (entries_of_fun _ _ _ _ _ _ Hx Hg) in *. destruct (_ !! src) as [[|y ys]|] eqn:E; done.
Qed.

Lemma store_contents parse types es data src xs s : (forall z, env_ok (es z)) -> entries_of parse types src data xs ->
  stores_for parse types es data !! src = Some s ->
  reachable fixture_config s /\
  forall k x v, contents s !! k = Some (x, v) <-> last_with_key fixture_config xs k x /\ v = 1%Z.
Proof.
  intros He Hx. rewrite (stores_for_spec _ _ es _ _ _ Hx). destruct xs as [|y ys] eqn:Exs; [done|]. rewrite <-Exs in *. clear Exs.
  intros [= <-]. pose proof (He src) as Hes. set (e := es src) in *.
  assert (run_op fixture_config e new_simap (OReplace xs) = replace fixture_config e new_simap xs) as Hrun by reflexivity.
  destruct (replace fixture_config e new_simap xs) as [[s' r] ev] eqn:Er. cbn [fst].
  assert (reachable fixture_config s') as Hreach.
  { pose proof (reachable_step fixture_config new_simap e (OReplace xs) (reachable_new _) Hes) as H. by rewrite Hrun in H. }
  split; [done|].
  destruct (replace_exact _ _ _ _ _ _ _ (reachable_new _) Hes Hrun) as [(_ & _ & _ & H)|(_ & _ & z & Hz & Hbad)].
  - intros k z v. rewrite H. unfold next_version. by rewrite contents_new, lookup_empty.
  - exfalso. destruct (entries_of_makes _ _ _ _ _ _ Hx Hz) as (p & _ & _ & Hm). destruct (makes_names _ _ _ _ Hm) as (t & id & Hn).
    destruct (names_key _ _ _ Hn) as (m & _ & Hk). by apply Hbad in Hk.
Qed.

Lemma last_with_key_exists cf xs k y2 : y2 ∈ xs -> cf_key cf y2 = Ok k -> exists y, last_with_key cf xs k y.
Proof.
  intros H Hky2. induction xs as [|w xs IH] using rev_ind; [by apply elem_of_nil in H|].
  assert (cf_key cf w = Ok k \/ cf_key cf w <> Ok k) as [Hw|Hw].
  { destruct (cf_key cf w) as [k'| |]; [|by right..]. destruct (decide (k' = k)) as [->|]; [by left|right; congruence]. }
  - exists w, xs, []. split; [done|]. split; [done|]. intros ? Hn. by apply elem_of_nil in Hn.
  - apply elem_of_app in H as [H|H]; [|apply elem_of_list_singleton in H; congruence].
    destruct (IH H) as (y & b & a & -> & Hy & Ha). exists y, b, (a ++ [w]). rewrite <-app_assoc. split; [done|]. split; [done|].
    intros z Hz. apply elem_of_app in Hz as [Hz|Hz]; [by apply Ha|apply elem_of_list_singleton in Hz; by subst].
Qed.

Lemma fixture_lookup parse types es data src xs s x t id : (forall z, env_ok (es z)) -> entries_of parse types src data xs ->
  stores_for parse types es data !! src = Some s -> names x t id ->
  (exists y tag, get fixture_config s x = OutSingle (Some (y, tag)) None /\ last_of xs t id y) \/
  (get fixture_config s x = OutSingle None None /\ forall z, z ∈ xs -> ~ names z t id).
Proof.
  intros He Hx Hs Hn. destruct (store_contents _ _ _ _ _ _ _ He Hx Hs) as [_ Hc].
  destruct (names_key _ _ _ Hn) as (m & Hm & Hk). unfold get. rewrite Hk. unfold sm_get.
  assert (forall z, z ∈ xs -> exists t' id', names z t' id') as Hall.
  { intros z Hz. destruct (entries_of_makes _ _ _ _ _ _ Hx Hz) as (p & _ & _ & Hmk). by eapply makes_names. }
  set (k := (type_meta_string m ++ "/" ++ id)%string) in *.
  destruct (sm_items s !! k) as [w|] eqn:E; cbn.
  - left. eexists _, _. split; [reflexivity|].
    assert (contents s !! k = Some (vc_res w, vc_ver w)) as Hw by (rewrite contents_lookup; by rewrite E).
    apply Hc in Hw as [(b & a & -> & Hkw & Ha) _]. exists b, a. split; [done|].
    assert (names (vc_res w) t id) as Hnw.
    { eapply key_names; [exact Hn|apply Hall; apply elem_of_app; right; left|congruence]. }
    split; [done|]. intros z Hz Hnz. apply (Ha z Hz). destruct (names_key _ _ _ Hnz) as (m' & Hm' & ->). by assert (m' = m) as -> by congruence.
  - right. split; [done|]. intros z Hz Hnz.
    assert (cf_key fixture_config z = Ok k) as Hkz.
    { destruct (names_key _ _ _ Hnz) as (m' & Hm' & ->). by assert (m' = m) as -> by congruence. }
    destruct (last_with_key_exists fixture_config xs k z Hz Hkz) as (y & Hy).
    assert (contents s !! k = Some (y, 1%Z)) as Hcy by (by apply Hc). rewrite contents_lookup, E in Hcy. done.
Qed.

(** Looking up without a type. *)
Lemma get_untyped l x r id : usable_history l -> e_tm x = TypeMeta "" "" -> e_rec x = Some r -> vrec_identity r = id ->
  (received_as id l = [] -> get fixture_config (state_after fixture_config l) x = OutSingle None None) /\
  (received_as id l <> [] -> exists y tag, get fixture_config (state_after fixture_config l) x = OutSingle (Some (y, tag)) None /\
     labelled (received_as id l) (Some y)).
Proof.
  intros Hu Htm Hr <-. pose proof (collected_labelled l Hu (vrec_identity r)) as Hl.
  unfold get. change (cf_key fixture_config x) with (fixture_key x). unfold fixture_key. rewrite Hr, Htm.
  change (type_meta_string (TypeMeta "" "") ++ "/" ++ vrec_identity r)%string with ("//" ++ vrec_identity r)%string.
  unfold sm_get. unfold entry_at in Hl. rewrite contents_lookup in Hl.
  destruct (sm_items _ !! _) as [w|]; cbn in *; split.
  - intros E. by rewrite E in Hl.
  - intros Hne. eexists _, _. split; [reflexivity|]. destruct (received_as _ _) as [|r0 rs] eqn:E; [done|]. exact Hl.
  - done.
  - intros Hne. destruct (received_as _ _) as [|r0 rs] eqn:E; [done|]. by destruct Hl as (? & ? & ? & ? & _).
Qed.
