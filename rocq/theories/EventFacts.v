(** Accumulation and change events. *)
From Coq Require Import ZArith NArith Ascii String Lia.
From stdpp Require Import base gmap strings list sorting.
From Verif Require Import GoBase Encoding SpecEncoding Records Messages SpecMessages MessageFacts
  AccumFacts Env SyncMap SyncMapFacts Tokens TokenFacts Cache SpecStore StoreFacts StoreLemmas ListFacts.

Local Open Scope list_scope.
Local Opaque vanflow_registry builtin_types record_types Encode Decode.

(** ** Accumulate on usable records *)

(** The entry a key function sees when [r] is accumulated. *)
Notation bare r := (Entry zero_meta (TypeMeta "" "") (Some r)).

Lemma accumulate_first cf e s src r k : cf_key cf (bare r) = Ok k -> contents s !! k = None ->
  exists s', run_op cf e s (OAccumulate src (Some r)) =
      (s', OutErr None, emit (cf_on_add cf) (EvAdd (Entry (Metadata src (env_now e) ∅) (vrec_meta r) (Some r)))) /\
    contents s' = put (contents s) k (Entry (Metadata src (env_now e) ∅) (vrec_meta r) (Some r)).
Proof.
  intros Hk Hn. cbn [run_op]. unfold accumulate, sm_patch. rewrite Hk. cbn [check_conds].
  rewrite contents_lookup in Hn. destruct (sm_items s !! k) as [w|] eqn:E; [done|].
  cbn [fmap option_fmap option_map patch_record]. eexists. split; [reflexivity|]. apply contents_store.
Qed.

Lemma accumulate_more cf e s src r b k x0 v0 r0 a : env_ok e ->
  cf_key cf (bare r) = Ok k -> contents s !! k = Some (x0, v0) -> e_rec x0 = Some r0 ->
  good_record r0 -> Encode vanflow_registry (vrec_any r0) = EncOk a ->
  good_record r -> Encode vanflow_registry (vrec_any r) = EncOk b ->
  (b ⊆ a -> run_op cf e s (OAccumulate src (Some r)) = (s, OutErr None, [])) /\
  (~ b ⊆ a -> exists s' r' a',
     let x' := Entry (Metadata (m_source (e_meta x0)) (env_now e) (m_annotations (e_meta x0))) (e_tm x0) (Some r') in
     run_op cf e s (OAccumulate src (Some r)) = (s', OutErr None, emit (cf_on_change cf) (EvChange x0 x')) /\
     contents s' = put (contents s) k x' /\ good_record r' /\ vr_ptr r' = true /\
     vr_type r' = vr_type r /\ vrec_identity r' = vrec_identity r /\
     Encode vanflow_registry (vrec_any r') = EncOk a' /\ b ⊆ a' /\ a' ⊆ b ∪ a /\
     (vr_type r0 = vr_type r -> a' = b ∪ a)).
Proof.
  intros He Hk Hx Hr0 G0 E0 G E. cbn [run_op]. unfold accumulate, sm_patch. rewrite Hk. cbn [check_conds].
  rewrite contents_lookup in Hx. destruct (sm_items s !! k) as [w|] eqn:Ew; [|done]. injection Hx as Hw _.
  cbn [fmap option_fmap option_map]. rewrite Hw. unfold patch_record. rewrite Hr0. cbn [rec_any].
  rewrite E0, E. destruct (merge_union "attrs" e a b He) as (ch & -> & Hch).
  split.
  - intros Hsub. destruct ch; [|done]. destruct (proj1 Hch eq_refl). exact Hsub.
  - intros Hsub. rewrite (proj2 Hch Hsub).
    destruct (merge_records r0 a r b G0 E0 G E) as (r' & a' & Hd & Hg' & Hp' & Ht' & Hi' & He' & H1 & H2 & H3).
    rewrite Hd. unfold vrec_any at 1. rewrite Hp'.
    rewrite as_record_ptr_iff by (eexists; apply (good_meta r' Hg')).
    exists (store_item (cf_indexers cf) e k (Entry (Metadata (m_source (e_meta x0)) (env_now e) (m_annotations (e_meta x0))) (e_tm x0) (Some r')) s), r', a'.
    assert (VRec true (vr_type r') (vr_val r') = r') as -> by (destruct r'; simpl in *; congruence).
    split; [reflexivity|]. split; [apply contents_store|]. repeat (split; [assumption|]). assumption.
Qed.

(** An unencodable incoming or stored record makes Accumulate fail. *)
Lemma accumulate_fails cf e s src r k x0 v0 r0 : env_ok e ->
  cf_key cf (bare r) = Ok k -> contents s !! k = Some (x0, v0) -> e_rec x0 = Some r0 ->
  good_record r0 -> good_record r ->
  (forall a, Encode vanflow_registry (vrec_any r0) <> EncOk a) \/
  (forall a, Encode vanflow_registry (vrec_any r) <> EncOk a) ->
  exists p, run_op cf e s (OAccumulate src (Some r)) =
    (s, OutErr (Some (SPatch p)), emit (cf_on_add cf) (EvAdd zero_entry)).
Proof.
  intros He Hk Hx Hr0 G0 G Hbad. cbn [run_op]. unfold accumulate, sm_patch. rewrite Hk. cbn [check_conds].
  rewrite contents_lookup in Hx. destruct (sm_items s !! k) as [w|] eqn:Ew; [|done]. injection Hx as Hw _.
  cbn [fmap option_fmap option_map]. rewrite Hw. unfold patch_record. rewrite Hr0. cbn [rec_any].
  destruct (good_encode _ G0) as [[a Ea]|(p & er & Ea)]; rewrite Ea; [|eexists; reflexivity].
  destruct (good_encode _ G) as [[b Eb]|(p & er & Eb)]; rewrite Eb; [|eexists; reflexivity].
  exfalso. destruct Hbad as [H|H]; eapply H; eassumption.
Qed.

(** ** Well-formed stores with the default key function *)

(** Every entry holds a usable record and is stored under its identity. *)
Definition well_keyed (st : plain) : Prop :=
  forall k x, entry_at st k = Some x -> id_of x = k /\ good_entry good_record x.

Definition usual_key (cf : config) : Prop := cf_key cf = key_by_record_id.

Lemma usual_key_Ok cf x k : usual_key cf -> cf_key cf x = Ok k -> id_of x = k.
Proof. intros ->. unfold key_by_record_id, id_of. destruct (e_rec x); congruence. Qed.

Lemma entry_at_put st k x k' : entry_at (put st k x) k' = if decide (k' = k) then Some x else entry_at st k'.
Proof.
  unfold entry_at, put. case_decide as E; [subst; by rewrite lookup_insert|].
  by rewrite lookup_insert_ne.
Qed.

Lemma entry_at_delete st k k' : entry_at (delete k st) k' = if decide (k' = k) then None else entry_at st k'.
Proof.
  unfold entry_at. case_decide as E; [subst; by rewrite lookup_delete|]. by rewrite lookup_delete_ne.
Qed.

Lemma well_keyed_put st k x : well_keyed st -> id_of x = k -> good_entry good_record x -> well_keyed (put st k x).
Proof.
  intros Hw Hi Hg k' y. rewrite entry_at_put. case_decide as E; [|apply Hw]. intros [= <-]. by subst.
Qed.

Lemma accumulate_good cf e s src r k : env_ok e -> good_record r -> cf_key cf (bare r) = Ok k ->
  (forall x, entry_at (contents s) k = Some x -> good_entry good_record x) ->
  let '(s', out, ev) := run_op cf e s (OAccumulate src (Some r)) in
  (s' = s /\ out <> OutPanic) \/
  (exists x r', out = OutErr None /\ contents s' = put (contents s) k x /\ e_rec x = Some r' /\
     good_record r' /\ vr_type r' = vr_type r /\ vrec_identity r' = vrec_identity r /\
     (entry_at (contents s) k = None -> e_tm x = vrec_meta r) /\
     (forall x0, entry_at (contents s) k = Some x0 -> e_tm x = e_tm x0)).
Proof.
  intros He G Hk Hst. destruct (contents s !! k) as [[x0 v0]|] eqn:Ec.
  - assert (entry_at (contents s) k = Some x0) as Ex by (unfold entry_at; by rewrite Ec).
    destruct (Hst x0 Ex) as (r0 & Hr0 & G0).
    destruct (good_encode _ G0) as [[a Ea]|(p & er & Ea)].
    + destruct (good_encode _ G) as [[b Eb]|(p & er & Eb)].
      * destruct (accumulate_more cf e s src r b k x0 v0 r0 a He Hk Ec Hr0 G0 Ea G Eb) as [H1 H2].
        destruct (decide (b ⊆ a)) as [Hs|Hs].
        -- rewrite (H1 Hs). left. split; [done|discriminate].
        -- destruct (H2 Hs) as (s' & r' & a' & Hrun & Hc & Hg' & _ & Ht & Hi & _). rewrite Hrun. right.
           eexists _, r'. split; [reflexivity|]. split; [exact Hc|]. split; [reflexivity|].
           split; [exact Hg'|]. split; [exact Ht|]. split; [exact Hi|]. split; [congruence|].
           intros y. rewrite Ex. intros [= <-]. reflexivity.
      * destruct (accumulate_fails cf e s src r k x0 v0 r0 He Hk Ec Hr0 G0 G) as [q Hq];
          [right; intros ?; congruence|]. rewrite Hq. left. split; [done|discriminate].
    + destruct (accumulate_fails cf e s src r k x0 v0 r0 He Hk Ec Hr0 G0 G) as [q Hq];
        [left; intros ?; congruence|]. rewrite Hq. left. split; [done|discriminate].
  - destruct (accumulate_first cf e s src r k Hk Ec) as (s' & -> & Hc). right.
    eexists _, r. split; [reflexivity|]. split; [exact Hc|]. split; [reflexivity|]. split; [exact G|].
    split; [reflexivity|]. split; [reflexivity|]. split; [reflexivity|].
    unfold entry_at. rewrite Ec. discriminate.
Qed.

Lemma well_keyed_step cf e s o s' r ev : usual_key cf -> env_ok e -> reachable cf s ->
  good_op good_record o -> well_keyed (contents s) -> run_op cf e s o = (s', r, ev) -> well_keyed (contents s').
Proof.
  intros Hu He Hr Hg Hw Hrun. pose proof (reachable_inv _ _ Hr) as Hi.
  destruct (step_refines _ _ _ _ _ _ _ He Hi Hrun) as [_ Hs].
  assert (forall y, good_entry good_record y -> good_entry good_record (with_updated (env_now e) y)) as Hwu.
  { intros y (r' & ? & ?). by exists r'. }
  destruct o as [x|x im|x|l|src p|x|sel|name x sel|name]; cbn [spec_step good_op] in Hs, Hg.
  - destruct Hs as [[-> _]|(k & Hk & [(Hn & _ & ->)|(_ & _ & ->)])]; [done| |done].
    apply well_keyed_put; [done| |by apply Hwu]. by eapply (usual_key_Ok cf x).
  - destruct Hs as [[-> _]|(k & Hk & H)]; [done|].
    assert (contents s' = contents s \/ contents s' = put (contents s) k (with_updated (env_now e) x)) as [-> | ->].
    { destruct im as [tag|]; [|by right; destruct H].
      destruct H as [(_ & _ & ?)|(v & u & _ & [(_ & _ & ?)|(_ & _ & ?)])]; eauto. }
    + done.
    + apply well_keyed_put; [done| |by apply Hwu]. by eapply (usual_key_Ok cf x).
  - destruct Hs as [[-> _]|(k & Hk & _ & ->)]; [done|].
    intros k' y. rewrite entry_at_delete. case_decide; [done|]. apply Hw.
  - destruct Hs as [(_ & _ & Hrep)|[(m & _ & _ & ->)|(_ & _ & ->)]]; [|done..].
    intros k y Hy. unfold entry_at in Hy. destruct (contents s' !! k) as [[z v]|] eqn:E; [|done].
    injection Hy as <-. apply Hrep in E as [(l1 & l2 & -> & Hk & _) _].
    split; [by eapply (usual_key_Ok cf z)|]. rewrite Forall_forall in Hg. apply Hg.
    apply elem_of_app. right. left.
  - destruct Hg as (p' & -> & Gp).
    assert (cf_key cf (bare p') = Ok (vrec_identity p')) as Hk by (by rewrite Hu).
    pose proof (accumulate_good cf e s src p' _ He Gp Hk) as H. rewrite Hrun in H.
    destruct H as [[-> _]|(x & r' & _ & -> & Hx & Gr' & _ & Hid & _)].
    { intros x Hx. by apply Hw in Hx as [_ ?]. }
    + done.
    + apply well_keyed_put; [done| |by exists r']. unfold id_of. by rewrite Hx.
  - by destruct Hs as [[-> _]|(k & _ & -> & _)].
  - by destruct Hs as [-> _].
  - by destruct Hs as [-> _].
  - by destruct Hs as [-> _].
Qed.

Definition good_ops (l : list (env * op)) : Prop := Forall (fun '(_, o) => good_op good_record o) l.

Lemma well_keyed_run cf s l s' rs evs : usual_key cf -> reachable cf s -> envs_ok l -> good_ops l ->
  well_keyed (contents s) -> run_from cf s l = (s', rs, evs) -> well_keyed (contents s').
Proof.
  revert s rs evs; induction l as [|[e o] l IH]; intros s rs evs Hu Hr Hok Hg Hw Hrun; cbn [run_from] in Hrun.
  - by injection Hrun as <- <- <-.
  - apply envs_ok_cons in Hok as [He Hok]. inversion Hg as [|? ? Hgo Hg']; subst.
    pose proof (reachable_step cf s e o Hr He) as Hr1.
    destruct (run_op cf e s o) as [[s1 r] ev] eqn:E1. cbn [fst] in Hr1.
    destruct (run_from cf s1 l) as [[s2 rs2] evs2] eqn:E2. injection Hrun as <- _ _.
    eapply (IH s1); [done|done|done|done| |exact E2]. exact (well_keyed_step cf e s o s1 r ev Hu He Hr Hgo Hw E1).
Qed.

Lemma well_keyed_new : well_keyed (contents new_simap).
Proof. intros k x. rewrite contents_new. unfold entry_at. by rewrite lookup_empty. Qed.

Lemma well_keyed_after cf l : usual_key cf -> envs_ok l -> good_ops l -> well_keyed (contents (state_after cf l)).
Proof.
  intros Hu Hok Hg. unfold state_after, run.
  destruct (run_from cf new_simap l) as [[s rs] evs] eqn:E. cbn [fst].
  eapply well_keyed_run; [done|apply reachable_new|done|done|apply well_keyed_new|exact E].
Qed.

Lemma well_keyed_distinct cf st : usual_key cf -> well_keyed st -> distinct_stored cf st.
Proof.
  intros Hu Hw k1 k2 x1 x2 c H1 H2 K1 K2. apply sort_key_has in K1, K2.
  assert (forall k x, entry_at st k = Some x -> sort_key cf x = k) as Hs.
  { intros k x Hx. destruct (Hw _ _ Hx) as (Hid & r & Er & _). unfold sort_key. rewrite Hu.
    unfold key_by_record_id, id_of in *. by rewrite Er in *. }
  rewrite (Hs _ _ H1) in K1. rewrite (Hs _ _ H2) in K2. congruence.
Qed.

(** ** Events *)

Lemma emit_true b ev : b = true -> emit b ev = [ev].
Proof. by intros ->. Qed.

Lemma delta_describes cf st k x : observing cf -> describes st (delta_events cf (entry_at st k) x) (put st k x).
Proof.
  intros (Ha & Hc & _). unfold delta_events, entry_at. destruct (st !! k) as [[p v]|] eqn:E; simpl.
  - rewrite emit_true by done. apply ds_change. unfold entry_at. by rewrite E.
  - rewrite emit_true by done. by apply ds_add.
Qed.

Lemma step_describes cf e s o s' r ev : observing cf -> env_ok e -> reachable cf s ->
  run_op cf e s o = (s', r, ev) -> ~ is_replace o -> (forall p, r <> OutErr (Some (SPatch p))) ->
  describes (contents s) ev (contents s').
Proof.
  intros Ho He Hr Hrun Hnr Hnf. pose proof (reachable_inv _ _ Hr) as Hi. pose proof Ho as (Ha & Hc & Hd).
  destruct o as [x|x im|x|l|src p|x|sel|name x sel|name]; cbn [run_op] in Hrun;
    try (injection Hrun as <- <- <-; apply ds_none).
  - unfold add, sm_update in Hrun. destruct (cf_key cf x) as [k| |]; try (injection Hrun as <- <- <-; apply ds_none).
    rewrite (check_not_exists _ _ _ Hi) in Hrun.
    destruct (contents s !! k) eqn:E; injection Hrun as <- <- <-; [apply ds_none|].
    rewrite contents_store, Ha. by apply ds_add.
  - unfold update, sm_update in Hrun. destruct (cf_key cf x) as [k| |]; try (injection Hrun as <- <- <-; apply ds_none).
    destruct (get_conditional im); try (injection Hrun as <- <- <-; apply ds_none).
    destruct (check_conds _ _); injection Hrun as <- <- <-; [apply ds_none|].
    rewrite contents_store, <- entry_at_contents. by apply delta_describes.
  - unfold remove in Hrun. destruct (cf_key cf x) as [k| |]; try (injection Hrun as <- <- <-; apply ds_none).
    pose proof (contents_delete (cf_indexers cf) e k s) as Hcd. unfold sm_delete in *.
    destruct (sm_items s !! k) as [v|] eqn:E; injection Hrun as <- <- <-; [|apply ds_none].
    cbn [fst] in Hcd. rewrite Hcd, Hd. apply ds_delete. rewrite entry_at_contents, E. done.
  - by destruct Hnr.
  - unfold accumulate, sm_patch in Hrun. destruct (cf_key cf _) as [k| |]; try (injection Hrun as <- <- <-; apply ds_none).
    cbn [check_conds] in Hrun. destruct (patch_record _ _ _ _) as [y|[]|];
      injection Hrun as <- <- <-; try apply ds_none; try (by destruct (Hnf _ eq_refl)).
    rewrite contents_store, <- entry_at_contents. by apply delta_describes.
Qed.

(** ** Replaying over a bag *)

Lemma replays_perm_l l1 l2 evs l' : l1 ≡ₚ l2 -> replays l1 evs l' -> replays l2 evs l'.
Proof.
  intros Hp H. revert l2 Hp. induction H; intros l2 Hp.
  - apply rp_nil. by rewrite <- Hp.
  - apply rp_add. apply IHreplays. by rewrite Hp.
  - eapply rp_change; [rewrite <- Hp; eassumption|done].
  - eapply rp_delete; [rewrite <- Hp; eassumption|done].
Qed.

Lemma replays_app l1 a l2 b l3 : replays l1 a l2 -> replays l2 b l3 -> replays l1 (a ++ b) l3.
Proof.
  intros H Hb. induction H; simpl.
  - eapply replays_perm_l; [symmetry; eassumption|done].
  - apply rp_add. auto.
  - eapply rp_change; eauto.
  - eapply rp_delete; eauto.
Qed.

Notation bag st l := (enumerates st (fun _ => True) l).

Lemma bag_iff st l : bag st l <->
  exists ks, NoDup ks /\ Forall2 (fun k x => entry_at st k = Some x) ks l /\ forall k, k ∈ ks <-> is_Some (entry_at st k).
Proof.
  unfold enumerates. split; intros (ks & H1 & H2 & H3); exists ks; repeat split; try done.
  - intros Hk. apply H3 in Hk as (x & Hx & _). eauto.
  - intros [x Hx]. apply H3. eauto.
  - intros Hk. apply H3 in Hk as [x Hx]. eauto.
  - intros (x & Hx & _). apply H3. eauto.
Qed.

Lemma bag_insert (st : plain) k x v l : st !! k = None -> bag st l -> bag (<[k := (x, v)]> st) (x :: l).
Proof.
  rewrite !bag_iff. intros Hn (ks & Hnd & Hf & Hk). exists (k :: ks).
  assert (k ∉ ks) as Hnk. { intros H. apply Hk in H as [y Hy]. unfold entry_at in Hy. by rewrite Hn in Hy. }
  split; [by constructor|]. split.
  - constructor; [unfold entry_at; by rewrite lookup_insert|].
    apply Forall2_same_length_lookup. apply Forall2_same_length_lookup in Hf as [Hl Hf]. split; [done|].
    intros i k' y Hi Hy. unfold entry_at. rewrite lookup_insert_ne; [by apply (Hf i)|].
    intros ->. apply Hnk. by eapply elem_of_list_lookup_2.
  - intros k'. rewrite elem_of_cons, Hk. unfold entry_at. destruct (decide (k' = k)) as [->|Hne].
    + rewrite lookup_insert. split; [eauto|by left].
    + rewrite lookup_insert_ne by done. naive_solver.
Qed.

Lemma bag_delete (st : plain) k p l : entry_at st k = Some p -> bag st l ->
  exists l', l ≡ₚ p :: l' /\ bag (delete k st) l'.
Proof.
  rewrite bag_iff. intros Hp (ks & Hnd & Hf & Hk).
  assert (k ∈ ks) as Hin by (apply Hk; eauto).
  apply elem_of_Permutation in Hin as [ks' Hks].
  apply Forall2_flip in Hf. destruct (Forall2_permute _ _ _ _ Hf Hks) as (l2 & Hl2 & Hf2).
  inversion Hf2 as [|p' ? l' ? Hp' Hf3]; subst. simpl in Hp'. rewrite Hp in Hp'. injection Hp' as <-.
  exists l'. split; [done|]. apply bag_iff. exists ks'. rewrite Hks in Hnd. apply NoDup_cons in Hnd as [Hnk Hnd].
  split; [done|]. split.
  - apply Forall2_flip in Hf3. apply Forall2_same_length_lookup. apply Forall2_same_length_lookup in Hf3 as [Hl Hf3].
    split; [done|]. intros i k' y Hi Hy. rewrite entry_at_delete. rewrite decide_False; [by apply (Hf3 i)|].
    intros ->. apply Hnk. by eapply elem_of_list_lookup_2.
  - intros k'. rewrite entry_at_delete. case_decide as E.
    + subst. split; [done|]. by intros [? ?].
    + rewrite <- Hk, Hks, elem_of_cons. naive_solver.
Qed.

Lemma describes_replays st ev st' l : describes st ev st' -> bag st l ->
  exists l', bag st' l' /\ replays l ev l'.
Proof.
  intros Hd Hl. inversion Hd; subst.
  - exists l. split; [done|]. by apply rp_nil.
  - exists (x :: l). split; [by apply bag_insert|]. apply rp_add. by apply rp_nil.
  - destruct (bag_delete st k p l) as (l' & Hp & Hl'); [done|done|]. exists (x :: l').
    split; [|by eapply rp_change; [exact Hp|]; apply rp_nil].
    unfold put. rewrite <- insert_delete_insert. apply bag_insert; [apply lookup_delete|done].
  - destruct (bag_delete st k p l) as (l' & Hp & Hl'); [done|done|]. exists l'.
    split; [done|]. eapply rp_delete; [exact Hp|]. by apply rp_nil.
Qed.

(** Calls whose events are faithful. *)
Definition faithful (l : list (env * op)) (rs : list out) : Prop :=
  Forall (fun '(_, o) => ~ is_replace o) l /\ Forall (fun r => forall p, r <> OutErr (Some (SPatch p))) rs.

Lemma events_replay cf s l s' rs evs l0 l1 : observing cf -> reachable cf s -> envs_ok l ->
  run_from cf s l = (s', rs, evs) -> faithful l rs ->
  bag (contents s) l0 -> bag (contents s') l1 -> replays l0 evs l1.
Proof.
  revert s rs evs l0; induction l as [|[e o] l IH]; intros s rs evs l0 Ho Hr Hok Hrun [Hf1 Hf2] H0 H1;
    cbn [run_from] in Hrun.
  - injection Hrun as <- <- <-. apply rp_nil. by eapply enumerates_perm.
  - apply envs_ok_cons in Hok as [He Hok].
    pose proof (reachable_step cf s e o Hr He) as Hr1.
    destruct (run_op cf e s o) as [[s1 r] ev] eqn:E1. cbn [fst] in Hr1.
    destruct (run_from cf s1 l) as [[s2 rs2] evs2] eqn:E2. injection Hrun as <- <- <-.
    apply Forall_cons in Hf1 as [Hn1 Hf1]. apply Forall_cons in Hf2 as [Hn2 Hf2].
    destruct (describes_replays _ _ _ l0 (step_describes _ _ _ _ _ _ _ Ho He Hr E1 Hn1 Hn2)) as (l2 & Hl2 & Hrep); [done|].
    eapply replays_app; [exact Hrep|]. by eapply (IH s1).
Qed.

(** ** Replaying over a map *)

Lemma describes_map st ev st' : describes st ev st' -> well_keyed st -> well_keyed st' ->
  foldl apply_event (fst <$> st) ev = fst <$> st'.
Proof.
  intros Hd Hw Hw'. inversion Hd; subst; simpl.
  - done.
  - assert (id_of x = k) as ->; [|unfold put; by rewrite fmap_insert].
    apply (Hw' k x). by rewrite entry_at_put, decide_True.
  - assert (id_of x = k) as ->; [|unfold put; by rewrite fmap_insert].
    apply (Hw' k x). by rewrite entry_at_put, decide_True.
  - rewrite fmap_delete. f_equal. by apply (Hw k p).
Qed.

Lemma events_map cf s l s' rs evs : observing cf -> usual_key cf -> reachable cf s -> envs_ok l ->
  good_ops l -> well_keyed (contents s) -> run_from cf s l = (s', rs, evs) -> faithful l rs ->
  foldl apply_event (fst <$> contents s) evs = fst <$> contents s'.
Proof.
  revert s rs evs; induction l as [|[e o] l IH]; intros s rs evs Ho Hu Hr Hok Hg Hw Hrun [Hf1 Hf2];
    cbn [run_from] in Hrun.
  - by injection Hrun as <- <- <-.
  - apply envs_ok_cons in Hok as [He Hok]. inversion Hg as [|? ? Hgo Hg']; subst.
    pose proof (reachable_step cf s e o Hr He) as Hr1.
    destruct (run_op cf e s o) as [[s1 r] ev] eqn:E1. cbn [fst] in Hr1.
    destruct (run_from cf s1 l) as [[s2 rs2] evs2] eqn:E2. injection Hrun as <- <- <-.
    apply Forall_cons in Hf1 as [Hn1 Hf1]. apply Forall_cons in Hf2 as [Hn2 Hf2].
    pose proof (well_keyed_step _ _ _ _ _ _ _ Hu He Hr Hgo Hw E1) as Hw1.
    rewrite foldl_app. rewrite (describes_map _ _ _ (step_describes _ _ _ _ _ _ _ Ho He Hr E1 Hn1 Hn2) Hw Hw1).
    by eapply (IH s1).
Qed.

Lemma events_map_new cf l s rs evs : observing cf -> usual_key cf -> envs_ok l -> good_ops l ->
  run cf l = (s, rs, evs) -> faithful l rs -> foldl apply_event ∅ evs = fst <$> contents s.
Proof.
  intros Ho Hu Hok Hg Hrun Hf.
  pose proof (events_map cf new_simap l s rs evs Ho Hu (reachable_new cf) Hok Hg well_keyed_new Hrun Hf) as H.
  by rewrite contents_new, fmap_empty in H.
Qed.
