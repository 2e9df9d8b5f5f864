(** Proofs about the indexed map: its index invariant and the effect of each
    operation on contents. *)
From Coq Require Import ZArith NArith Ascii String Lia.
From stdpp Require Import base gmap strings list.
From Verif Require Import GoBase Env SyncMap.

Local Open Scope list_scope.

Section facts.
Context {T : Type}.
Implicit Types (m : simap T) (ixs : gmap string (indexer T)).

(** Bucket [b] of an index holds key [k]. *)
Definition in_bucket (idx : index) (b k : string) : Prop := k ∈ default ∅ (idx !! b).
Definition no_empty (idx : index) : Prop := forall b, idx !! b <> Some ∅.

Lemma unindex_step_spec (idx : index) (key v : string) :
  let idx' := match idx !! v with
    | None => idx
    | Some set => let set' := set ∖ {[key]} in
        if bool_decide (set' = ∅) then delete v idx else <[v := set']> idx
    end in
  (forall b k, in_bucket idx' b k <-> in_bucket idx b k /\ ~ (b = v /\ k = key)) /\
  (no_empty idx -> no_empty idx').
Proof.
  unfold in_bucket, no_empty. destruct (idx !! v) as [set|] eqn:E; simpl.
  2:{ split; [|done]. intros b k. split; [|tauto]. intros H. split; [done|]. intros [-> ->].
      rewrite E in H. simpl in H. set_solver. }
  case_bool_decide as He.
  - split.
    + intros b k. destruct (decide (b = v)) as [->|Hb].
      * rewrite lookup_delete, E. simpl. set_solver.
      * rewrite lookup_delete_ne by done. naive_solver.
    + intros Hn b. destruct (decide (b = v)) as [->|Hb].
      * by rewrite lookup_delete.
      * by rewrite lookup_delete_ne.
  - split.
    + intros b k. destruct (decide (b = v)) as [->|Hb].
      * rewrite lookup_insert, E. simpl. set_solver.
      * rewrite lookup_insert_ne by done. naive_solver.
    + intros Hn b. destruct (decide (b = v)) as [->|Hb].
      * rewrite lookup_insert. naive_solver.
      * by rewrite lookup_insert_ne.
Qed.

Lemma unindex_vals_spec key vals (idx : index) :
  (forall b k, in_bucket (unindex_vals key vals idx) b k <->
     in_bucket idx b k /\ ~ (b ∈ vals /\ k = key)) /\
  (no_empty idx -> no_empty (unindex_vals key vals idx)).
Proof.
  unfold unindex_vals. revert idx; induction vals as [|v vals IH]; intros idx; cbn [fold_left].
  - split; [|done]. intros b k. set_solver.
  - destruct (unindex_step_spec idx key v) as [H1 H2]. cbn zeta in *.
    match goal with |- context [fold_left _ vals ?i] => destruct (IH i) as [H3 H4] end.
    split; [|auto]. intros b k. rewrite H3, H1. set_solver.
Qed.

Lemma unindex_vals_empty key vals : unindex_vals key vals ∅ = ∅.
Proof.
  unfold unindex_vals. induction vals as [|v vals IH]; cbn [fold_left]; [done|].
  rewrite lookup_empty. exact IH.
Qed.

Lemma reindex_vals_spec key vals (idx : index) :
  (forall b k, in_bucket (reindex_vals key vals idx) b k <->
     in_bucket idx b k \/ (b ∈ vals /\ k = key)) /\
  (no_empty idx -> no_empty (reindex_vals key vals idx)).
Proof.
  unfold reindex_vals. revert idx; induction vals as [|v vals IH]; intros idx; cbn [fold_left].
  - split; [|done]. intros b k. set_solver.
  - match goal with |- context [fold_left _ vals ?i] => destruct (IH i) as [H3 H4] end.
    split.
    + intros b k. rewrite H3. unfold in_bucket. destruct (decide (b = v)) as [->|Hb].
      * rewrite lookup_insert. simpl. set_solver.
      * rewrite lookup_insert_ne by done. set_solver.
    + intros Hn. apply H4. intros b. destruct (decide (b = v)) as [->|Hb].
      * rewrite lookup_insert. intros [= E]. set_solver.
      * rewrite lookup_insert_ne by done. apply Hn.
Qed.

Definition at_index (ind : gmap string index) (name : string) : index := default ∅ (ind !! name).

Lemma unindex_lookup (ord : list (string * indexer T)) key (obj : T) (ind : gmap string index) name (f : indexer T) :
  NoDup (fst <$> ord) -> (name, f) ∈ ord ->
  at_index (unindex ord key obj ind) name = unindex_vals key (f obj) (at_index ind name).
Proof.
  assert (forall ord ind, name ∉ fst <$> ord ->
    at_index (unindex ord key obj ind) name = at_index ind name) as Hout.
  { clear ord ind. intros ord; induction ord as [|[n g] ord IH]; intros ind Hni; [done|].
    unfold unindex in *. cbn [fold_left]. rewrite fmap_cons, not_elem_of_cons in Hni.
    destruct Hni as [Hn Hni]. rewrite IH by done.
    unfold at_index. destruct (ind !! n); [|done]. by rewrite lookup_insert_ne by (simpl in Hn; congruence). }
  revert ind; induction ord as [|[n g] ord IH]; intros ind Hnd Hin; [by apply elem_of_nil in Hin|].
  rewrite fmap_cons, NoDup_cons in Hnd. destruct Hnd as [Hn Hnd].
  apply elem_of_cons in Hin as [[= <- <-]|Hin].
  - unfold unindex. cbn [fold_left].
    match goal with |- at_index (fold_left _ ord ?i) _ = _ =>
      change (at_index (unindex ord key obj i) name = unindex_vals key (f obj) (at_index ind name)) end.
    rewrite Hout by done. unfold at_index. destruct (ind !! name) as [idx|] eqn:E; simpl.
    + by rewrite lookup_insert.
    + rewrite E. simpl. by rewrite unindex_vals_empty.
  - unfold unindex in *. cbn [fold_left]. rewrite IH by done.
    assert (n <> name). { intros ->. apply Hn. apply elem_of_list_fmap. by exists (name, f). }
    f_equal. unfold at_index. destruct (ind !! n); [|done]. by rewrite lookup_insert_ne.
Qed.

Definition reindex_loop (ord : list (string * indexer T)) key (curr : T) (ind : gmap string index) :=
  fold_left (fun ind '(name, f) =>
    <[name := reindex_vals key (f curr) (default ∅ (ind !! name))]> ind) ord ind.

Lemma reindex_loop_lookup ord key curr (ind : gmap string index) name (f : indexer T) :
  NoDup (fst <$> ord) -> (name, f) ∈ ord ->
  at_index (reindex_loop ord key curr ind) name = reindex_vals key (f curr) (at_index ind name).
Proof.
  assert (forall ord ind, name ∉ fst <$> ord ->
    at_index (reindex_loop ord key curr ind) name = at_index ind name) as Hout.
  { clear ord ind. intros ord; induction ord as [|[n g] ord IH]; intros ind Hni; [done|].
    unfold reindex_loop in *. cbn [fold_left]. rewrite fmap_cons, not_elem_of_cons in Hni.
    destruct Hni as [Hn Hni]. rewrite IH by done.
    unfold at_index. by rewrite lookup_insert_ne by (simpl in Hn; congruence). }
  revert ind; induction ord as [|[n g] ord IH]; intros ind Hnd Hin; [by apply elem_of_nil in Hin|].
  rewrite fmap_cons, NoDup_cons in Hnd. destruct Hnd as [Hn Hnd].
  apply elem_of_cons in Hin as [[= <- <-]|Hin].
  - change (at_index (reindex_loop ord key curr (<[name := reindex_vals key (f curr) (default ∅ (ind !! name))]> ind)) name
      = reindex_vals key (f curr) (at_index ind name)).
    rewrite Hout by done. unfold at_index. by rewrite lookup_insert.
  - change (at_index (reindex_loop ord key curr (<[n := reindex_vals key (g curr) (default ∅ (ind !! n))]> ind)) name
      = reindex_vals key (f curr) (at_index ind name)).
    rewrite IH by done.
    assert (n <> name). { intros ->. apply Hn. apply elem_of_list_fmap. by exists (name, f). }
    unfold at_index. by rewrite lookup_insert_ne.
Qed.

(** A loop order over the indexers. *)
Definition loop_ok ixs (ord : list (string * indexer T)) : Prop := ord ≡ₚ map_to_list ixs.

Lemma loop_ok_NoDup ixs ord : loop_ok ixs ord -> NoDup (fst <$> ord).
Proof. intros H. rewrite H. apply NoDup_fst_map_to_list. Qed.

Lemma loop_ok_elem ixs ord name (f : indexer T) : loop_ok ixs ord -> ixs !! name = Some f -> (name, f) ∈ ord.
Proof. intros H Hi. rewrite H. by apply elem_of_map_to_list. Qed.

Lemma indexer_loop_ok ixs e site : env_ok e -> loop_ok ixs (indexer_loop ixs e site).
Proof. intros [H _]. apply H. Qed.

(** The invariant. *)
Record sm_inv ixs m : Prop := {
  inv_ver : forall k v, sm_items m !! k = Some v -> (1 <= vc_ver v)%Z;
  inv_bucket : forall name (f : indexer T), ixs !! name = Some f -> forall b k,
    in_bucket (at_index (sm_indices m) name) b k <->
    exists v, sm_items m !! k = Some v /\ b ∈ f (vc_res v);
  inv_nonempty : forall name (f : indexer T), ixs !! name = Some f -> no_empty (at_index (sm_indices m) name);
}.

Lemma inv_new ixs : sm_inv ixs new_simap.
Proof.
  split; simpl.
  - intros k v H. by rewrite lookup_empty in H.
  - intros name f _ b k. unfold in_bucket, at_index. rewrite lookup_empty. simpl.
    rewrite lookup_empty. simpl. split; [set_solver|]. intros (v & H & _). by rewrite lookup_empty in H.
  - intros name f _ b. unfold at_index. rewrite lookup_empty. simpl. by rewrite lookup_empty.
Qed.

Lemma inv_store ixs e key obj m : env_ok e -> sm_inv ixs m -> sm_inv ixs (store_item ixs e key obj m).
Proof.
  intros He [Hv Hb Hn]. unfold store_item.
  set (cur := sm_items m !! key).
  pose proof (indexer_loop_ok ixs e "unindex" He) as L1.
  pose proof (indexer_loop_ok ixs e "reindex" He) as L2.
  set (ord1 := indexer_loop ixs e "unindex") in *. set (ord2 := indexer_loop ixs e "reindex") in *.
  split; cbn [sm_items sm_indices].
  - intros k v. destruct (decide (k = key)) as [->|Hk].
    + rewrite lookup_insert. intros [= <-]. simpl. destruct cur as [x|] eqn:E; [|done].
      specialize (Hv key x E). lia.
    + rewrite lookup_insert_ne by done. apply Hv.
  - intros name f Hf b k. unfold reindex.
    change (fold_left _ ord2 ?i) with (reindex_loop ord2 key obj i).
    rewrite (reindex_loop_lookup ord2 key obj _ name f) by eauto using loop_ok_NoDup, loop_ok_elem.
    destruct (reindex_vals_spec key (f obj)
      (at_index (match vc_res <$> cur with Some p => unindex ord1 key p (sm_indices m) | None => sm_indices m end) name))
      as [-> _].
    assert (in_bucket (at_index (match vc_res <$> cur with Some p => unindex ord1 key p (sm_indices m)
        | None => sm_indices m end) name) b k <->
      exists v, sm_items m !! k = Some v /\ b ∈ f (vc_res v) /\ k <> key) as Hmid.
    { destruct cur as [x|] eqn:E; unfold cur in E; simpl.
      - rewrite (unindex_lookup ord1 key _ _ name f) by eauto using loop_ok_NoDup, loop_ok_elem.
        destruct (unindex_vals_spec key (f (vc_res x)) (at_index (sm_indices m) name)) as [-> _].
        rewrite (Hb name f Hf). split.
        + intros [(v & H1 & H2) H3]. exists v. split; [done|]. split; [done|]. intros ->.
          assert (v = x) as -> by congruence. tauto.
        + intros (v & H1 & H2 & H3). split; [eauto|]. tauto.
      - rewrite (Hb name f Hf). split.
        + intros (v & H1 & H2). exists v. split; [done|]. split; [done|]. intros ->. congruence.
        + intros (v & H1 & H2 & H3). eauto. }
    rewrite Hmid. destruct (decide (k = key)) as [->|Hk].
    + rewrite lookup_insert. split.
      * intros [(v & _ & _ & H)|[H _]]; [done|]. eauto.
      * intros (v & [= <-] & H). simpl in H. tauto.
    + rewrite lookup_insert_ne by done. split.
      * intros [(v & H1 & H2 & _)|[_ H]]; [eauto|done].
      * intros (v & H1 & H2). left. eauto.
  - intros name f Hf. unfold reindex.
    change (fold_left _ ord2 ?i) with (reindex_loop ord2 key obj i).
    rewrite (reindex_loop_lookup ord2 key obj _ name f) by eauto using loop_ok_NoDup, loop_ok_elem.
    apply (reindex_vals_spec key (f obj)). destruct cur as [x|]; simpl; [|eauto].
    rewrite (unindex_lookup ord1 key _ _ name f) by eauto using loop_ok_NoDup, loop_ok_elem.
    apply (unindex_vals_spec key (f (vc_res x))). eauto.
Qed.

Lemma inv_delete ixs e key m : env_ok e -> sm_inv ixs m -> sm_inv ixs (sm_delete ixs e key m).1.
Proof.
  intros He Hm. unfold sm_delete. destruct (sm_items m !! key) as [x|] eqn:E; [|done].
  destruct Hm as [Hv Hb Hn].
  pose proof (indexer_loop_ok ixs e "unindex" He) as L1.
  set (ord1 := indexer_loop ixs e "unindex") in *.
  split; cbn [fst sm_items sm_indices].
  - intros k v. rewrite lookup_delete_Some. intros [_ H]. eauto.
  - intros name f Hf b k.
    rewrite (unindex_lookup ord1 key _ _ name f) by eauto using loop_ok_NoDup, loop_ok_elem.
    destruct (unindex_vals_spec key (f (vc_res x)) (at_index (sm_indices m) name)) as [-> _].
    rewrite (Hb name f Hf). split.
    + intros [(v & H1 & H2) H3]. exists v. rewrite lookup_delete_Some. split; [|done]. split; [|done].
      intros <-. assert (v = x) as -> by congruence. tauto.
    + intros (v & H1 & H2). rewrite lookup_delete_Some in H1. destruct H1 as [H1 H3].
      split; [eauto|]. intros [_ ->]. done.
  - intros name f Hf.
    rewrite (unindex_lookup ord1 key _ _ name f) by eauto using loop_ok_NoDup, loop_ok_elem.
    apply (unindex_vals_spec key (f (vc_res x))). eauto.
Qed.

(** Replace. *)
Lemma replace_items_lookup (old : gmap string (vc T)) l k :
  NoDup (fst <$> l) ->
  fold_left (fun acc '(k, v) => <[k := next_vc (old !! k) v]> acc) l (∅ : gmap string (vc T)) !! k =
  (fun v => next_vc (old !! k) v) <$> (list_to_map l : gmap string T) !! k.
Proof.
  rewrite <- fold_left_rev_right. intros Hnd.
  assert ((list_to_map l : gmap string T) = list_to_map (rev l)) as ->.
  { apply list_to_map_proper; [done|]. by rewrite rev_alt, rev_append_rev, app_nil_r, <- Permutation_rev || apply Permutation_rev. }
  generalize (rev l). clear l Hnd. intros l. induction l as [|[k' v] l IH]; simpl; [by rewrite !lookup_empty|].
  destruct (decide (k' = k)) as [->|Hk].
  - by rewrite !lookup_insert.
  - rewrite !lookup_insert_ne by done. apply IH.
Qed.

Lemma replace_items ixs e (its : gmap string T) m k : env_ok e ->
  sm_items (sm_replace ixs e its m) !! k = (fun v => next_vc (sm_items m !! k) v) <$> its !! k.
Proof.
  intros [He _]. unfold sm_replace. cbn [sm_items].
  pose proof (He "replace-items"%string _ (map_to_list its)) as Hp.
  rewrite replace_items_lookup.
  - f_equal. rewrite (list_to_map_proper _ (map_to_list its)).
    + by rewrite list_to_map_to_list.
    + rewrite Hp. apply NoDup_fst_map_to_list.
    + done.
  - rewrite Hp. apply NoDup_fst_map_to_list.
Qed.

Lemma replace_index_spec ixs e (l : list (string * T)) (ind : gmap string index) name (f : indexer T) :
  env_ok e -> ixs !! name = Some f ->
  let ind' := fold_left (fun ind '(k, v) => reindex [] (indexer_loop ixs e ("reindex " ++ k)%string) k None v ind) l ind in
  (forall b k, in_bucket (at_index ind' name) b k <->
     in_bucket (at_index ind name) b k \/ exists v, (k, v) ∈ l /\ b ∈ f v) /\
  (no_empty (at_index ind name) -> no_empty (at_index ind' name)).
Proof.
  intros He Hf. revert ind; induction l as [|[k0 v0] l IH]; intros ind; cbn [fold_left] in *.
  - split; [|done]. intros b k. split; [tauto|]. intros [H|(v & H & _)]; [done|]. by apply elem_of_nil in H.
  - destruct (IH (reindex [] (indexer_loop ixs e ("reindex " ++ k0)%string) k0 None v0 ind)) as [H1 H2].
    set (ri := reindex [] (indexer_loop ixs e ("reindex " ++ k0)%string) k0 None v0 ind) in *.
    unfold reindex in ri. pose proof (indexer_loop_ok ixs e ("reindex " ++ k0)%string He) as L.
    set (ord := indexer_loop ixs e ("reindex " ++ k0)%string) in *.
    change ri with (reindex_loop ord k0 v0 ind) in *. clear ri.
    rewrite (reindex_loop_lookup ord k0 v0 ind name f) in H1, H2 by eauto using loop_ok_NoDup, loop_ok_elem.
    destruct (reindex_vals_spec k0 (f v0) (at_index ind name)) as [H3 H4].
    split; [|auto]. intros b k. rewrite H1, H3. split.
    + intros [[H|[H ->]]|(v & H & Hb)]; [by left|right|right].
      * exists v0. split; [apply elem_of_list_here|done].
      * exists v. split; [by apply elem_of_list_further|done].
    + intros [H|(v & H & Hb)]; [by left; left|].
      apply elem_of_cons in H as [[= -> ->]|H]; [by left; right|right; eauto].
Qed.

Lemma inv_replace ixs e (its : gmap string T) m :
  env_ok e -> sm_inv ixs m -> sm_inv ixs (sm_replace ixs e its m).
Proof.
  intros He [Hv Hb Hn]. split.
  - intros k v. rewrite replace_items by done. destruct (its !! k) as [x|]; [|done].
    intros [= <-]. unfold next_vc. simpl. destruct (sm_items m !! k) as [y|] eqn:E; [|done].
    specialize (Hv k y E). lia.
  - intros name f Hf b k. rewrite replace_items by done.
    unfold sm_replace. cbn [sm_indices].
    destruct (replace_index_spec ixs e (env_iter e "replace-index" _ (map_to_list its)) ∅ name f He Hf) as [-> _].
    destruct He as [He _]. unfold in_bucket at 1, at_index at 1. rewrite lookup_empty. simpl.
    rewrite lookup_empty. simpl. split.
    + intros [H|(v & H & Hbf)]; [set_solver|]. rewrite (He _ _ _) in H.
      apply elem_of_map_to_list in H. rewrite H. simpl. eexists. split; [done|]. done.
    + intros (v & H & Hbf). right. destruct (its !! k) as [x|] eqn:E; [|done]. injection H as <-.
      exists x. rewrite (He _ _ _). split; [by apply elem_of_map_to_list|done].
  - intros name f Hf. unfold sm_replace. cbn [sm_indices].
    apply (replace_index_spec ixs e (env_iter e "replace-index" _ (map_to_list its)) ∅ name f He Hf).
    intros b. unfold at_index. rewrite lookup_empty. simpl. by rewrite lookup_empty.
Qed.

(** Reads. *)
Lemma list_perm e m : env_ok e -> sm_list e m ≡ₚ snd <$> map_to_list (sm_items m).
Proof. intros [He _]. unfold sm_list. by rewrite (He _ _ _). Qed.

Lemma index_values_spec ixs e name (f : indexer T) m : env_ok e -> sm_inv ixs m -> ixs !! name = Some f ->
  exists l, sm_index_values ixs e name m = Some l /\ NoDup l /\
    forall b, b ∈ l <-> exists k v, sm_items m !! k = Some v /\ b ∈ f (vc_res v).
Proof.
  intros [He _] [Hv Hb Hn] Hf. unfold sm_index_values. rewrite Hf. eexists. split; [done|]. split.
  - rewrite (He _ _ _). apply NoDup_fst_map_to_list.
  - intros b. rewrite (He _ _ _). fold (at_index (sm_indices m) name). rewrite elem_of_list_fmap. split.
    + intros ([b' set] & -> & H). apply elem_of_map_to_list in H. simpl.
      destruct (decide (set = ∅)) as [->|Hne]; [by destruct (Hn name f Hf b')|].
      apply set_choose_L in Hne as [k Hk]. exists k. apply (Hb name f Hf). unfold in_bucket. by rewrite H.
    + intros (k & H). apply (Hb name f Hf) in H. unfold in_bucket in H.
      destruct (at_index (sm_indices m) name !! b) as [set|] eqn:E; simpl in H; [|set_solver].
      exists (b, set). split; [done|]. by apply elem_of_map_to_list.
Qed.

Lemma index_spec ixs e name (f : indexer T) obj m : env_ok e -> sm_inv ixs m -> ixs !! name = Some f ->
  exists ks, sm_index ixs e name obj m = Some ((fun k => sm_items m !! k) <$> ks) /\ NoDup ks /\
    forall k, k ∈ ks <-> exists v b, sm_items m !! k = Some v /\ b ∈ f obj /\ b ∈ f (vc_res v).
Proof.
  intros [He _] [Hv Hb Hn] Hf. unfold sm_index. unfold indexer in *. rewrite Hf. fold (at_index (sm_indices m) name).
  eexists. split; [done|]. split.
  - rewrite (He _ _ _). apply NoDup_elements.
  - intros k. rewrite (He _ _ _), elem_of_elements.
    set (idx := at_index (sm_indices m) name) in *.
    assert (forall vals acc, k ∈ fold_left (fun acc v => acc ∪ default ∅ (idx !! v)) vals acc <->
      k ∈ (acc : gset string) \/ exists b, b ∈ vals /\ in_bucket idx b k) as Hfold.
    { induction vals as [|b vals IH]; intros acc; simpl.
      - split; [tauto|]. intros [H|(b & H & _)]; [done|]. by apply elem_of_nil in H.
      - rewrite IH. unfold in_bucket. set_solver. }
    rewrite Hfold. split.
    + intros [H|(b & H1 & H2)]; [set_solver|]. apply (Hb name f Hf) in H2 as (v & H2 & H3). eauto.
    + intros (v & b & H1 & H2 & H3). right. exists b. split; [done|]. apply (Hb name f Hf). eauto.
Qed.

Lemma index_none ixs e name obj m : ixs !! name = None ->
  sm_index ixs e name obj m = None /\ sm_index_values ixs e name m = None.
Proof. intros H. unfold sm_index, sm_index_values. unfold indexer in *. by rewrite !H. Qed.

End facts.
