(** Facts about IndexPanic.v. *)
From Coq Require Import ZArith NArith Ascii String Lia.
From stdpp Require Import base gmap strings list.
From Verif Require Import GoBase Encoding Records Env SyncMap SyncMapFacts Tokens Cache SpecStore IndexPanic.

Local Open Scope list_scope.

(** ** Specification *)

(** The key a call that changes the store is about; Replace is about all. *)
Definition touches (pf : pconfig) (o : op) (k : string) : Prop :=
  match o with
  | OAdd x | OUpdate x _ | ODelete x => cf_key (pf_cf pf) x = Ok k
  | OAccumulate _ r => cf_key (pf_cf pf) (Entry zero_meta (TypeMeta "" "") r) = Ok k
  | OReplace _ => True
  | _ => False
  end.

(** Given the calls made so far and what they returned: a call about [k] panicked
    and no Replace has succeeded since. *)
Definition hurt (pf : pconfig) (h : list (op * out)) (k : string) : Prop :=
  exists h1 o h2, h = h1 ++ (o, OutPanic) :: h2 /\ touches pf o k /\ forall l, (OReplace l, OutErr None) ∉ h2.

(** ** Index maintenance *)

Definition member (ind : gmap string index) (name b k : string) : Prop := in_bucket (at_index ind name) b k.
Definition neat (ind : gmap string index) : Prop := forall name, no_empty (at_index ind name).

Lemma at_insert ind name idx name' : at_index (<[name := idx]> ind) name' = if decide (name' = name) then idx else at_index ind name'.
Proof. unfold at_index. destruct (decide _) as [->|H]; [by rewrite lookup_insert|by rewrite lookup_insert_ne]. Qed.

Lemma un_one ind name key vals name' :
  at_index (match ind !! name with None => ind | Some idx => <[name := unindex_vals key vals idx]> ind end) name' =
  if decide (name' = name) then unindex_vals key vals (at_index ind name) else at_index ind name'.
Proof.
  destruct (ind !! name) as [idx|] eqn:E.
  - rewrite at_insert. unfold at_index at 2. by rewrite E.
  - destruct (decide (name' = name)) as [->|]; [|done]. unfold at_index. rewrite E. cbn. by rewrite unindex_vals_empty.
Qed.

Lemma punindex_other ord key obj : forall ind ind' p, punindex ord key obj ind = (ind', p) -> neat ind ->
  neat ind' /\ forall k name b, k <> key -> member ind' name b k <-> member ind name b k.
Proof.
  induction ord as [|[name f] ord IH]; intros ind ind' p H Hn; cbn in H; [injection H as <- <-; done|].
  destruct (f obj) as [vals|]; [|injection H as <- <-; done]. apply IH in H as [H1 H2].
  - split; [done|]. intros k nm b Hk. rewrite (H2 _ _ _ Hk). unfold member. rewrite un_one. destruct (decide (nm = name)) as [->|]; [|done].
    destruct (unindex_vals_spec key vals (at_index ind name)) as [Hs _]. rewrite Hs. naive_solver.
  - intros nm. rewrite un_one. destruct (decide (nm = name)) as [->|]; [|apply Hn]. apply unindex_vals_spec, Hn.
Qed.

Lemma punindex_skip ord key obj : forall ind ind' p name, punindex ord key obj ind = (ind', p) -> name ∉ fst <$> ord -> at_index ind' name = at_index ind name.
Proof.
  induction ord as [|[nm f] ord IH]; intros ind ind' p name H Hn; cbn in H; [by injection H as <- <-|].
  cbn [fmap list_fmap fst] in Hn. apply not_elem_of_cons in Hn as [Hne Hn]. destruct (f obj) as [vals|]; [|by injection H as <- <-].
  rewrite (IH _ _ _ _ H Hn), un_one. by destruct (decide (name = nm)).
Qed.
Lemma punindex_done ord key obj : forall ind ind' name f, punindex ord key obj ind = (ind', false) -> NoDup (fst <$> ord) -> (name, f) ∈ ord ->
  exists vals, f obj = Some vals /\ at_index ind' name = unindex_vals key vals (at_index ind name).
Proof.
  induction ord as [|[nm g] ord IH]; intros ind ind' name f H Hnd Hin; [by apply elem_of_nil in Hin|]. cbn in H.
  cbn [fmap list_fmap fst] in Hnd. apply NoDup_cons in Hnd as [Hno Hnd]. destruct (g obj) as [vals|] eqn:Eg; [|done].
  apply elem_of_cons in Hin as [[= -> ->]|Hin].
  - exists vals. split; [done|]. rewrite (punindex_skip _ _ _ _ _ _ _ H Hno), un_one. by rewrite decide_True.
  - destruct (IH _ _ _ _ H Hnd Hin) as (vs & E & Ha). exists vs. split; [done|]. rewrite Ha, un_one.
    rewrite decide_False; [done|]. intros ->. apply Hno. by apply (elem_of_list_fmap_1 fst) in Hin.
Qed.
Lemma punindex_panics ord key obj : forall ind, (punindex ord key obj ind).2 = true <-> exists name f, (name, f) ∈ ord /\ f obj = None.
Proof.
  induction ord as [|[nm g] ord IH]; intros ind; cbn; [split; [done|]; intros (? & ? & H & _); by apply elem_of_nil in H|].
  destruct (g obj) as [vals|] eqn:Eg; cbn.
  - rewrite IH. split; intros (n & f & Hin & Hf); [exists n, f; split; [by right|done]|]. apply elem_of_cons in Hin as [[= -> ->]|Hin]; [congruence|by exists n, f].
  - split; [|done]. intros _. exists nm, g. split; [left|done].
Qed.

Lemma preloop_other ord key obj : forall ind ind' p, preindex_loop ord key obj ind = (ind', p) -> neat ind ->
  neat ind' /\ forall k name b, k <> key -> member ind' name b k <-> member ind name b k.
Proof.
  induction ord as [|[name f] ord IH]; intros ind ind' p H Hn; cbn in H; [injection H as <- <-; done|].
  destruct (f obj) as [vals|]; [|injection H as <- <-; done]. change (default ∅ (ind !! name)) with (at_index ind name) in H. apply IH in H as [H1 H2].
  - split; [done|]. intros k nm b Hk. rewrite (H2 _ _ _ Hk). unfold member. rewrite at_insert. destruct (decide (nm = name)) as [->|]; [|done].
    destruct (reindex_vals_spec key vals (at_index ind name)) as [Hs _]. rewrite Hs. naive_solver.
  - intros nm. rewrite at_insert. destruct (decide (nm = name)) as [->|]; [|apply Hn]. apply reindex_vals_spec, Hn.
Qed.
Lemma preloop_skip ord key obj : forall ind ind' p name, preindex_loop ord key obj ind = (ind', p) -> name ∉ fst <$> ord -> at_index ind' name = at_index ind name.
Proof.
  induction ord as [|[nm f] ord IH]; intros ind ind' p name H Hn; cbn in H; [by injection H as <- <-|].
  cbn [fmap list_fmap fst] in Hn. apply not_elem_of_cons in Hn as [Hne Hn]. destruct (f obj) as [vals|]; [|by injection H as <- <-].
  rewrite (IH _ _ _ _ H Hn), at_insert. by destruct (decide (name = nm)).
Qed.
Lemma preloop_done ord key obj : forall ind ind' name f, preindex_loop ord key obj ind = (ind', false) -> NoDup (fst <$> ord) -> (name, f) ∈ ord ->
  exists vals, f obj = Some vals /\ at_index ind' name = reindex_vals key vals (at_index ind name).
Proof.
  induction ord as [|[nm g] ord IH]; intros ind ind' name f H Hnd Hin; [by apply elem_of_nil in Hin|]. cbn in H.
  cbn [fmap list_fmap fst] in Hnd. apply NoDup_cons in Hnd as [Hno Hnd]. destruct (g obj) as [vals|] eqn:Eg; [|done].
  apply elem_of_cons in Hin as [[= -> ->]|Hin].
  - exists vals. split; [done|]. rewrite (preloop_skip _ _ _ _ _ _ _ H Hno), at_insert. by rewrite decide_True.
  - destruct (IH _ _ _ _ H Hnd Hin) as (vs & E & Ha). exists vs. split; [done|]. rewrite Ha, at_insert.
    rewrite decide_False; [done|]. intros ->. apply Hno. by apply (elem_of_list_fmap_1 fst) in Hin.
Qed.
Lemma preloop_panics ord key obj : forall ind, (preindex_loop ord key obj ind).2 = true <-> exists name f, (name, f) ∈ ord /\ f obj = None.
Proof.
  induction ord as [|[nm g] ord IH]; intros ind; cbn; [split; [done|]; intros (? & ? & H & _); by apply elem_of_nil in H|].
  destruct (g obj) as [vals|] eqn:Eg; cbn.
  - rewrite IH. split; intros (n & f & Hin & Hf); [exists n, f; split; [by right|done]|]. apply elem_of_cons in Hin as [[= -> ->]|Hin]; [congruence|by exists n, f].
  - split; [|done]. intros _. exists nm, g. split; [left|done].
Qed.

(** An index function of the store panics on [x]. *)
Definition fails (pf : pconfig) (x : entry) : Prop := exists name f, pf_indexers pf !! name = Some f /\ f x = None.

Lemma loop_elem pf e site : env_ok e -> forall name f, (name, f) ∈ pindexer_loop pf e site <-> pf_indexers pf !! name = Some f.
Proof. intros [He _] name f. unfold pindexer_loop. rewrite (He _ _ _). apply elem_of_map_to_list. Qed.
Lemma loop_nodup pf e site : env_ok e -> NoDup (fst <$> pindexer_loop pf e site).
Proof. intros [He _]. unfold pindexer_loop. rewrite (He _ _ _). apply NoDup_fst_map_to_list. Qed.

(** ** The invariant *)

Definition listed (pf : pconfig) (v : option (vc entry)) (name b : string) : Prop :=
  exists f x vals, pf_indexers pf !! name = Some f /\ v = Some x /\ f (vc_res x) = Some vals /\ b ∈ vals.
Definition exact_at (pf : pconfig) (s : items) (k : string) : Prop :=
  forall name b, is_Some (pf_indexers pf !! name) -> member (sm_indices s) name b k <-> listed pf (sm_items s !! k) name b.

Lemma pstore_spec pf e key obj s s' p : env_ok e -> neat (sm_indices s) -> pstore pf e key obj s = (s', p) ->
  sm_items s' = <[key := next_vc (sm_items s !! key) obj]> (sm_items s) /\ neat (sm_indices s') /\
  (forall k, k <> key -> exact_at pf s k -> exact_at pf s' k) /\
  (p = false -> exact_at pf s key -> exact_at pf s' key) /\
  (p = true <-> fails pf obj \/ exists x, sm_items s !! key = Some x /\ fails pf (vc_res x)).
Proof.
  intros He Hn H. unfold pstore in H. destruct (preindex _ _ _ _ _ _) as [ind q] eqn:E. injection H as <- <-. cbn [sm_items sm_indices].
  split; [done|].
  assert (exists ind1 p1, match sm_items s !! key with Some x => punindex (pindexer_loop pf e "unindex") key (vc_res x) (sm_indices s) | None => (sm_indices s, false) end = (ind1, p1) /\
    (if p1 then (ind, q) = (ind1, true) else preindex_loop (pindexer_loop pf e "reindex") key obj ind1 = (ind, q))) as (ind1 & p1 & E1 & E2).
  { unfold preindex in E. destruct (sm_items s !! key) as [x|]; cbn in E.
    - destruct (punindex _ _ _ _) as [i [|]]; eexists _, _; (split; [reflexivity|]); cbn; [by rewrite E|done].
    - eexists _, _. split; [reflexivity|]. done. }
  assert (neat ind1 /\ forall k name b, k <> key -> member ind1 name b k <-> member (sm_indices s) name b k) as [Hn1 Ho1].
  { destruct (sm_items s !! key); [by eapply punindex_other|]. by injection E1 as <- <-. }
  assert (neat ind /\ forall k name b, k <> key -> member ind name b k <-> member ind1 name b k) as [Hn2 Ho2].
  { destruct p1; [by injection E2 as -> ->|by eapply preloop_other]. }
  split; [done|split; [|split]].
  - intros k Hk Hx name b Hi. cbn [sm_items sm_indices]. rewrite lookup_insert_ne by done. rewrite Ho2, Ho1 by done. by apply Hx.
  - intros -> Hx name b [f Hf]. cbn [sm_items sm_indices]. rewrite lookup_insert.
    destruct p1; [by injection E2|].
    destruct (preloop_done _ _ _ _ _ name f E2 (loop_nodup pf e _ He)) as (vals & Hv & Ha); [by apply loop_elem|].
    unfold member. rewrite Ha. destruct (reindex_vals_spec key vals (at_index ind1 name)) as [Hs _]. rewrite Hs.
    assert (~ in_bucket (at_index ind1 name) b key) as Hno.
    { destruct (sm_items s !! key) as [x|] eqn:Ek.
      - destruct (punindex_done _ _ _ _ _ name f E1 (loop_nodup pf e _ He)) as (old & Hv' & Ha'); [by apply loop_elem|]. rewrite Ha'.
        destruct (unindex_vals_spec key old (at_index (sm_indices s) name)) as [Hu _]. rewrite Hu. intros [Hin Hnot].
        destruct (proj1 (Hx name b (mk_is_Some _ _ Hf)) Hin) as (f' & x' & vs & Hf' & Hx' & Hvs & Hb). injection (eq_trans (eq_sym Hf) Hf') as <-.
        rewrite Ek in Hx'. injection Hx' as <-. rewrite Hv' in Hvs. injection Hvs as <-. by apply Hnot.
      - injection E1 as <-. intros Hin. destruct (proj1 (Hx name b (mk_is_Some _ _ Hf)) Hin) as (f' & x' & vs & Hf' & Hx' & Hvs & Hb). by rewrite Ek in Hx'. }
    split.
    + intros [Hin|[Hb _]]; [done|]. exists f, (next_vc (sm_items s !! key) obj), vals. by cbn.
    + intros (f' & x' & vs & Hf' & [= <-] & Hvs & Hb). right. cbn in Hvs. injection (eq_trans (eq_sym Hf) Hf') as <-. rewrite Hv in Hvs. by injection Hvs as <-.
  - assert (p1 = true <-> exists x, sm_items s !! key = Some x /\ fails pf (vc_res x)) as Hp1.
    { destruct (sm_items s !! key) as [x|] eqn:Ek.
      - pose proof (punindex_panics (pindexer_loop pf e "unindex") key (vc_res x) (sm_indices s)) as Hp. rewrite E1 in Hp. cbn in Hp. rewrite Hp.
        split; [intros (n & f & Hin & Hf); exists x; split; [done|]; exists n, f; by rewrite <- (loop_elem pf e "unindex" He)|].
        intros (x' & [= <-] & n & f & Hin & Hf). exists n, f. by rewrite (loop_elem pf e "unindex" He).
      - injection E1 as <- <-. split; [done|]. by intros (? & ? & _). }
    destruct p1.
    + injection E2 as _ ->. split; [|done]. intros _. right. by apply Hp1.
    + pose proof (preloop_panics (pindexer_loop pf e "reindex") key obj ind1) as Hp. rewrite E2 in Hp. cbn in Hp. rewrite Hp.
      split.
      * intros (n & f & Hin & Hf). left. exists n, f. by rewrite <- (loop_elem pf e "reindex" He).
      * intros [(n & f & Hin & Hf)|Hx]; [|by apply Hp1 in Hx]. exists n, f. by rewrite (loop_elem pf e "reindex" He).
Qed.

Lemma pdelete_spec pf e key x s s' p : env_ok e -> neat (sm_indices s) -> sm_items s !! key = Some x -> pdelete pf e key x s = (s', p) ->
  sm_items s' = delete key (sm_items s) /\ neat (sm_indices s') /\
  (forall k, k <> key -> exact_at pf s k -> exact_at pf s' k) /\
  (p = false -> exact_at pf s key -> exact_at pf s' key) /\
  (p = true <-> fails pf (vc_res x)).
Proof.
  intros He Hn Hk H. unfold pdelete in H. destruct (punindex _ _ _ _) as [ind q] eqn:E. injection H as <- <-. cbn [sm_items sm_indices].
  destruct (punindex_other _ _ _ _ _ _ E Hn) as [Hn1 Ho]. split; [done|]. split; [done|]. split; [|split].
  - intros k Hne Hx name b Hi. cbn [sm_items sm_indices]. rewrite lookup_delete_ne by done. rewrite Ho by done. by apply Hx.
  - intros -> Hx name b [f Hf]. cbn [sm_items sm_indices]. rewrite lookup_delete.
    destruct (punindex_done _ _ _ _ _ name f E (loop_nodup pf e _ He)) as (old & Hv & Ha); [by apply loop_elem|].
    unfold member. rewrite Ha. destruct (unindex_vals_spec key old (at_index (sm_indices s) name)) as [Hu _]. rewrite Hu. split.
    + intros [Hin Hnot]. destruct (proj1 (Hx name b (mk_is_Some _ _ Hf)) Hin) as (f' & x' & vs & Hf' & Hx' & Hvs & Hb). injection (eq_trans (eq_sym Hf) Hf') as <-.
      rewrite Hk in Hx'. injection Hx' as <-. rewrite Hv in Hvs. injection Hvs as <-. destruct Hnot. done.
    + by intros (? & ? & ? & _ & ? & _).
  - pose proof (punindex_panics (pindexer_loop pf e "unindex") key (vc_res x) (sm_indices s)) as Hp. rewrite E in Hp. cbn in Hp. rewrite Hp.
    split; intros (n & f & Hin & Hf); exists n, f; [by rewrite <- (loop_elem pf e "unindex" He)|by rewrite (loop_elem pf e "unindex" He)].
Qed.

Lemma preplace_loop_spec pf e l : env_ok e -> NoDup (fst <$> l) -> forall ind ind' p, neat ind -> preplace_loop pf e l ind = (ind', p) ->
  neat ind' /\
  (forall k name b, k ∉ fst <$> l -> member ind' name b k <-> member ind name b k) /\
  (p = false -> forall k x name f, (k, x) ∈ l -> pf_indexers pf !! name = Some f -> (forall b, ~ member ind name b k) ->
     exists vals, f x = Some vals /\ forall b, member ind' name b k <-> b ∈ vals) /\
  (p = true <-> exists k x, (k, x) ∈ l /\ fails pf x).
Proof.
  intros He. induction l as [|[k x] l IH]; intros Hnd ind ind' p Hn H; cbn in H.
  - injection H as <- <-. split; [done|]. split; [done|]. split; [intros _ k x name f Hin; by apply elem_of_nil in Hin|].
    split; [done|]. intros (k & x & Hin & _). by apply elem_of_nil in Hin.
  - cbn [fmap list_fmap fst] in Hnd. apply NoDup_cons in Hnd as [Hno Hnd].
    destruct (preindex_loop (pindexer_loop pf e ("reindex " ++ k)%string) k x ind) as [ind1 p1] eqn:E1. destruct (preloop_other _ _ _ _ _ _ E1 Hn) as [Hn1 Ho1].
    pose proof (preloop_panics (pindexer_loop pf e ("reindex " ++ k)%string) k x ind) as Hp1. rewrite E1 in Hp1. cbn in Hp1.
    assert (p1 = true <-> fails pf x) as Hf1.
    { rewrite Hp1. split; intros (n & f & Hin & Hf); exists n, f; [by rewrite <- (loop_elem pf e ("reindex " ++ k)%string He)|by rewrite (loop_elem pf e ("reindex " ++ k)%string He)]. }
    destruct p1.
    + injection H as <- <-. split; [done|]. split; [|split; [done|]].
      * intros k' name b Hk. cbn [fmap list_fmap fst] in Hk. apply not_elem_of_cons in Hk as [Hk _]. by apply Ho1.
      * split; [|done]. intros _. exists k, x. split; [left|]. by apply Hf1.
    + destruct (IH Hnd _ _ _ Hn1 H) as (Hn2 & Ho2 & Hd2 & Hp2). split; [done|]. split; [|split].
      * intros k' name b Hk. cbn [fmap list_fmap fst] in Hk. apply not_elem_of_cons in Hk as [Hk Hk']. rewrite Ho2 by done. by apply Ho1.
      * intros -> k' x' name f Hin Hf Hemp. apply elem_of_cons in Hin as [[= -> ->]|Hin].
        -- destruct (preloop_done _ _ _ _ _ name f E1 (loop_nodup pf e _ He)) as (vals & Hv & Ha); [by apply loop_elem|].
           exists vals. split; [done|]. intros b. rewrite Ho2 by done. unfold member. rewrite Ha.
           destruct (reindex_vals_spec k vals (at_index ind name)) as [Hs _]. rewrite Hs. specialize (Hemp b). unfold member in Hemp. naive_solver.
        -- apply Hd2; [done..|]. intros b. rewrite Ho1; [apply Hemp|]. intros ->. apply Hno. by apply (elem_of_list_fmap_1 fst) in Hin.
      * rewrite Hp2. split; intros (k' & x' & Hin & Hf); [exists k', x'; split; [by right|done]|].
        apply elem_of_cons in Hin as [[= -> ->]|Hin]; [by apply Hf1 in Hf|by exists k', x'].
Qed.

Lemma preplace_spec pf e m s s' p : env_ok e -> preplace pf e m s = (s', p) ->
  (forall k, sm_items s' !! k = (fun v => next_vc (sm_items s !! k) v) <$> m !! k) /\ neat (sm_indices s') /\
  (p = false -> forall k, exact_at pf s' k) /\
  (p = true <-> exists k x, m !! k = Some x /\ fails pf x).
Proof.
  intros He H. unfold preplace in H. destruct (preplace_loop _ _ _ _) as [ind q] eqn:E. injection H as <- <-. cbn [sm_items sm_indices].
  assert (neat (∅ : gmap string index)) as H0. { intros name b. unfold at_index. rewrite lookup_empty. cbn. by rewrite lookup_empty. }
  assert (NoDup (fst <$> env_iter e "replace-index" _ (map_to_list m))) as Hnd. { rewrite (proj1 He _ _ _). apply NoDup_fst_map_to_list. }
  assert (forall k x, (k, x) ∈ env_iter e "replace-index" _ (map_to_list m) <-> m !! k = Some x) as Hel. { intros k x. rewrite (proj1 He _ _ _). apply elem_of_map_to_list. }
  destruct (preplace_loop_spec pf e _ He Hnd _ _ _ H0 E) as (Hn & Ho & Hd & Hp).
  assert (forall name b k, ~ member (∅ : gmap string index) name b k) as Hemp.
  { intros name b k. unfold member, in_bucket, at_index. rewrite lookup_empty. cbn. rewrite lookup_empty. cbn. apply not_elem_of_empty. }
  assert (forall k, fold_left (fun acc '(k, v) => <[k := next_vc (sm_items s !! k) v]> acc) (env_iter e "replace-items" _ (map_to_list m)) (∅ : gmap string (vc entry)) !! k =
    (fun v => next_vc (sm_items s !! k) v) <$> m !! k) as Hit. { intros k. exact (replace_items (∅ : gmap string (indexer entry)) e m s k He). }
  split; [exact Hit|]. split; [done|]. split.
  - intros -> k name b [f Hf]. cbn [sm_items sm_indices]. rewrite Hit. destruct (m !! k) as [x|] eqn:Ek.
    + destruct (Hd eq_refl k x name f) as (vals & Hv & Hm); [by apply Hel|done|intros ?; apply Hemp|]. rewrite Hm. split.
      * intros Hb. exists f, (next_vc (sm_items s !! k) x), vals. by cbn.
      * intros (f' & x' & vs & Hf' & [= <-] & Hvs & Hb). cbn in Hvs. injection (eq_trans (eq_sym Hf) Hf') as <-. rewrite Hv in Hvs. by injection Hvs as <-.
    + rewrite Ho; [|intros Hin; apply elem_of_list_fmap in Hin as ([k' x] & -> & Hin); apply Hel in Hin; cbn in Ek; congruence].
      split; [by intros ?%Hemp|]. by intros (? & ? & ? & _ & ? & _).
  - rewrite Hp. split; intros (k & x & Hin & Hf); exists k, x; by rewrite ?Hel in *.
Qed.

(** ** Calls *)

Ltac pcases := repeat match goal with
  | H : context [match ?x with _ => _ end] |- _ => first [is_var x; destruct x|destruct x eqn:?]; cbn in *; simplify_eq
  end.

(** What a call does to the invariant. *)
Lemma pstep_inv pf e s o s' r ev : env_ok e -> neat (sm_indices s) -> prun_op pf e s o = (s', r, ev) ->
  neat (sm_indices s') /\
  (forall k, exact_at pf s k -> (touches pf o k -> r <> OutPanic) -> exact_at pf s' k) /\
  ((exists l, o = OReplace l) -> r = OutErr None -> forall k, exact_at pf s' k).
Proof.
  intros He Hn H.
  assert (forall key obj ok evs, (forall k, touches pf o k <-> k = key) -> pdone (pstore pf e key obj s) ok evs = (s', r, ev) ->
    neat (sm_indices s') /\ (forall k, exact_at pf s k -> (touches pf o k -> r <> OutPanic) -> exact_at pf s' k)) as Hst.
  { intros key obj ok evs Ht Hd. destruct (pstore pf e key obj s) as [s1 p] eqn:E. destruct (pstore_spec _ _ _ _ _ _ _ He Hn E) as (_ & Hn' & Ho & Hs & _).
    unfold pdone in Hd. cbn in Hd. destruct p; injection Hd as <- <- <-; (split; [done|]); intros k Hx Hk; destruct (decide (k = key)) as [->|Hne]; try by apply Ho.
    - destruct Hk; [by apply Ht|done].
    - by apply Hs. }
  assert (s' = s -> neat (sm_indices s') /\ (forall k, exact_at pf s k -> (touches pf o k -> r <> OutPanic) -> exact_at pf s' k)) as Hid. { by intros ->. }
  destruct o as [x|x t|x|l|src p|x|sel|n x sel|n]; cbn [prun_op] in H; cbn [touches] in *;
    try (injection H as <- <- <-; destruct (Hid eq_refl) as [A B]; split; [done|split; [done|by intros [? ?]]]).
  - unfold padd in H. assert (neat (sm_indices s') /\ (forall k, exact_at pf s k -> (cf_key (pf_cf pf) x = Ok k -> r <> OutPanic) -> exact_at pf s' k)) as [A B].
    { destruct (cf_key (pf_cf pf) x) as [key|m|]; [|by apply Hid; injection H..]. destruct (check_conds _ _); [by apply Hid; injection H|].
      eapply Hst; [|exact H]. intros k. split; congruence. }
    split; [done|split; [done|by intros [? ?]]].
  - unfold pupdate in H. assert (neat (sm_indices s') /\ (forall k, exact_at pf s k -> (cf_key (pf_cf pf) x = Ok k -> r <> OutPanic) -> exact_at pf s' k)) as [A B].
    { destruct (cf_key (pf_cf pf) x) as [key|m|]; [|by apply Hid; injection H..]. destruct (get_conditional t); [|by apply Hid; injection H..]. destruct (check_conds _ _); [by apply Hid; injection H|].
      eapply Hst; [|exact H]. intros k. split; congruence. }
    split; [done|split; [done|by intros [? ?]]].
  - unfold premove in H. assert (neat (sm_indices s') /\ (forall k, exact_at pf s k -> (cf_key (pf_cf pf) x = Ok k -> r <> OutPanic) -> exact_at pf s' k)) as [A B].
    { destruct (cf_key (pf_cf pf) x) as [key|m|]; [|by apply Hid; injection H..]. destruct (sm_items s !! key) as [v|] eqn:Ek; [|by apply Hid; injection H].
      destruct (pdelete pf e key v s) as [s1 p] eqn:E. destruct (pdelete_spec _ _ _ _ _ _ _ He Hn Ek E) as (_ & Hn' & Ho & Hs & _).
      unfold pdone in H. cbn in H. destruct p; injection H as <- <- <-; (split; [done|]); intros k Hx Hk; destruct (decide (k = key)) as [->|Hne]; try by apply Ho.
      - by destruct Hk.
      - by apply Hs. }
    split; [done|split; [done|by intros [? ?]]].
  - unfold preplace_all in H. destruct (keyed (pf_cf pf) l ∅) as [m|msg|].
    + destruct (preplace pf e m s) as [s1 p] eqn:E. destruct (preplace_spec _ _ _ _ _ _ He E) as (_ & Hn' & Hd & _).
      unfold pdone in H. cbn in H. destruct p; injection H as <- <- <-; (split; [done|split]).
      * intros k _ Hk. by destruct Hk.
      * done.
      * intros k _ _. by apply Hd.
      * intros _ _. by apply Hd.
    + injection H as <- <- <-. split; [done|split; [done|done]].
    + injection H as <- <- <-. split; [done|split; [done|done]].
  - unfold paccumulate in H. assert (neat (sm_indices s') /\ (forall k, exact_at pf s k -> (cf_key (pf_cf pf) (Entry zero_meta (TypeMeta "" "") p) = Ok k -> r <> OutPanic) -> exact_at pf s' k)) as [A B].
    { destruct (cf_key (pf_cf pf) _) as [key|m|]; [|by apply Hid; injection H..]. destruct (patch_record _ _ _ _) as [next|[]|]; try (by apply Hid; injection H).
      eapply Hst; [|exact H]. intros k. split; congruence. }
    split; [done|split; [done|by intros [? ?]]].
Qed.

Lemma hurt_snoc pf h o r k : ~ hurt pf (h ++ [(o, r)]) k -> (touches pf o k -> r <> OutPanic) /\ (hurt pf h k -> exists l, o = OReplace l /\ r = OutErr None).
Proof.
  intros H. split.
  - intros Ht ->. apply H. exists h, o, []. split; [done|]. split; [done|]. intros l. apply not_elem_of_nil.
  - intros (h1 & o' & h2 & -> & Ht & Hno).
    assert ((forall l, (OReplace l, OutErr None) <> (o, r)) -> exists l, o = OReplace l /\ r = OutErr None) as Hc.
    { intros Hne. destruct H. exists h1, o', (h2 ++ [(o, r)]). split; [by rewrite <- app_assoc|]. split; [done|].
      intros l [Hin|Hin]%elem_of_app; [by apply (Hno l)|]. apply elem_of_list_singleton in Hin. by destruct (Hne l). }
    destruct o as [x|x t|x|l|src p|x|sel|n x sel|n]; try (apply Hc; discriminate).
    assert (r = OutErr None \/ r <> OutErr None) as [->|Hr]; [destruct r as [[]| | | |]; first [by left|by right]|by exists l|]. apply Hc. intros l' [= _ E]. by destruct Hr.
Qed.

Lemma prun_snoc pf : forall l s e o s1 rs evs, prun_from pf s l = (s1, rs, evs) ->
  prun_from pf s (l ++ [(e, o)]) = let '(s2, r, ev) := prun_op pf e s1 o in (s2, rs ++ [r], evs ++ ev).
Proof.
  induction l as [|[e' o'] l IH]; intros s e o s1 rs evs H; cbn in H |- *.
  - injection H as <- <- <-. destruct (prun_op pf e s o) as [[? ?] ?]. cbn. by rewrite app_nil_r.
  - destruct (prun_op pf e' s o') as [[s2 r2] ev2]. destruct (prun_from pf s2 l) as [[s3 rs3] ev3] eqn:E. injection H as <- <- <-.
    rewrite (IH _ e o _ _ _ E). destruct (prun_op pf e s3 o) as [[? ?] ?]. cbn. by rewrite <- app_assoc.
Qed.
Lemma prun_length pf : forall l s s1 rs evs, prun_from pf s l = (s1, rs, evs) -> length rs = length l.
Proof.
  induction l as [|[e' o'] l IH]; intros s s1 rs evs H; cbn in H; [by injection H as <- <- <-|].
  destruct (prun_op pf e' s o') as [[s2 r2] ev2]. destruct (prun_from pf s2 l) as [[s3 rs3] ev3] eqn:E. injection H as <- <- <-. cbn. by erewrite IH.
Qed.

Lemma prun_inv pf l s rs evs : envs_ok l -> prun_from pf new_simap l = (s, rs, evs) ->
  neat (sm_indices s) /\ forall k, ~ hurt pf (zip (snd <$> l) rs) k -> exact_at pf s k.
Proof.
  revert s rs evs. induction l as [|[e o] l IH] using rev_ind; intros s rs evs Hok H.
  - injection H as <- <- <-. split.
    + intros name b. cbn. unfold at_index. rewrite lookup_empty. cbn. by rewrite lookup_empty.
    + intros k _ name b _. cbn. unfold member, in_bucket, at_index. rewrite !lookup_empty. cbn. rewrite lookup_empty. cbn.
      split; [by intros ?%not_elem_of_empty|]. by intros (? & ? & ? & _ & ? & _).
  - destruct (prun_from pf new_simap l) as [[s1 rs1] ev1] eqn:E. rewrite (prun_snoc _ _ _ e o _ _ _ E) in H.
    destruct (prun_op pf e s1 o) as [[s2 r2] ev2] eqn:E2. injection H as <- <- <-.
    apply Forall_app in Hok as [Hok Hoe]. apply (Forall_inv (P := fun '(e, _) => env_ok e)) in Hoe. cbn in Hoe. destruct (IH _ _ _ Hok eq_refl) as [Hn Hx].
    destruct (pstep_inv _ _ _ _ _ _ _ Hoe Hn E2) as (Hn' & Hs & Hr). split; [done|]. intros k Hk.
    rewrite fmap_app, zip_with_app in Hk by (rewrite fmap_length; symmetry; by eapply prun_length).
    apply hurt_snoc in Hk as [H1 H2].
    assert (r2 = OutErr None \/ r2 <> OutErr None) as [Hr2|Hr2]; [destruct r2 as [[]| | | |]; first [by left|by right]| |apply Hs; [|done]; apply Hx; intros Hh; by destruct (H2 Hh) as (? & ? & ?)].
    destruct o; try (apply Hs; [|done]; apply Hx; intros Hh; by destruct (H2 Hh) as (? & ? & ?)). apply Hr; [by eexists|done].
Qed.

(** ** What a call returns *)

Lemma contents_eq (s s' : items) : sm_items s = sm_items s' -> contents s = contents s'.
Proof. unfold contents. by intros ->. Qed.

(** The calls that do not use an index. *)
Definition plain_call (o : op) : Prop := match o with OIndex _ _ _ | OIndexValues _ => False | _ => True end.

Lemma same_but_index pf e s o s' r ev s1 r1 ev1 : env_ok e -> neat (sm_indices s) -> plain_call o ->
  prun_op pf e s o = (s', r, ev) -> run_op (pf_cf pf) e s o = (s1, r1, ev1) ->
  contents s' = contents s1 /\ (r = r1 /\ ev = ev1 \/ r = OutPanic /\ ev = []).
Proof.
  intros He Hn Hp H H1.
  assert (forall key obj ok evs, pdone (pstore pf e key obj s) ok evs = (s', r, ev) -> (store_item (cf_indexers (pf_cf pf)) e key obj s, ok, evs) = (s1, r1, ev1) ->
    contents s' = contents s1 /\ (r = r1 /\ ev = ev1 \/ r = OutPanic /\ ev = [])) as Hst.
  { intros key obj ok evs Hd Hd1. destruct (pstore pf e key obj s) as [s2 p] eqn:E. destruct (pstore_spec _ _ _ _ _ _ _ He Hn E) as (Hi & _).
    injection Hd1 as <- <- <-. unfold pdone in Hd. cbn in Hd. destruct p; injection Hd as <- <- <-; (split; [by apply contents_eq|]); [by right|by left]. }
  assert ((s', r, ev) = (s1, r1, ev1) -> contents s' = contents s1 /\ (r = r1 /\ ev = ev1 \/ r = OutPanic /\ ev = [])) as Hid. { intros [= <- <- <-]. by split; [|left]. }
  destruct o as [x|x t|x|l|src p|x|sel|n x sel|n]; cbn [prun_op run_op] in H, H1; try done; try (by apply Hid; rewrite <- H, <- H1).
  - unfold padd in H. unfold add in H1. destruct (cf_key (pf_cf pf) x) as [key|m|]; [|by apply Hid; rewrite <- H, <- H1..]. unfold sm_update in H1.
    destruct (check_conds _ _); [by apply Hid; rewrite <- H, <- H1|]. by eapply Hst.
  - unfold pupdate in H. unfold update in H1. destruct (cf_key (pf_cf pf) x) as [key|m|]; [|by apply Hid; rewrite <- H, <- H1..].
    destruct (get_conditional t); [|by apply Hid; rewrite <- H, <- H1..]. unfold sm_update in H1.
    destruct (check_conds _ _); [by apply Hid; rewrite <- H, <- H1|]. by eapply Hst.
  - unfold premove in H. unfold remove in H1. destruct (cf_key (pf_cf pf) x) as [key|m|]; [|by apply Hid; rewrite <- H, <- H1..]. unfold sm_delete in H1.
    destruct (sm_items s !! key) as [v|] eqn:Ek; [|by apply Hid; rewrite <- H, <- H1].
    destruct (pdelete pf e key v s) as [s2 p] eqn:E. destruct (pdelete_spec _ _ _ _ _ _ _ He Hn Ek E) as (Hi & _).
    injection H1 as <- <- <-. unfold pdone in H. cbn in H. destruct p; injection H as <- <- <-; (split; [by apply contents_eq|]); [by right|by left].
  - unfold preplace_all in H. unfold replace in H1. destruct (keyed (pf_cf pf) l ∅) as [m|msg|]; [|by apply Hid; rewrite <- H, <- H1..].
    destruct (preplace pf e m s) as [s2 p] eqn:E. injection H1 as <- <- <-.
    assert (sm_items s2 = sm_items (sm_replace (cf_indexers (pf_cf pf)) e m s)) as Hi.
    { unfold preplace in E. destruct (preplace_loop _ _ _ _) as [ind q]. by injection E as <- <-. }
    unfold pdone in H. cbn in H. destruct p; injection H as <- <- <-; (split; [by apply contents_eq|]); [by right|by left].
  - unfold paccumulate in H. unfold accumulate in H1. destruct (cf_key (pf_cf pf) _) as [key|m|]; [|by apply Hid; rewrite <- H, <- H1..].
    unfold sm_patch in H1. cbn [check_conds] in H1. destruct (patch_record _ _ _ _) as [next|q|]; [by eapply Hst|by apply Hid; destruct q; rewrite <- H, <- H1|by apply Hid; rewrite <- H, <- H1].
Qed.

(** The entries the index functions are called for, given what the call does to
    what is stored: those that are written and those they replace. *)
Definition at_key (s : items) (k : string) : option (entry * Z) := contents s !! k.

Lemma at_key_items s k : at_key s k = (fun v => (vc_res v, vc_ver v)) <$> sm_items s !! k.
Proof. unfold at_key, contents. apply lookup_fmap. Qed.

Lemma one_panics pf e s o s' r ev s1 r1 ev1 : env_ok e -> neat (sm_indices s) -> plain_call o -> (forall l, o <> OReplace l) ->
  prun_op pf e s o = (s', r, ev) -> run_op (pf_cf pf) e s o = (s1, r1, ev1) ->
  (r = OutPanic <-> r1 = OutPanic \/ exists k, at_key s k <> at_key s1 k /\ ((exists x n, at_key s k = Some (x, n) /\ fails pf x) \/ exists x n, at_key s1 k = Some (x, n) /\ fails pf x)).
Proof.
  intros He Hn Hp Hnr H H1.
  assert (forall key obj ok evs, ok <> OutPanic -> pdone (pstore pf e key obj s) ok evs = (s', r, ev) -> (store_item (cf_indexers (pf_cf pf)) e key obj s, ok, evs) = (s1, r1, ev1) ->
    (r = OutPanic <-> r1 = OutPanic \/ exists k, at_key s k <> at_key s1 k /\ ((exists x n, at_key s k = Some (x, n) /\ fails pf x) \/ exists x n, at_key s1 k = Some (x, n) /\ fails pf x))) as Hst.
  { intros key obj ok evs Hok Hd Hd1. destruct (pstore pf e key obj s) as [s2 p] eqn:E. destruct (pstore_spec _ _ _ _ _ _ _ He Hn E) as (_ & _ & _ & _ & Hpan).
    injection Hd1 as <- <- <-.
    assert (at_key (store_item (cf_indexers (pf_cf pf)) e key obj s) key = Some (obj, vc_ver (next_vc (sm_items s !! key) obj))) as Hk.
    { rewrite at_key_items. unfold store_item. cbn [sm_items]. by rewrite lookup_insert. }
    assert (at_key s key <> at_key (store_item (cf_indexers (pf_cf pf)) e key obj s) key) as Hne.
    { rewrite Hk, at_key_items. destruct (sm_items s !! key) as [v|]; cbn; [|done]. intros [= _ Hv]. lia. }
    assert (r = OutPanic <-> p = true) as ->. { unfold pdone in Hd. cbn in Hd. destruct p; injection Hd as <- <- <-; [done|]. split; [by intros ->|done]. }
    rewrite Hpan. split.
    - intros [Hf|(x & Hx & Hf)]; right; exists key; (split; [done|]); [right|left].
      + by exists obj, (vc_ver (next_vc (sm_items s !! key) obj)).
      + exists (vc_res x), (vc_ver x). split; [|done]. by rewrite at_key_items, Hx.
    - intros [->|(k & Hdiff & Hcase)]; [done|]. destruct (decide (k = key)) as [->|Hk'].
      2: { destruct Hdiff. rewrite !at_key_items. unfold store_item. cbn [sm_items]. by rewrite lookup_insert_ne. }
      destruct Hcase as [(x & n & Hx & Hf)|(x & n & Hx & Hf)].
      + rewrite at_key_items in Hx. destruct (sm_items s !! key) as [v|]; [|done]. injection Hx as <- _. right. by exists v.
      + rewrite Hk in Hx. injection Hx as <- _. by left. }
  assert ((s', r, ev) = (s1, r1, ev1) -> s1 = s -> (r = OutPanic <-> r1 = OutPanic \/ exists k, at_key s k <> at_key s1 k /\ ((exists x n, at_key s k = Some (x, n) /\ fails pf x) \/ exists x n, at_key s1 k = Some (x, n) /\ fails pf x))) as Hid.
  { intros [= <- <- <-] ->. split; [by left|]. intros [?|(k & Hk & _)]; done. }
  destruct o as [x|x t|x|l|src p|x|sel|n x sel|n]; cbn [prun_op run_op] in H, H1; try done; try (apply Hid; [by rewrite <- H, <- H1|by injection H1]).
  - unfold padd in H. unfold add in H1. destruct (cf_key (pf_cf pf) x) as [key|m|]; [|apply Hid; [by rewrite <- H, <- H1|by injection H1]..]. unfold sm_update in H1.
    destruct (check_conds _ _); [apply Hid; [by rewrite <- H, <- H1|by injection H1]|]. eapply Hst; [|exact H|exact H1]; discriminate.
  - unfold pupdate in H. unfold update in H1. destruct (cf_key (pf_cf pf) x) as [key|m|]; [|apply Hid; [by rewrite <- H, <- H1|by injection H1]..].
    destruct (get_conditional t); [|apply Hid; [by rewrite <- H, <- H1|by injection H1]..]. unfold sm_update in H1.
    destruct (check_conds _ _); [apply Hid; [by rewrite <- H, <- H1|by injection H1]|]. eapply Hst; [|exact H|exact H1]; discriminate.
  - unfold premove in H. unfold remove in H1. destruct (cf_key (pf_cf pf) x) as [key|m|]; [|apply Hid; [by rewrite <- H, <- H1|by injection H1]..]. unfold sm_delete in H1.
    destruct (sm_items s !! key) as [v|] eqn:Ek; [|apply Hid; [by rewrite <- H, <- H1|by injection H1]].
    destruct (pdelete pf e key v s) as [s2 p] eqn:E. destruct (pdelete_spec _ _ _ _ _ _ _ He Hn Ek E) as (_ & _ & _ & _ & Hpan).
    injection H1 as <- <- <-.
    assert (r = OutPanic <-> p = true) as ->. { unfold pdone in H. cbn in H. destruct p; injection H as <- <- <-; split; done. }
    rewrite Hpan. split.
    + intros Hf. right. exists key. rewrite !at_key_items. cbn [sm_items]. rewrite lookup_delete, Ek. cbn. split; [done|]. left. by exists (vc_res v), (vc_ver v).
    + intros [?|(k & Hdiff & Hcase)]; [done|]. rewrite !at_key_items in *. cbn [sm_items] in *. destruct (decide (k = key)) as [->|Hk'].
      2: { destruct Hdiff. by rewrite lookup_delete_ne. }
      rewrite lookup_delete in Hcase. rewrite Ek in Hcase. destruct Hcase as [(y & n & [= <- _] & Hf)|(y & n & ? & Hf)]; done.
  - by destruct (Hnr l).
  - unfold paccumulate in H. unfold accumulate in H1. destruct (cf_key (pf_cf pf) _) as [key|m|]; [|apply Hid; [by rewrite <- H, <- H1|by injection H1]..].
    unfold sm_patch in H1. cbn [check_conds] in H1. destruct (patch_record _ _ _ _) as [next|q|]; [eapply Hst; [|exact H|exact H1]; discriminate|apply Hid; destruct q; first [by rewrite <- H, <- H1|by injection H1]|apply Hid; [by rewrite <- H, <- H1|by injection H1]].
Qed.

Lemma replace_panics pf e s l s' r ev s1 r1 ev1 : env_ok e ->
  prun_op pf e s (OReplace l) = (s', r, ev) -> run_op (pf_cf pf) e s (OReplace l) = (s1, r1, ev1) ->
  (r = OutPanic <-> r1 = OutPanic \/ r1 = OutErr None /\ exists k x n, at_key s1 k = Some (x, n) /\ fails pf x).
Proof.
  intros He H H1. cbn [prun_op run_op] in H, H1. unfold preplace_all in H. unfold replace in H1. destruct (keyed (pf_cf pf) l ∅) as [m|msg|].
  - destruct (preplace pf e m s) as [s2 p] eqn:E. destruct (preplace_spec _ _ _ _ _ _ He E) as (_ & _ & _ & Hpan). injection H1 as <- <- <-.
    assert (r = OutPanic <-> p = true) as ->. { unfold pdone in H. cbn in H. destruct p; injection H as <- <- <-; split; done. }
    rewrite Hpan. setoid_rewrite at_key_items. setoid_rewrite (replace_items (cf_indexers (pf_cf pf)) e m s _ He). split.
    + intros (k & x & Hk & Hf). right. split; [done|]. exists k, x, (vc_ver (next_vc (sm_items s !! k) x)). by rewrite Hk.
    + intros [?|(_ & k & x & n & Hk & Hf)]; [done|]. destruct (m !! k) as [y|] eqn:Ey; [|done]. cbn in Hk. injection Hk as <- _. by exists k, y.
  - injection H as <- <- <-. injection H1 as <- <- <-. split; [done|]. intros [?|[? _]]; done.
  - injection H as <- <- <-. injection H1 as <- <- <-. split; [by left|done].
Qed.

(** ** Lookups *)

Lemma fold_union (vals : list string) (idx : index) : forall acc k,
  k ∈ fold_left (fun (acc : gset string) v => acc ∪ default ∅ (idx !! v)) vals acc <-> k ∈ acc \/ exists b, b ∈ vals /\ in_bucket idx b k.
Proof.
  induction vals as [|v vals IH]; intros acc k; cbn.
  - split; [by left|]. intros [?|(b & Hb & _)]; [done|by apply elem_of_nil in Hb].
  - rewrite IH, elem_of_union. unfold in_bucket. split.
    + intros [[?|?]|(b & Hb & Hk)]; [by left|right; exists v; split; [left|done]|right; exists b; split; [by right|done]].
    + intros [?|(b & Hb & Hk)]; [by left; left|]. apply elem_of_cons in Hb as [->|Hb]; [by left; right|right; by exists b].
Qed.

Lemma pindex_spec pf e s name f x vals : env_ok e -> pf_indexers pf !! name = Some f -> f x = Some vals ->
  exists ks, prun_op pf e s (OIndex name x None) = (s, OutSet ((fun k => match entry_at (contents s) k with Some y => y | None => zero_entry end) <$> ks) "" None, []) /\
    NoDup ks /\ forall k, k ∈ ks <-> exists b, b ∈ vals /\ member (sm_indices s) name b k.
Proof.
  intros He Hf Hx. cbn [prun_op]. unfold pindex. change pindexer with (entry -> option (list string)) in *. rewrite Hf, Hx.
  eexists. split; [|split].
  - f_equal. f_equal. f_equal. apply list_fmap_ext. intros i k _. unfold entry_at, contents. rewrite lookup_fmap. by destruct (sm_items s !! k).
  - rewrite (proj1 He _ _ _). apply NoDup_elements.
  - intros k. rewrite (proj1 He _ _ _), elem_of_elements, fold_union. split; [intros [?%elem_of_empty|?]; done|by right].
Qed.

Lemma pvalues_spec pf e s name f : env_ok e -> neat (sm_indices s) -> pf_indexers pf !! name = Some f ->
  exists l, prun_op pf e s (OIndexValues name) = (s, OutValues l None, []) /\ NoDup l /\ forall b, b ∈ l <-> exists k, member (sm_indices s) name b k.
Proof.
  intros He Hn Hf. cbn [prun_op]. unfold pindex_values. change pindexer with (entry -> option (list string)) in *. rewrite Hf.
  eexists. split; [done|]. split; [rewrite (proj1 He _ _ _); apply NoDup_fst_map_to_list|].
  intros b. rewrite (proj1 He "values" _ (map_to_list (default ∅ (sm_indices s !! name)))), elem_of_list_fmap. unfold member, in_bucket, at_index. split.
  - intros ([b' set] & -> & Hin). apply elem_of_map_to_list in Hin. cbn [fst]. rewrite Hin. cbn.
    destruct (set_choose_or_empty set) as [(k & Hk)|He2]; [by exists k|]. apply leibniz_equiv in He2. rewrite He2 in Hin. by apply (Hn name b') in Hin.
  - intros (k & Hk). destruct (default ∅ (sm_indices s !! name) !! b) as [set|] eqn:E; [|by apply elem_of_empty in Hk].
    exists (b, set). split; [done|]. by apply elem_of_map_to_list.
Qed.
