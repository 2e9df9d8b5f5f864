(** Facts about dispatching. *)
From Coq Require Import ZArith NArith Ascii String Lia.
From stdpp Require Import base gmap strings list.
From Verif Require Import GoBase Encoding SpecEncoding Records Messages SpecMessages MessageFacts AccumFacts
  Env SyncMap Tokens Cache SpecStore StoreFacts StoreLemmas ListFacts EventFacts HistFacts StoreExamples Dispatch.

Local Open Scope list_scope.
Local Opaque vanflow_registry builtin_types record_types Encode Decode.

(** ** Specification *)

(** [last_registered cs k st]: the last registration for type key [k] in [cs]
    named store [st]. *)
Definition last_registered (cs : list cmd) (k : string) (st : nat) : Prop :=
  exists l1 r l2, cs = l1 ++ CRegister (Some r) st :: l2 /\ type_key r = k /\
    forall r' st', CRegister (Some r') st' ∈ l2 -> type_key r' <> k.

Definition is_new (c : cmd) : bool := match c with CNew _ _ => true | _ => false end.

Definition cmds_ok (cs : list cmd) : Prop :=
  Forall (fun c => match c with CNew e _ => env_ok e | _ => True end) cs.

(** The records of [l] going to store [i], as calls on it. *)
Definition routed (m : gmap string nat) (src : source_ref) (i : nat) (l : list (env * option vrec)) : list (env * op) :=
  omap (fun '(e, r) =>
    match r with
    | Some r' => if decide (m !! type_key r' = Some i) then Some (e, OAccumulate src (Some r')) else None
    | None => None
    end) l.

(** The events of store [i]. *)
Fixpoint events_of (i : nat) (l : list (nat * event)) : list event :=
  match l with
  | [] => []
  | (j, x) :: l' => if decide (j = i) then x :: events_of i l' else events_of i l'
  end.

(** ** The registry *)

Lemma copy_entries_spec l m : NoDup (fst <$> l) -> forall k v,
  copy_entries l m !! k = Some v <-> (k, v) ∈ l \/ (m !! k = Some v /\ k ∉ (fst <$> l)).
Proof.
  revert m. induction l as [|[k0 v0] l IH]; intros m Hnd k v; unfold copy_entries in *; cbn [fold_left].
  - split; [right; split; [done|by apply not_elem_of_nil]|]. intros [H|[H _]]; [by apply not_elem_of_nil in H|done].
  - rewrite fmap_cons, NoDup_cons in Hnd. destruct Hnd as [Hk0 Hnd]. cbn [fst] in Hk0. rewrite IH by done.
    rewrite fmap_cons, not_elem_of_cons, elem_of_cons. cbn [fst].
    destruct (decide (k = k0)) as [->|Hne].
    + rewrite lookup_insert. split.
      * intros [H|[[= ->] _]]; [|by left; left]. by left; right.
      * intros [[[= ->]|H]|[_ [H _]]]; [by right|by left|done].
    + rewrite lookup_insert_ne by done. split.
      * intros [H|[H1 H2]]; [by left; right|by right].
      * intros [[[= ? ?]|H]|[H1 [_ H2]]]; [done|by left|by right].
Qed.

Lemma last_registered_snoc cs c k st : last_registered (cs ++ [c]) k st <->
  (exists r, c = CRegister (Some r) st /\ type_key r = k) \/
  (last_registered cs k st /\ forall r st', c = CRegister (Some r) st' -> type_key r <> k).
Proof.
  split.
  - intros (l1 & r & l2 & E & Hk & Hl). destruct l2 as [|c2 l2 _] using rev_ind.
    + apply app_inj_tail in E as [-> ->]. left. eauto.
    + rewrite app_comm_cons, app_assoc in E. apply app_inj_tail in E as [-> ->]. right. split.
      * exists l1, r, l2. split; [done|]. split; [done|]. intros r' st' H. apply (Hl r' st'). apply elem_of_app. by left.
      * intros r' st' ->. apply (Hl r' st'). apply elem_of_app. right. by apply elem_of_list_singleton.
  - intros [(r & -> & Hk)|[(l1 & r & l2 & -> & Hk & Hl) Hc]].
    + exists cs, r, []. split; [done|]. split; [done|]. intros ? ? H. by apply not_elem_of_nil in H.
    + exists l1, r, (l2 ++ [c]). split; [by rewrite <- app_assoc|]. split; [done|].
      intros r' st' H. apply elem_of_app in H as [H|H]; [by apply (Hl r' st')|].
      apply elem_of_list_singleton in H. eauto.
Qed.

(** Invariant: the registry's map is the latest registrations and is not a
    dispatcher's map; each dispatcher has what was registered before it. *)
Record reg_inv (cs : list cmd) (d : dstate) : Prop := {
  ri_fresh : forall a, is_Some (d_heap d !! a) -> a < d_next d;
  ri_reg : match d_reg d with
           | Some a => is_Some (d_heap d !! a) /\ (forall src a', (src, a') ∈ d_disp d -> a' <> a) /\
               forall k st, deref d a !! k = Some st <-> last_registered cs k st
           | None => forall k st, ~ last_registered cs k st
           end;
  ri_disp : forall src a, (src, a) ∈ d_disp d -> is_Some (d_heap d !! a);
  ri_count : length (d_disp d) = length (filter is_new cs);
  ri_snap : forall pre e src post, cs = pre ++ CNew e src :: post ->
      exists a, d_disp d !! length (filter is_new pre) = Some (src, a) /\
        forall k st, deref d a !! k = Some st <-> last_registered pre k st;
}.

Lemma deref_ne h n r p a b x : a <> b ->
  deref (DState (<[a := x]> h) n r p) b = default ∅ (h !! b).
Proof. intros H. unfold deref. simpl. by rewrite lookup_insert_ne. Qed.

Lemma deref_eq h n r p a x : deref (DState (<[a := x]> h) n r p) a = x.
Proof. unfold deref. simpl. by rewrite lookup_insert. Qed.

Lemma last_registered_nil k st : ~ last_registered [] k st.
Proof. intros (l1 & r & l2 & E & _). by destruct l1. Qed.

(** Snapshots stay when the state changes only outside their maps. *)
Lemma snap_keep cs d d' c : reg_inv cs d ->
  (exists suffix, d_disp d' = d_disp d ++ suffix) ->
  (forall src a, (src, a) ∈ d_disp d -> d_heap d' !! a = d_heap d !! a) ->
  forall pre e src post, cs ++ [c] = pre ++ CNew e src :: post -> post <> [] ->
    exists a, d_disp d' !! length (filter is_new pre) = Some (src, a) /\
      forall k st, deref d' a !! k = Some st <-> last_registered pre k st.
Proof.
  intros Hi [suf Hd] Hh pre e src post E Hpost.
  destruct post as [|c' post _] using rev_ind; [done|].
  rewrite app_comm_cons, app_assoc in E. apply app_inj_tail in E as [E _].
  destruct (ri_snap _ _ Hi _ _ _ _ E) as (a & Ha & Hs). exists a. split.
  - rewrite Hd. by apply lookup_app_l_Some.
  - intros k st. rewrite <- Hs. unfold deref. rewrite (Hh src a); [done|]. by eapply elem_of_list_lookup_2.
Qed.

Lemma reg_inv_register cs d r st : reg_inv cs d -> reg_inv (cs ++ [CRegister r st]) (register d r st).1.
Proof.
  intros Hi. unfold register.
  (* after making the map if needed *)
  set (d1a := match d_reg d with Some a => (d, a) | None => _ end).
  assert (exists d1 a, d1a = (d1, a) /\ d_reg d1 = Some a /\ d_disp d1 = d_disp d /\ is_Some (d_heap d1 !! a) /\
    (forall b, is_Some (d_heap d1 !! b) -> b < d_next d1) /\
    (forall src a', (src, a') ∈ d_disp d -> a' <> a /\ d_heap d1 !! a' = d_heap d !! a') /\
    (forall k st, deref d1 a !! k = Some st <-> last_registered cs k st)) as
    (d1 & a & -> & Hreg & Hdisp & Hsome & Hfresh & Hkeep & Hlast).
  { subst d1a. pose proof (ri_reg _ _ Hi) as Hr. destruct (d_reg d) as [a|] eqn:E.
    - destruct Hr as (H1 & H2 & H3). exists d, a. split; [done|]. split; [done|]. split; [done|]. split; [done|].
      split; [apply (ri_fresh _ _ Hi)|]. split; [|done]. intros src a' Ha'. split; [by eapply H2|done].
    - eexists _, (d_next d). split; [reflexivity|]. cbn [d_reg d_disp d_heap d_next]. split; [done|]. split; [done|].
      split; [rewrite lookup_insert; eauto|]. split.
      { intros b. destruct (decide (b = d_next d)) as [->|Hne]; [lia|]. rewrite lookup_insert_ne by done.
        intros H. apply (ri_fresh _ _ Hi) in H. lia. }
      split.
      { intros src a' Ha'. pose proof (ri_fresh _ _ Hi _ (ri_disp _ _ Hi _ _ Ha')). split; [lia|].
        apply lookup_insert_ne. lia. }
      intros k st'. rewrite deref_eq. rewrite lookup_empty. split; [done|]. intros H. by apply Hr in H. }
  assert (forall d2, d_disp d2 = d_disp d ->
    (forall src a, (src, a) ∈ d_disp d -> d_heap d2 !! a = d_heap d !! a) ->
    forall pre e src post, cs ++ [CRegister r st] = pre ++ CNew e src :: post ->
    exists a, d_disp d2 !! length (filter is_new pre) = Some (src, a) /\
      forall k st, deref d2 a !! k = Some st <-> last_registered pre k st) as Hsnap.
  { intros d2 Hd2 Hh2 pre e src post E. eapply (snap_keep cs d d2 (CRegister r st)); eauto.
    - exists []. by rewrite app_nil_r.
    - intros ->. apply app_inj_tail in E as [_ [=]]. }
  assert (length (filter is_new (cs ++ [CRegister r st])) = length (filter is_new cs)) as Hcnt.
  { rewrite filter_app, app_length. simpl. lia. }
  destruct r as [r|]; cbn [fst].
  - split; cbn [d_heap d_next d_reg d_disp].
    + intros b. destruct (decide (b = a)) as [->|Hne].
      * intros _. by apply Hfresh.
      * rewrite lookup_insert_ne by done. apply Hfresh.
    + rewrite Hreg. split; [rewrite lookup_insert; eauto|]. split.
      { intros src a' Ha'. rewrite Hdisp in Ha'. by eapply Hkeep. }
      intros k st'. rewrite deref_eq, last_registered_snoc.
      destruct (decide (type_key r = k)) as [<-|Hne].
      * rewrite lookup_insert. split.
        -- intros [= ->]. left. eauto.
        -- intros [(r' & [= <- <-] & _)|[_ H]]; [done|]. by destruct (H r st eq_refl).
      * rewrite lookup_insert_ne by done. rewrite Hlast. split.
        -- intros H. right. split; [done|]. by intros r' st'' [= <- <-].
        -- intros [(r' & [= <- <-] & ?)|[H _]]; [done|done].
    + intros src a' Ha'. rewrite Hdisp in Ha'. destruct (Hkeep _ _ Ha') as [Hne E].
      rewrite lookup_insert_ne by done. rewrite E. by eapply (ri_disp _ _ Hi).
    + rewrite Hdisp, Hcnt. apply (ri_count _ _ Hi).
    + apply (Hsnap (DState _ _ _ _)); [done|]. cbn [d_heap]. intros src a' Ha'. destruct (Hkeep _ _ Ha') as [Hne E].
      by rewrite lookup_insert_ne by done.
  - split.
    + apply Hfresh.
    + rewrite Hreg. split; [done|]. split.
      { intros src a' Ha'. rewrite Hdisp in Ha'. by eapply Hkeep. }
      intros k st'. rewrite Hlast, last_registered_snoc. naive_solver.
    + intros src a' Ha'. rewrite Hdisp in Ha'. destruct (Hkeep _ _ Ha') as [Hne ->]. by eapply (ri_disp _ _ Hi).
    + rewrite Hdisp, Hcnt. apply (ri_count _ _ Hi).
    + apply (Hsnap d1); [done|]. intros src a' Ha'. by apply (Hkeep _ _ Ha').
Qed.

Lemma reg_inv_new cs d e src : env_ok e -> reg_inv cs d -> reg_inv (cs ++ [CNew e src]) (new_dispatcher e d src).
Proof.
  intros [He _] Hi. unfold new_dispatcher.
  set (entries := match d_reg d with Some a => map_to_list (deref d a) | None => [] end).
  assert (forall k st, copy_entries (env_iter e "registry" _ entries) ∅ !! k = Some st <-> last_registered cs k st) as Hcopy.
  { pose proof (ri_reg _ _ Hi) as Hr. subst entries.
    destruct (d_reg d) as [a|].
    - destruct Hr as (_ & _ & Hr). intros k st. rewrite <- Hr. rewrite copy_entries_spec.
      + rewrite (He _ _ _), elem_of_map_to_list, lookup_empty. naive_solver.
      + rewrite (He _ _ _). apply NoDup_fst_map_to_list.
    - intros k st. split; [|intros H; by apply Hr in H]. pose proof (He "registry"%string _ ([] : list (string * nat))) as Hn.
      apply Permutation_nil_r in Hn. rewrite Hn. unfold copy_entries. simpl. by rewrite lookup_empty. }
  assert (forall b, is_Some (d_heap d !! b) -> b <> d_next d) as Hnew.
  { intros b Hb ->. apply (ri_fresh _ _ Hi) in Hb. lia. }
  assert (forall k st, last_registered (cs ++ [CNew e src]) k st <-> last_registered cs k st) as Hlr.
  { intros k st. rewrite last_registered_snoc. naive_solver. }
  split; cbn [d_heap d_next d_reg d_disp].
  - intros b. destruct (decide (b = d_next d)) as [->|Hne]; [lia|]. rewrite lookup_insert_ne by done.
    intros H. apply (ri_fresh _ _ Hi) in H. lia.
  - pose proof (ri_reg _ _ Hi) as Hr. destruct (d_reg d) as [a|].
    + destruct Hr as (H1 & H2 & H3). pose proof (Hnew _ H1) as Hna.
      split; [by rewrite lookup_insert_ne|]. split.
      * intros src' a' Ha'. apply elem_of_app in Ha' as [Ha'|Ha']; [by eapply H2|].
        apply elem_of_list_singleton in Ha'. injection Ha' as _ ->. done.
      * intros k st. rewrite Hlr, <- H3. rewrite deref_ne by done. done.
    + intros k st. rewrite Hlr. apply Hr.
  - intros src' a' Ha'. apply elem_of_app in Ha' as [Ha'|Ha'].
    + pose proof (ri_disp _ _ Hi _ _ Ha') as H. rewrite lookup_insert_ne; [done|]. intros E. by apply (Hnew a').
    + apply elem_of_list_singleton in Ha'. injection Ha' as _ ->. rewrite lookup_insert. eauto.
  - rewrite filter_app, !app_length, (ri_count _ _ Hi). simpl. done.
  - intros pre e' src' post E. destruct post as [|c post].
    + apply app_inj_tail in E as [<- [= <- <-]]. exists (d_next d). split.
      * rewrite <- (ri_count _ _ Hi). by rewrite lookup_app_r, Nat.sub_diag by lia.
      * intros k st. rewrite deref_eq. apply Hcopy.
    + apply (snap_keep cs d (DState (<[d_next d := copy_entries (env_iter e "registry" _ entries) ∅]> (d_heap d)) (S (d_next d)) (d_reg d) (d_disp d ++ [(src, d_next d)])) (CNew e src) Hi) with (e := e') (post := c :: post); [by eexists| |done|done].
      intros src2 a2 Ha2. cbn [d_heap]. apply lookup_insert_ne. intros E'. by apply (Hnew a2); [by eapply (ri_disp _ _ Hi)|].
Qed.

Lemma reg_inv_cmds cs : cmds_ok cs -> reg_inv cs (run_cmds cs).
Proof.
  induction cs as [|c cs IH] using rev_ind; intros Hok.
  - split; cbn; try done.
    + intros a. rewrite lookup_empty. by intros [? ?].
    + intros k st. apply last_registered_nil.
    + intros src a H. by apply not_elem_of_nil in H.
    + intros pre e src post E. by destruct pre.
  - apply Forall_app in Hok as [Hok Hc]. apply Forall_cons in Hc as [Hc _]. unfold run_cmds in *.
    rewrite fold_left_app. cbn [fold_left]. destruct c as [r st|e src]; cbn [run_cmd].
    + by apply reg_inv_register, IH.
    + by apply reg_inv_new, IH.
Qed.

(** A dispatcher has, forever, the registrations made before it. *)
Lemma dispatcher_snapshot pre e src post : cmds_ok (pre ++ CNew e src :: post) ->
  exists a, d_disp (run_cmds (pre ++ CNew e src :: post)) !! length (filter is_new pre) = Some (src, a) /\
    forall k st, deref (run_cmds (pre ++ CNew e src :: post)) a !! k = Some st <-> last_registered pre k st.
Proof. intros Hok. apply (ri_snap _ _ (reg_inv_cmds _ Hok) pre e src post). done. Qed.

(** ** Dispatching *)

Lemma store_at_insert w i s j : store_at (<[i := s]> w) j = if decide (j = i) then s else store_at w j.
Proof.
  unfold store_at. case_decide as E; [subst; by rewrite lookup_insert|]. by rewrite lookup_insert_ne.
Qed.

Lemma events_of_app i l1 l2 : events_of i (l1 ++ l2) = events_of i l1 ++ events_of i l2.
Proof. induction l1 as [|[j x] l1 IH]; [done|]. rewrite <- app_comm_cons. cbn [events_of]. rewrite IH. by case_decide. Qed.

Lemma events_of_tag i j l : events_of i ((fun x => (j, x)) <$> l) = if decide (j = i) then l else [].
Proof. induction l as [|x l IH]; [by case_decide|]. rewrite fmap_cons. cbn [events_of]. rewrite IH. by case_decide. Qed.

Lemma routed_cons m src i e r l : routed m src i ((e, r) :: l) =
  match r with
  | Some r' => if decide (m !! type_key r' = Some i) then (e, OAccumulate src (Some r')) :: routed m src i l else routed m src i l
  | None => routed m src i l
  end.
Proof. unfold routed. cbn [omap list_omap]. destruct r as [r|]; [|done]. by case_decide. Qed.

(** Every store receives its records, in order, and nothing else. *)
Lemma dispatch_routes cfs m src l w w' evs i : dispatch cfs m src l w = (w', evs, false) ->
  store_at w' i = (run_from (cfs i) (store_at w i) (routed m src i l)).1.1 /\
  events_of i evs = (run_from (cfs i) (store_at w i) (routed m src i l)).2.
Proof.
  revert w evs. induction l as [|[e [r|]] l IH]; intros w evs H; cbn [dispatch] in H.
  - injection H as <- <-. done.
  - rewrite routed_cons. destruct (m !! type_key r) as [j|] eqn:Ej.
    + destruct (run_op (cfs j) e (store_at w j) (OAccumulate src (Some r))) as [[s1 out] ev] eqn:E1.
      destruct (dispatch cfs m src l (<[j := s1]> w)) as [[w2 ev2] p] eqn:E2.
      assert (w2 = w' /\ ((fun x => (j, x)) <$> ev) ++ ev2 = evs /\ p = false) as (-> & <- & ->).
      { destruct out; try discriminate; injection H as <- <- <-; done. }
      destruct (IH _ _ E2) as [H1 H2]. rewrite store_at_insert in H1, H2.
      rewrite events_of_app, events_of_tag. destruct (decide (j = i)) as [->|Hne].
      * rewrite decide_True in H1, H2 by done. rewrite decide_True by done. cbn [run_from]. rewrite E1.
        destruct (run_from (cfs i) s1 (routed m src i l)) as [[s2 rs] ev3]. cbn [fst snd] in *. split; [done|]. by f_equal.
      * rewrite decide_False in H1, H2 by done. rewrite decide_False by congruence. done.
    + rewrite decide_False by done. by apply IH.
  - discriminate.
Qed.

(** With usable records and stores it never panics. *)
Lemma dispatch_total cfs m src l w : (forall i, usual_key (cfs i)) ->
  (forall i, reachable (cfs i) (store_at w i)) -> (forall i, well_keyed (contents (store_at w i))) ->
  Forall (fun '(e, r) => env_ok e /\ exists r', r = Some r' /\ good_record r') l ->
  exists w' evs, dispatch cfs m src l w = (w', evs, false).
Proof.
  intros Hu Hr Hw Hl. revert w Hr Hw.
  induction Hl as [|[e r] l (He & r' & -> & G) Hl IH]; intros w Hr Hw; cbn [dispatch]; [eauto|].
  destruct (m !! type_key r') as [i|]; [|by apply IH].
  assert (cf_key (cfs i) (bare r') = Ok (vrec_identity r')) as Hk by (by rewrite (Hu i)).
  pose proof (accumulate_no_panic (cfs i) e (store_at w i) src r' _ He G Hk) as Hnp.
  pose proof (reachable_step (cfs i) _ e (OAccumulate src (Some r')) (Hr i) He) as Hr1.
  pose proof (fun s' out ev => well_keyed_step (cfs i) e (store_at w i) (OAccumulate src (Some r')) s' out ev
    (Hu i) He (Hr i) (ex_intro _ r' (conj eq_refl G)) (Hw i)) as Hw1.
  destruct (run_op (cfs i) e (store_at w i) (OAccumulate src (Some r'))) as [[s1 out] ev] eqn:E1. cbn [fst snd] in *.
  destruct (IH (<[i := s1]> w)) as (w2 & ev2 & E2).
  - intros j. rewrite store_at_insert. destruct (decide (j = i)) as [E|E]; [subst j; exact Hr1|apply Hr].
  - intros j. rewrite store_at_insert. destruct (decide (j = i)) as [E|E]; [subst j; exact (Hw1 _ _ _ eq_refl)|apply Hw].
  - rewrite E2. destruct out; try (eexists _, _; reflexivity). exfalso. apply Hnp; [|reflexivity].
    intros x Hx. apply (Hw i) in Hx as [_ Hx]. exact Hx.
Qed.

(** When it panics, the records before the fatal one have been handled, and the
    rest have not. *)
Lemma dispatch_panic cfs m src l w w' evs : dispatch cfs m src l w = (w', evs, true) ->
  exists l1 e r l2 w1 ev1, l = l1 ++ (e, r) :: l2 /\ dispatch cfs m src l1 w = (w1, ev1, false) /\
    ((r = None /\ w' = w1 /\ evs = ev1) \/
     exists r' i s', r = Some r' /\ m !! type_key r' = Some i /\ w' = <[i := s']> w1 /\
       (run_op (cfs i) e (store_at w1 i) (OAccumulate src (Some r'))).1 = (s', OutPanic)).
Proof.
  revert w evs. induction l as [|[e [r|]] l IH]; intros w evs H; cbn [dispatch] in H.
  - discriminate.
  - destruct (m !! type_key r) as [j|] eqn:Ej.
    + destruct (run_op (cfs j) e (store_at w j) (OAccumulate src (Some r))) as [[s1 out] ev] eqn:E1.
      assert ((out = OutPanic /\ w' = <[j := s1]> w) \/
        (out <> OutPanic /\ exists ev2, dispatch cfs m src l (<[j := s1]> w) = (w', ev2, true) /\ evs = ((fun x => (j, x)) <$> ev) ++ ev2))
        as [[-> ->]|(Hout & ev2 & E2 & ->)].
      { destruct (dispatch cfs m src l (<[j := s1]> w)) as [[w2 ev2] p].
        destruct out; try (injection H as <- <- ->; right; split; [discriminate|eexists; split; reflexivity]).
        injection H as <- _. by left. }
      * exists [], e, (Some r), l, w, []. split; [done|]. split; [done|]. right. exists r, j, s1. by rewrite E1.
      * destruct (IH _ _ E2) as (l1 & e' & r' & l2 & w1 & ev1 & -> & E3 & Hr).
        exists ((e, Some r) :: l1), e', r', l2, w1, (((fun x => (j, x)) <$> ev) ++ ev1). split; [done|]. split.
        { cbn [dispatch]. rewrite Ej, E1, E3. destruct out; done. }
        destruct Hr as [(-> & -> & ->)|Hr]; [by left|by right].
    + destruct (IH _ _ H) as (l1 & e' & r' & l2 & w1 & ev1 & -> & E3 & Hr).
      exists ((e, Some r) :: l1), e', r', l2, w1, ev1. split; [done|]. split; [|done].
      cbn [dispatch]. by rewrite Ej, E3.
  - injection H as <- <-. exists [], e, None, l, w, []. split; [done|]. split; [done|]. by left.
Qed.

(** Distinct record types have distinct keys. *)
Local Transparent record_types.
Lemma type_key_inj r r' : vr_type r ∈ record_types -> vr_type r' ∈ record_types ->
  type_key r = type_key r' -> vr_type r = vr_type r'.
Proof.
  assert (forall t t', t ∈ record_types -> t' ∈ record_types ->
    type_key (VRec false t (VStr "")) = type_key (VRec false t' (VStr "")) -> t = t') as H.
  { assert (Forall (fun t => Forall (fun t' => type_key (VRec false t (VStr "")) = type_key (VRec false t' (VStr "")) -> t = t')
      record_types) record_types) as H.
    { unfold record_types at 1 2. repeat constructor; intros H; first [reflexivity | vm_compute in H; discriminate H]. }
    rewrite Forall_forall in H. intros t t' Ht Ht'. specialize (H t Ht). rewrite Forall_forall in H. by apply H. }
  intros H1 H2 E. apply H; [done|done|]. exact E.
Qed.
Local Opaque record_types.

(** ** Witnesses *)

(** Sites go to store 0; then routers are registered for store 1, and sites
    moved to store 2; a dispatcher is made at each stage. *)
Definition ex_pre : list cmd := [CRegister (Some (ex_site "x")) 0].
Definition ex_post : list cmd :=
  [CRegister (Some ex_router) 1; CRegister (Some (ex_site "y")) 2; CNew (at_time 0) ex_src].
Definition ex_cmds : list cmd := ex_pre ++ CNew (at_time 0) ex_src :: ex_post.

Lemma ex_cmds_ok : cmds_ok ex_cmds.
Proof. repeat constructor; apply at_time_ok. Qed.

Definition ex_route (n : nat) : option (option nat * option nat) :=
  match d_disp (run_cmds ex_cmds) !! n with
  | Some (_, a) => Some (deref (run_cmds ex_cmds) a !! "flow/v1/SiteRecord"%string,
                         deref (run_cmds ex_cmds) a !! "flow/v1/RouterRecord"%string)
  | None => None
  end.

Lemma ex_routes : ex_route 0 = Some (Some 0, None) /\ ex_route 1 = Some (Some 2, Some 1).
Proof. vm_compute. split; reflexivity. Qed.

(** A site, a router (not registered), and another site. *)
Definition ex_msg : list (env * option vrec) :=
  [(at_time 1, Some (ex_site "s1")); (at_time 2, Some ex_router); (at_time 3, Some (ex_site "s2"))].

Definition ex_map : gmap string nat := {["flow/v1/SiteRecord"%string := 0]}.

Lemma ex_routed : routed ex_map ex_src 0 ex_msg =
  [(at_time 1, OAccumulate ex_src (Some (ex_site "s1"))); (at_time 3, OAccumulate ex_src (Some (ex_site "s2")))] /\
  routed ex_map ex_src 1 ex_msg = [].
Proof. split; vm_compute; reflexivity. Qed.

Lemma ex_dispatch_premises :
  (forall i : nat, usual_key ex_cf) /\
  (forall i, reachable ex_cf (store_at (∅ : stores) i)) /\ (forall i, well_keyed (contents (store_at (∅ : stores) i))) /\
  Forall (fun '(e, r) => env_ok e /\ exists r', r = Some r' /\ good_record r') ex_msg.
Proof.
  split; [intros _; apply ex_cf_usual|]. split.
  { intros i. unfold store_at. rewrite lookup_empty. exists []. split; [constructor|reflexivity]. }
  split.
  { intros i. unfold store_at. rewrite lookup_empty. apply well_keyed_new. }
  repeat constructor; first [apply at_time_ok | eexists; split; [reflexivity|]; first [apply ex_site_good | apply ex_router_good]].
Qed.

(** An unusable record in the middle: dispatching stops there. *)
Lemma ex_nil_record : exists w evs, dispatch (fun _ => ex_cf) ex_map ex_src
    [(at_time 1, None); (at_time 2, Some (ex_site "s1"))] ∅ = (w, evs, true) /\ w = ∅.
Proof. eexists _, _. split; reflexivity. Qed.
