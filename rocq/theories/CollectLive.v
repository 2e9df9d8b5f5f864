(** The collector: listeners wait for their dispatcher, and what is received is
    dispatched. *)
From Coq Require Import ZArith NArith Ascii String Lia.
From stdpp Require Import base gmap strings list.
From Verif Require Import GoBase Encoding SpecEncoding Records Messages SpecMessages Env SyncMap Tokens Cache SpecStore
  Tool ToolFacts Run Keepalive Client Discovery WatchClient ClientFacts ClientClose WatchClientFacts WatchClientInv Collect CollectFacts.
From Verif Require Dispatch DispatchFacts.

Local Open Scope list_scope.
Local Opaque vanflow_registry builtin_types record_types Encode Decode.

(** ** A listener that runs a dispatcher *)

Lemma held_quiet c s lb s' ev i x hs : cstep c s lb = Some (s', ev) -> pc_of s i = Some (Client.LRun x hs) -> lb <> LLRun i ->
  Forall (fun e => of_listener i e = false) ev.
Proof.
  intros Hs Hp Hne. destruct (step_cases _ _ _ _ _ Hs) as [Hq|[(ad & -> & El)|(j & l & q & Hl & Hst & Hm & _)]].
  - by destruct (Hq i) as [_ H].
  - constructor; [|constructor]. cbn. apply bool_decide_eq_false_2. intros E. unfold pc_of in Hp. rewrite <- E, (lookup_ge_None_2 (c_listeners s)) in Hp by lia. discriminate Hp.
  - destruct (decide (j = i)) as [->|Hji].
    + unfold pc_of in Hp. rewrite Hl in Hp. injection Hp as Hp. unfold listener_step in Hst. rewrite Hp in Hst.
      destruct lb as [| | | |? []|? []| | | | | | | | | | | | |]; try discriminate Hst.
      destruct (run_events _ _ _ _ _ Hs) as [_ [->|(h & y & ->)]]; [constructor|]. constructor; [|constructor]. cbn. apply bool_decide_eq_false_2. congruence.
    + destruct Hm; repeat constructor; cbn; by apply bool_decide_eq_false_2.
Qed.

(** Its listener is in the loop over the handlers. *)
Definition held_inv (s : tstate) : Prop := forall j i rs, t_todo s !! (j, i) = Some rs ->
  exists c x hs, j_cl (t_j s) !! j = Some c /\ pc_of c i = Some (Client.LRun x hs).

Lemma after_c_cl s j c ev : j_cl (after_c s j c ev) = <[j := c]> (j_cl s).
Proof. reflexivity. Qed.

(** A step of the clients and watches that is not one of listener [i] of client
    [j] going on. *)
Lemma jstep_held infos s l s' ev j i c x hs : jstep infos s l = Some (s', ev) -> j_cl s !! j = Some c -> pc_of c i = Some (Client.LRun x hs) ->
  l <> JC j (LLRun i) ->
  (exists c', j_cl s' !! j = Some c' /\ pc_of c' i = Some (Client.LRun x hs)) /\ (forall e, JEC j e ∈ ev -> of_listener i e = false).
Proof.
  intros Hs Hc Hp Hne. apply jstep_moves in Hs as [_ Hm].
  assert (forall (ev : list dev) e, JEC j e ∈ JED <$> ev -> of_listener i e = false) as Hd.
  { intros ev0 e H. apply elem_of_list_fmap in H as (? & ? & _). discriminate. }
  assert (forall k ck lb ck' (cev : list cev), j_cl s !! k = Some ck -> cstep (infos k) ck lb = Some (ck', cev) -> (k = j -> lb <> LLRun i) ->
    (exists c', <[k := ck']> (j_cl s) !! j = Some c' /\ pc_of c' i = Some (Client.LRun x hs)) /\ (forall e, JEC j e ∈ JEC k <$> cev -> of_listener i e = false)) as Hcl.
  { intros k ck lb ck' cev Hk Hst Hlb. destruct (decide (k = j)) as [->|Hkj].
    - rewrite Hc in Hk. injection Hk as <-. rewrite list_lookup_insert by (by eapply lookup_lt_Some). split.
      + eexists. split; [reflexivity|]. eapply run_keeps; [exact Hst|exact Hp|by apply Hlb].
      + intros e He. apply fmap_ec in He as [_ He]. pose proof (held_quiet _ _ _ _ _ _ _ _ Hst Hp (Hlb eq_refl)) as HF. rewrite Forall_forall in HF. by apply HF.
    - rewrite list_lookup_insert_ne by done. split; [by eauto|]. intros e He. apply fmap_ec in He as [-> _]. done. }
  destruct Hm; cbn [j_cl js_d].
  - split; [by eauto|apply Hd].
  - split; [by eauto|apply Hd].
  - split; [by eauto|apply Hd].
  - eapply Hcl; [eassumption|eassumption|]. intros _. discriminate.
  - rewrite after_c_cl. eapply Hcl; [eassumption|eassumption|]. intros -> ->. by apply Hne.
  - match goal with H : cstep (infos ?k) _ _ = Some (_, [CCall ?h0 (User (2 * ?w0)) ?x0]) |- _ => rename k into jk; rename h0 into hh; rename w0 into ww; rename x0 into xx end.
    destruct (Hcl jk _ _ _ _ ltac:(eassumption) ltac:(eassumption)) as [H1' H2'].
    { intros -> E. injection E as ->. by apply Hne. }
    split; [exact H1'|]. intros e He. apply elem_of_cons in He as [E|He]; [apply H2'; rewrite E; left|]. apply elem_of_list_singleton in He. discriminate He.
  - split; [by eauto|apply Hd].
  - eapply Hcl; [eassumption|eassumption|]. intros _. discriminate.
Qed.

Lemma held_of l s j i rs : t_todo s !! (j, i) = Some rs -> t_held s l = false -> l <> JC j (LLRun i).
Proof. intros Ht Hh ->. cbn [t_held] in Hh. rewrite Ht in Hh. discriminate Hh. Qed.

Lemma held_step flows logs infos s lb s' ev : held_inv s -> tstep flows logs infos s lb = Some (s', ev) ->
  held_inv s' /\ forall j i rs e, t_todo s !! (j, i) = Some rs -> TEv (JEC j e) ∈ ev -> of_listener i e = false.
Proof.
  intros HI Hs. apply tstep_moves in Hs as [_ Hm]. destruct Hm as [j' i' x js Ht Hj|l js ev Hh Hj Hn|j' i' e r rs w de p Ht Hc Hd|j' i' Ht Hc].
  - split.
    + intros j i rs Hto. cbn [t_todo t_j] in *.
      assert (forall rs, t_todo s !! (j, i) = Some rs -> exists c x0 hs, j_cl js !! j = Some c /\ pc_of c i = Some (Client.LRun x0 hs)) as Hold.
      { intros rs0 H0. destruct (HI _ _ _ H0) as (c & y & hs & Hc & Hp). destruct (jstep_held _ _ _ _ _ _ _ _ _ _ Hj Hc Hp) as [(c' & H1 & H2) _]; [|by eauto 10].
        intros [= -> ->]. congruence. }
      destruct (decide ((j', i') = (j, i))) as [[= -> ->]|Hne].
      * assert (exists rm, x = MsgRecord rm) as [rm ->].
        { destruct x; try (by rewrite Ht in Hto). eauto. }
        apply jstep_moves in Hj as [_ Hm].
        assert (forall c c' (cev : list cev), j_cl (t_j s) !! j = Some c -> cstep (infos j) c (LLRun i) = Some (c', cev) -> JEC j <$> cev = [JEC j (CCall i (User 1) (MsgRecord rm))] ->
          exists hs, pc_of c' i = Some (Client.LRun (MsgRecord rm) hs)) as Hgo.
        { intros c c' cev Hc Hst Ec. destruct cev as [|ce [|]]; try discriminate Ec. injection Ec as ->.
          destruct (step_cases _ _ _ _ _ Hst) as [Hq|[(ad & E & El)|(k & l & q & Hl & Hst' & Hm' & Hpc)]].
          - destruct (Hq i) as [_ HF]. inversion HF as [|? ? HF1 _]. cbn in HF1. rewrite bool_decide_eq_true_2 in HF1 by done. discriminate HF1.
          - discriminate E.
          - inversion Hm'; subst. rewrite Hpc, bool_decide_eq_true_2 by done. eauto. }
        inversion Hm; subst; match goal with
        | H : cstep (infos j) ?c (LLRun i) = Some (?c', ?e), H0 : j_cl (t_j s) !! j = Some ?c |- _ =>
            destruct (Hgo c c' e H0 H) as [hs' Hhs]; [first [assumption|reflexivity]|]; exists c', (MsgRecord rm), hs'; cbn [j_cl]; rewrite ?after_c_cl;
            rewrite list_lookup_insert by (by eapply lookup_lt_Some); done end.
      * eapply Hold. destruct x; try exact Hto. rewrite lookup_insert_ne in Hto by done. exact Hto.
    + intros j i rs e H0 Hin. apply (ev_elem (JEC j e) [JEC j' (CCall i' (User 1) x)]) in Hin. destruct (HI _ _ _ H0) as (c & y & hs & Hc & Hp).
      destruct (jstep_held _ _ _ _ _ _ _ _ _ _ Hj Hc Hp) as [_ H2]; [|by apply H2]. intros [= -> ->]. congruence.
  - split.
    + intros j i rs Hto. cbn [t_todo t_j] in *. destruct (HI _ _ _ Hto) as (c & y & hs & Hc & Hp).
      destruct (jstep_held _ _ _ _ _ _ _ _ _ _ Hj Hc Hp (held_of _ _ _ _ _ Hto Hh)) as [(c' & H1 & H2) _]. eauto 10.
    + intros j i rs e Hto Hin. apply (ev_elem (JEC j e) ev) in Hin. destruct (HI _ _ _ Hto) as (c & y & hs & Hc & Hp).
      destruct (jstep_held _ _ _ _ _ _ _ _ _ _ Hj Hc Hp (held_of _ _ _ _ _ Hto Hh)) as [_ H2]. by apply H2.
  - split.
    + intros j i rs' Hto. cbn [t_todo t_j] in *. destruct (decide ((j', i') = (j, i))) as [[= -> ->]|Hne]; [by eapply HI|].
      rewrite lookup_insert_ne in Hto by done. by eapply HI.
    + intros j i rs' e' _ Hin. apply elem_of_list_singleton in Hin. discriminate Hin.
  - split.
    + intros j i rs' Hto. cbn [t_todo t_j] in *. destruct (decide ((j', i') = (j, i))) as [[= -> ->]|Hne]; [by rewrite lookup_delete in Hto|].
      rewrite lookup_delete_ne in Hto by done. by eapply HI.
    + intros j i rs' e' _ Hin. apply elem_of_list_singleton in Hin. discriminate Hin.
Qed.

Lemma held_run flows logs infos n now ls s tr : trun flows logs infos (t_init n now) ls = Some (s, tr) -> held_inv s.
Proof.
  revert s tr. induction ls as [|l ls IH] using rev_ind; intros s tr Hr.
  { injection Hr as <- <-. intros j i rs H. cbn in H. rewrite lookup_empty in H. discriminate H. }
  apply run_snoc in Hr as (s1 & ev1 & ev2 & H1 & H2 & ->). by destruct (held_step _ _ _ _ _ _ _ (IH _ _ H1) H2).
Qed.

(** ** Each message is dispatched before the next *)

Lemma run_split {S L E} (step : S -> L -> option (S * list E)) s ls s' a x b : run step s ls = Some (s', a ++ x :: b) ->
  exists ls1 l ls2 s1 ev1 s2 evl evr, ls = ls1 ++ l :: ls2 /\ run step s ls1 = Some (s1, ev1) /\ step s1 l = Some (s2, evl ++ x :: evr) /\ a = ev1 ++ evl.
Proof.
  revert a b s'. induction ls as [|l ls IH] using rev_ind; intros a b s' Hr.
  { injection Hr as _ Eq. by destruct a. }
  apply run_snoc in Hr as (s1 & ev1 & ev2 & H1 & H2 & Eq). symmetry in Eq. apply in_split_app in Eq as [(b1 & -> & ->)|(a1 & -> & ->)].
  - destruct (IH _ _ _ H1) as (ls1 & l0 & ls2 & s2 & ev3 & s3 & evl & evr & -> & K1 & K2 & ->).
    exists ls1, l0, (ls2 ++ [l]), s2, ev3, s3, evl, evr. split; [by rewrite <- app_assoc|]. done.
  - exists ls, l, [], s1, ev1, s', a1, b. done.
Qed.

(** The step that calls Dispatch, and the one that emits an event of a
    listener. *)
Lemma at_call flows logs infos n now ls s a j i rm b : trun flows logs infos (t_init n now) ls = Some (s, a ++ TEv (JEC j (CCall i (User 1) (MsgRecord rm))) :: b) ->
  exists ls1 s1, trun flows logs infos (t_init n now) ls1 = Some (s1, a) /\ t_todo s1 !! (j, i) = None.
Proof.
  intros Hr. apply run_split in Hr as (ls1 & l & ls2 & s1 & ev1 & s2 & evl & evr & -> & H1 & H2 & ->).
  apply tstep_moves in H2 as [_ Hm]. inversion Hm as [j' i' x js Ht Hj|l' js ev Hh Hj Hn Hl Hs2 Hev|j' i' e r rs w de p Ht Hc Hd|j' i' Ht Hc]; subst.
  - destruct evl as [|e1 evl]; [|destruct evl; discriminate]. match goal with H : [_] = _ |- _ => injection H as -> -> -> end.
    exists ls1, s1. rewrite app_nil_r. done.
  - exfalso. eapply (Hn j i (MsgRecord rm)). apply ev_elem. rewrite Hev. apply elem_of_app. right. left.
  - destruct evl as [|? [|]]; discriminate.
  - destruct evl as [|? [|]]; discriminate.
Qed.

Lemma at_event flows logs infos n now ls s a j i e b : trun flows logs infos (t_init n now) ls = Some (s, a ++ TEv (JEC j e) :: b) -> of_listener i e = true ->
  exists ls1 s1 a1, trun flows logs infos (t_init n now) ls1 = Some (s1, a1) /\ t_todo s1 !! (j, i) = None /\
    dispatched j i a1 = dispatched j i a /\ handled j i a1 = handled j i a.
Proof.
  intros Hr He. apply run_split in Hr as (ls1 & l & ls2 & s1 & ev1 & s2 & evl & evr & -> & H1 & H2 & ->).
  exists ls1, s1, ev1. split; [exact H1|]. rewrite dispatched_app, handled_app.
  split.
  - destruct (t_todo s1 !! (j, i)) as [rs|] eqn:Et; [|done]. destruct (held_step _ _ _ _ _ _ _ (held_run _ _ _ _ _ _ _ _ H1) H2) as [_ Hq].
    rewrite (Hq j i rs e Et) in He; [discriminate He|]. apply elem_of_app. right. left.
  - apply tstep_moves in H2 as [_ Hm]. inversion Hm as [j' i' x js Ht Hj|l' js ev Hh Hj Hn Hl Hs2 Hev|j' i' e' r rs w de p Ht Hc Hd|j' i' Ht Hc]; subst.
    + destruct evl as [|e1 evl]; [|destruct evl; discriminate]. by rewrite !app_nil_r.
    + assert (exists ev', evl = TEv <$> ev' /\ forall j i x, JEC j (CCall i (User 1) x) ∉ ev') as (ev' & -> & Hn').
      { apply fmap_app_inv in Hev as (ev' & ev'' & -> & _ & ->). exists ev'. split; [done|]. intros j0 i0 x Hin. eapply Hn. apply elem_of_app. left. exact Hin. }
      rewrite dispatched_ev, (handled_none _ _ _ Hn'), !app_nil_r. done.
    + destruct evl as [|? [|]]; discriminate.
    + destruct evl as [|? [|]]; discriminate.
Qed.

Lemma waits flows logs infos n now ls s a j i rm b1 e b2 :
  trun flows logs infos (t_init n now) ls = Some (s, a ++ TEv (JEC j (CCall i (User 1) (MsgRecord rm))) :: b1 ++ TEv (JEC j e) :: b2) -> of_listener i e = true ->
  rm_records rm `prefix_of` dispatched j i b1.
Proof.
  intros Hr He. destruct (at_call _ _ _ _ _ _ _ _ _ _ _ _ Hr) as (ls1 & s1 & H1 & Ht1).
  rewrite app_comm_cons, app_assoc in Hr. destruct (at_event _ _ _ _ _ _ _ _ _ i _ _ Hr He) as (ls2 & s2 & a2 & H2 & Ht2 & Hd & Hh).
  pose proof (order _ _ _ _ _ _ _ _ j i H1) as O1. rewrite Ht1 in O1. cbn [default] in O1. rewrite app_nil_r in O1.
  pose proof (order _ _ _ _ _ _ _ _ j i H2) as O2. rewrite Ht2, Hd, Hh in O2. cbn [default] in O2. rewrite app_nil_r in O2.
  rewrite dispatched_app, handled_app, fmap_app, concat_app, O1 in O2. apply app_inv_head in O2.
  change (dispatched j i (TEv (JEC j (CCall i (User 1) (MsgRecord rm))) :: b1)) with (dispatched j i b1) in O2. rewrite O2.
  unfold handled. cbn [omap list_omap]. rewrite bool_decide_eq_true_2 by done. cbn [fmap list_fmap concat records_of]. by eexists.
Qed.

(** ** What is accepted is dispatched *)

Definition by_dispatcher (p : handler * message) : option message := match p with (User 1, x) => Some x | _ => None end.

Lemma handled_calls j i tr : handled j i tr = omap by_dispatcher (calls i (cevs j (jevs tr))).
Proof.
  induction tr as [|e tr IH]; [done|].
  assert (forall e, handled j i [e] = omap by_dispatcher (calls i (cevs j (jevs [e])))) as H1.
  { intros e0. unfold handled. cbn [omap list_omap jevs].
    destruct e0 as [[d|j' [| | | | |i' [[|[|]]|] x| | | | | | |]|]| |]; cbn; try done; try (destruct (bool_decide (j' = j)); done).
    - destruct (decide (j' = j)) as [->|E].
      + rewrite (bool_decide_eq_true_2 (j = j)) by done. cbn. destruct (bool_decide (i' = i)); done.
      + rewrite (bool_decide_eq_false_2 (j' = j)) by done. done.
    - destruct (decide (j' = j)) as [->|E].
      + rewrite (bool_decide_eq_true_2 (j = j)) by done. cbn. destruct (decide (i' = i)) as [->|E2].
        * by rewrite !bool_decide_eq_true_2 by done.
        * by rewrite !bool_decide_eq_false_2 by tauto.
      + rewrite (bool_decide_eq_false_2 (j' = j)) by done. rewrite bool_decide_eq_false_2 by tauto. done.
    - destruct (decide (j' = j)) as [->|E].
      + rewrite (bool_decide_eq_true_2 (j = j)) by done. cbn. destruct (bool_decide (i' = i)); done.
      + rewrite (bool_decide_eq_false_2 (j' = j)) by done. done.
    - destruct (decide (j' = j)) as [->|E].
      + rewrite (bool_decide_eq_true_2 (j = j)) by done. cbn. destruct (bool_decide (i' = i)); done.
      + rewrite (bool_decide_eq_false_2 (j' = j)) by done. done. }
  change (e :: tr) with ([e] ++ tr). rewrite handled_app, jevs_app, cevs_app. unfold calls in *. rewrite !omap_app, <- IH. by rewrite H1.
Qed.

(** The dispatcher is registered for records once, before the listener first
    reads the handlers. *)
Definition registered_first (j i : nat) (tr : list tev) : Prop :=
  exists a b, cevs j (jevs tr) = a ++ CReg OnRec (User 1) :: b /\ CReg OnRec (User 1) ∉ a /\ CReg OnRec (User 1) ∉ b /\ forall x, CRead i x ∉ a.

Lemma reads_app i a b : reads i (a ++ b) = reads i a ++ reads i b.
Proof. unfold reads. by rewrite omap_app. Qed.

Lemma no_reads i a : (forall x, CRead i x ∉ a) -> reads i a = [].
Proof.
  intros H. unfold reads. induction a as [|e a IH]; [done|]. cbn [omap list_omap]. rewrite IH by (intros x Hx; eapply H; right; exact Hx).
  destruct e; try done. case_bool_decide; [|done]. subst. exfalso. eapply H. left.
Qed.
Lemma no_due i b a : (forall x, CRead i x ∉ a) -> due i b a = [].
Proof.
  intros H. revert b. induction a as [|e a IH]; intros b; [done|]. cbn [due]. rewrite IH by (intros x Hx; eapply H; right; exact Hx).
  destruct e; try done. case_bool_decide; [|done]. subst. exfalso. eapply H. left.
Qed.

Lemma once_wanted rm a : omap by_dispatcher ((fun h => (h, MsgRecord rm)) <$> wanted (MsgRecord rm) a) =
  omap (fun e => match e with CReg OnRec (User 1) => Some (MsgRecord rm) | _ => None end) a.
Proof.
  induction a as [|e a IH]; [done|]. unfold wanted in *. cbn [omap list_omap].
  destruct e as [[] [[|[|]]|]| | | | | | | | | | | |]; cbn [fmap list_fmap omap list_omap by_dispatcher]; try exact IH. by rewrite IH.
Qed.
Lemma none_wanted {A} (y : A) a : CReg OnRec (User 1) ∉ a -> omap (fun e => match e with CReg OnRec (User 1) => Some y | _ => None end) a = [].
Proof.
  intros H. induction a as [|e a IH]; [done|]. cbn [omap list_omap]. rewrite IH by (intros Hx; apply H; right; exact Hx).
  destruct e as [[] [[|[|]]|]| | | | | | | | | | | |]; try done. exfalso. apply H. left.
Qed.

Lemma due_once i before evs : (forall rm : record_msg, omap (fun e => match e with CReg OnRec (User 1) => Some (MsgRecord rm) | _ => None end) before = [MsgRecord rm]) ->
  CReg OnRec (User 1) ∉ evs ->
  concat (records_of <$> omap by_dispatcher (due i before evs)) = concat (records_of <$> reads i evs).
Proof.
  revert before. induction evs as [|e evs IH]; intros before Hb Hn; [done|]. cbn [due]. change (e :: evs) with ([e] ++ evs). rewrite reads_app, !fmap_app, concat_app.
  assert (CReg OnRec (User 1) ∉ evs) as Hn' by (intros Hx; apply Hn; right; exact Hx).
  assert (forall rm : record_msg, omap (fun e => match e with CReg OnRec (User 1) => Some (MsgRecord rm) | _ => None end) (before ++ [e]) = [MsgRecord rm]) as Hb'.
  { intros rm. rewrite omap_app, Hb, none_wanted; [done|]. intros Hx. apply elem_of_list_singleton in Hx. apply Hn. rewrite Hx. left. }
  rewrite omap_app, fmap_app, concat_app, (IH _ Hb' Hn'). f_equal.
  destruct e as [| | | |k x| | | | | | | |]; try done. unfold reads. cbn [omap list_omap]. case_bool_decide; [|done].
  assert (forall (y : message) (l : list handler), records_of y = [] -> concat (records_of <$> omap by_dispatcher ((fun h => (h, y)) <$> l)) = []) as H0.
  { intros y l Hy. induction l as [|[[|[|]]|] l IHl]; try done; cbn [fmap list_fmap omap list_omap by_dispatcher]; try exact IHl. cbn [fmap list_fmap concat]. by rewrite Hy. }
  destruct x as [y|y|y|rm]; try (rewrite H0 by reflexivity; reflexivity).
  rewrite once_wanted, Hb. reflexivity.
Qed.

Lemma accepted_dispatched flows logs infos n now ls s tr j i c : trun flows logs infos (t_init n now) ls = Some (s, tr) -> registered_first j i tr ->
  j_cl (t_j s) !! j = Some c ->
  exists rest, dispatched j i tr ++ rest = concat (records_of <$> omap decoded (accepted i (cevs j (jevs tr)))) /\
    (t_todo s !! (j, i) = None -> (forall x, pc_of c i <> Some (LGet x)) -> (forall x hs, pc_of c i <> Some (Client.LRun x hs)) -> rest = []).
Proof.
  intros Hr (a & b & E & Ha & Hb & Hread) Hc. destruct (project_j _ _ _ _ _ _ _ _ Hr) as [ls' Hj]. destruct (project _ _ _ _ _ _ Hj) as (_ & _ & Hcl).
  destruct (Hcl _ _ Hc) as [lsc Hrc]. destruct (delivery _ i _ _ _ Hrc) as (H1 & H2 & _).
  pose proof (order _ _ _ _ _ _ _ _ j i Hr) as HO. rewrite handled_calls in HO.
  assert (concat (records_of <$> omap by_dispatcher (due i [] (cevs j (jevs tr)))) = concat (records_of <$> reads i (cevs j (jevs tr)))) as Hd.
  { rewrite E, due_app, (no_due _ _ _ Hread), reads_app, (no_reads _ _ Hread). cbn [app due reads omap list_omap].
    apply due_once; [|exact Hb]. intros rm. cbn [app]. rewrite omap_app, none_wanted by exact Ha. done. }
  rewrite H2, omap_app, fmap_app, concat_app in Hd.
  exists (default [] (t_todo s !! (j, i)) ++ concat (records_of <$> omap by_dispatcher (to_call c i)) ++ concat (records_of <$> in_hand c i)).
  split.
  - rewrite H1, fmap_app, concat_app, <- Hd, app_assoc, app_assoc, HO. by rewrite <- !app_assoc.
  - intros Ht Hg Hl. rewrite Ht. unfold to_call, in_hand. destruct (pc_of c i) as [[| | | | |]|]; try done; [by destruct (Hg x)|by destruct (Hl x hs)].
Qed.

(** ** After Close *)

Lemma cevs_split j tr a e b : tr = a ++ TEv (JEC j e) :: b -> cevs j (jevs tr) = cevs j (jevs a) ++ e :: cevs j (jevs b).
Proof.
  intros ->. change (TEv (JEC j e) :: b) with ([TEv (JEC j e)] ++ b). rewrite !jevs_app, !cevs_app. unfold cevs at 2. cbn. by rewrite bool_decide_eq_true_2.
Qed.

Lemma todo_called flows logs infos s ls s' tr j i : trun flows logs infos s ls = Some (s', tr) -> t_todo s !! (j, i) = None ->
  handled j i tr = [] -> t_todo s' !! (j, i) = None /\ dispatched j i tr = [].
Proof.
  revert s' tr. induction ls as [|l ls IH] using rev_ind; intros s' tr Hr Ht Hh.
  { injection Hr as <- <-. done. }
  apply run_snoc in Hr as (s1 & ev1 & ev2 & H1 & H2 & ->). rewrite handled_app in Hh. apply app_eq_nil in Hh as [Hh1 Hh2].
  destruct (IH _ _ H1 Ht Hh1) as [IH1 IH2]. rewrite dispatched_app, IH2. cbn [app].
  apply tstep_moves in H2 as [_ Hm]. destruct Hm as [j' i' x js Ht' Hj|l js ev Hhe Hj Hn|j' i' e r rs w de p Ht' Hc Hd|j' i' Ht' Hc]; cbn [t_todo].
  - split; [|done]. unfold handled in Hh2. cbn [omap list_omap] in Hh2. case_bool_decide as E; [discriminate Hh2|].
    destruct x; try exact IH1. rewrite lookup_insert_ne; [exact IH1|]. intros [= -> ->]. by apply E.
  - rewrite dispatched_ev. done.
  - assert ((j', i') <> (j, i)) as Hne by (intros [= -> ->]; congruence). rewrite lookup_insert_ne by done. split; [done|].
    unfold dispatched. cbn [omap list_omap]. rewrite bool_decide_eq_false_2; [done|]. intros [-> ->]. done.
  - split; [|done]. destruct (decide ((j', i') = (j, i))) as [[= -> ->]|Hne]; [by rewrite lookup_delete|by rewrite lookup_delete_ne].
Qed.

Lemma after_close flows logs infos n now ls s a j b i ad cr : trun flows logs infos (t_init n now) ls = Some (s, a ++ TEv (JEC j CClosed) :: b) ->
  TEv (JEC j (CListening i ad cr)) ∈ a -> dispatched j i b = [] /\ t_todo s !! (j, i) = None.
Proof.
  intros Hr Hin. pose proof Hr as Hr0.
  apply run_split in Hr as (ls1 & l & ls2 & s1 & ev1 & s2 & evl & evr & -> & H1 & H2 & ->).
  rewrite cons_middle, app_assoc in Hr0. apply run_app_inv in Hr0 as (s2' & ev1' & ev2' & H3 & H4 & E).
  apply run_snoc in H3 as (s1' & ev1'' & ev2'' & H3 & H5 & ->). rewrite H1 in H3. injection H3 as <- <-. rewrite H2 in H5. injection H5 as <- <-.
  rewrite <- !app_assoc in E. apply app_inv_head, app_inv_head in E. cbn [app] in E. injection E as ->.
  assert (trun flows logs infos (t_init n now) (ls1 ++ [l]) = Some (s2, ev1 ++ evl ++ TEv (JEC j CClosed) :: evr)) as Hr2.
  { rewrite run_app, H1, run_one, H2. done. }
  assert (trun flows logs infos (t_init n now) ((ls1 ++ [l]) ++ ls2) = Some (s, (ev1 ++ evl) ++ TEv (JEC j CClosed) :: (evr ++ ev2'))) as Hr3.
  { rewrite run_app, Hr2, H4. do 2 f_equal. by rewrite <- !app_assoc. }
  (* the state after Close *)
  assert (t_todo s2 !! (j, i) = None) as Ht2.
  { destruct (t_todo s2 !! (j, i)) as [rs|] eqn:Et; [|done]. exfalso. destruct (held_run _ _ _ _ _ _ _ _ Hr2 _ _ _ Et) as (c & x & hs & Hc & Hp).
    destruct (project_j _ _ _ _ _ _ _ _ Hr2) as [ls' Hj]. destruct (project _ _ _ _ _ _ Hj) as (_ & _ & Hcl). destruct (Hcl _ _ Hc) as [lsc Hrc].
    destruct (after_run _ _ _ _ Hrc) as [_ HA]. rewrite app_assoc in HA.
    destruct (HA _ _ (cevs_split _ _ _ _ _ eq_refl) i ad cr) as [Hend _]; [by apply cevs_elem, jevs_elem|]. congruence. }
  assert (forall x, TEv (JEC j (CCall i (User 1) x)) ∉ evr ++ ev2') as Hnc.
  { intros x Hx. destruct (project_j _ _ _ _ _ _ _ _ Hr3) as [ls' Hj]. destruct (project _ _ _ _ _ _ Hj) as (_ & _ & Hcl).
    destruct (has_client _ _ _ _ _ j CClosed Hj) as [c Hc]; [apply jevs_elem, elem_of_app; right; left|]. destruct (Hcl _ _ Hc) as [lsc Hrc].
    pose proof (silent_after_close _ _ _ _ _ _ i ad cr Hrc (cevs_split _ _ _ _ _ eq_refl) ltac:(by apply cevs_elem, jevs_elem) (CCall i (User 1) x)) as Hq.
    cbn in Hq. rewrite bool_decide_eq_true_2 in Hq by done. discriminate Hq. by apply cevs_elem, jevs_elem. }
  assert (handled j i (evr ++ ev2') = []) as Hh.
  { destruct (handled j i (evr ++ ev2')) as [|x l0] eqn:Eh; [done|]. exfalso. eapply (Hnc x). apply handled_elem. rewrite Eh. left. }
  rewrite handled_app in Hh. apply app_eq_nil in Hh as [_ Hh]. destruct (todo_called _ _ _ _ _ _ _ _ _ H4 Ht2 Hh) as [K1 K2]. split; [|exact K1].
  rewrite dispatched_app, K2, app_nil_r. apply tstep_moves in H2 as [_ Hm].
  inversion Hm as [j' i' x js Ht Hj|l' js ev Hhe Hj Hn Hl Hs2 Hev|j' i' e r rs w de p Ht Hc Hd|j' i' Ht Hc]; subst.
  - destruct evl as [|? [|]]; discriminate.
  - apply fmap_app_inv in Hev as (e1 & e2 & _ & E2 & _). destruct e2 as [|? e2]; [discriminate E2|]. injection E2 as _ ->. apply dispatched_ev.
  - destruct evl as [|? [|]]; discriminate.
  - destruct evl as [|? [|]]; discriminate.
Qed.
