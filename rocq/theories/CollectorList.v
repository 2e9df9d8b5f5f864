(** The tool's list of sources, and when it comes to a stop. *)
From Coq Require Import ZArith NArith Ascii String Lia.
From stdpp Require Import base gmap strings list.
From Verif Require Import GoBase Encoding Records Messages Run Keepalive Discovery DiscoveryFacts DiscoveryLive DiscoveryProgress Collector CollectorFacts.

Local Open Scope list_scope.

(** ** Specification *)

(** Handlers are started in order: no notification that the source was forgotten
    waits when one that it was discovered is taken. *)
Definition in_order (now : Z) (ls : list vlabel) : Prop := forall s1 s2 x,
  transition vstep (v_init now) ls s1 (VTake Disc) s2 -> d_hand (v_d s2) = HRunning Disc x -> ~ waits Forg s1 (i_id (ds_info x)).

(** Nothing is left to do for the handler. *)
Definition quiet (s : vstate) : Prop := d_hand (v_d s) = HSelect /\ d_held (v_d s) = None /\ d_disc (v_d s) = [] /\ d_forg (v_d s) = [].

(** A call holds the lock until there is room in a channel that only the handler
    goroutine empties, and the handler waits for the lock. *)
Definition stuck (s : vstate) : Prop :=
  (exists c k x, d_held (v_d s) = Some (c, k, x) /\ roomy (v_d s) k = false) /\ d_run (v_d s) <> RIdle /\
  (exists y, d_hand (v_d s) = HRunning Disc y) /\ v_at s = HFresh.

(** The source was forgotten. *)
Definition forgets (id : string) (e : vev) : Prop := match e with VD (DOp _ (OForget j) (RBool true)) => j = id | _ => False end.

(** ** What is listed is known, or will be removed *)

Lemma waits_app k s s' id i : waiting k (v_d s') = waiting k (v_d s) ++ [i] -> waits k s id -> waits k s' id.
Proof. unfold waits. intros ->. rewrite count_app. lia. Qed.
Lemma waits_new k s s' i : waiting k (v_d s') = waiting k (v_d s) ++ [i] -> waits k s' (i_id i).
Proof. unfold waits. intros ->. rewrite count_app, count_cons, bool_decide_true by done. lia. Qed.
Lemma waits_same k s s' id : waiting k (v_d s') = waiting k (v_d s) -> waits k s' id <-> waits k s id.
Proof. unfold waits. by intros ->. Qed.
Lemma still_now k s s' id : still (v_d s) (v_d s') -> v_at s' = v_at s -> handled_now k s' id <-> handled_now k s id.
Proof.
  unfold still, handled_now. intros [->|[H1 H2]] ->; [done|]. destruct (d_hand (v_d s)), (d_hand (v_d s')); done.
Qed.


Definition accounted (s : vstate) (id : string) : Prop := is_known s id \/ waits Forg s id \/ handled_now Forg s id.
Definition list_inv (s : vstate) : Prop := forall id,
  is_listed s id \/ (exists x, d_hand (v_d s) = HRunning Disc x /\ v_at s = HGot /\ i_id (ds_info x) = id) -> accounted s id.

Lemma inner_known s s' dv id : keyed (d_map (v_d s)) -> ishape (v_d s) (v_d s') dv -> is_known s id -> is_known s' id \/ waits Forg s' id.
Proof.
  intros Hk Hsh [z Hz]. unfold is_known.
  destruct Hsh as [[Em|(j & n & Em & [y Ey] & _)] Hw Hl _|b x Ex En Em Ew1 Ew2 Ewt _|w y x Ey Ep Ex Em Ew1 Ew2 Hl _|w y Ey Ep Ex Em Hw Hl].
  - left. by rewrite Em, Hz.
  - left. rewrite Em. destruct (decide (j = id)) as [->|Hne]; [by rewrite lookup_insert|]. by rewrite lookup_insert_ne, Hz.
  - left. rewrite Em. destruct (decide (i_id (ds_info x) = id)) as [<-|Hne]; [by rewrite lookup_insert|]. by rewrite lookup_insert_ne, Hz.
  - destruct (decide (w_id (wt_cfg y) = id)) as [<-|Hne].
    + right. apply Hk in Ex as Ei. rewrite <- Ei. by eapply waits_new.
    + left. by rewrite Em, lookup_delete_ne, Hz.
  - left. by rewrite Em, Hz.
Qed.
Lemma inner_forg s s' dv id : ishape (v_d s) (v_d s') dv -> waits Forg s id -> waits Forg s' id.
Proof.
  intros Hsh Hw0.
  destruct Hsh as [_ Hw Hl _|b x Ex En Em Ew1 Ew2 Ewt _|w y x Ey Ep Ex Em Ew1 Ew2 Hl _|w y Ey Ep Ex Em Hw Hl].
  - apply (waits_same Forg s s' id); done.
  - apply (waits_same Forg s s' id); done.
  - by eapply waits_app.
  - apply (waits_same Forg s s' id); done.
Qed.

(** The shape of any step for what follows: as [vstep_shape], but a watch may be
    stopped. *)
Lemma vstep_any s l s' ev : ground s -> vstep s l = Some (s', ev) ->
  vshape s s' ev \/ (d_map (v_d s') = d_map (v_d s) /\ (forall k, waiting k (v_d s') = waiting k (v_d s)) /\ d_hand (v_d s') = d_hand (v_d s) /\
    v_at s' = v_at s /\ v_src s' = v_src s /\ Forall (fun e => match e with VD (DOp _ (OForget _) _) => False | _ => True end) ev).
Proof.
  intros Hg Hs. destruct l as [lb|k|]; [|left; eapply vstep_shape; [exact Hg| |exact Hs]; exact id..].
  destruct lb; try (left; eapply vstep_shape; [exact Hg| |exact Hs]; exact id). right.
  unfold vstep, inside, dstep in Hs. destruct (d_crashed (v_d s)); [done|]. destruct (d_watches (v_d s) !! w) as [y|]; [|done].
  unfold watch_step in Hs. destruct (wt_pc y); try done. destruct (wt_cancelled y); [|done]. injection Hs as <- <-. repeat split; constructor.
Qed.

Lemma list_step s l s' ev : ground s -> list_inv s -> vstep s l = Some (s', ev) -> list_inv s'.
Proof.
  intros Hg Hi Hs id Hl. unfold accounted.
  destruct (vstep_any _ _ _ _ Hg Hs) as [[dv Hsh Hstill Ea Es _|k x E1 E2 E3 E4 E5 E6 E7 E8 _|x E1 E2 E3 E4 E5 E6 _ _|x E1 E2 E3 E4 E5 E6 _|x E1 E2 E3 E4 E5 _|x E1 E2 E3 E4 E5 _|k x E1 E2 E3 E4 _]|(Em & Hw & Eh & Ea & Es & _)].
  - assert (accounted s id) as [Hk|[Hw|Hn]].
    { apply Hi. destruct Hl as [Hl|(x & Ex & Eg & Ei)]; [left; unfold is_listed in *; by rewrite <- Es|right]. rewrite Ea in Eg.
      destruct Hstill as [Eh|[_ Hx]]; [rewrite Eh in Ex; eauto|by rewrite Ex in Hx]. }
    + destruct (inner_known _ _ _ _ (g_keyed _ Hg) Hsh Hk); auto.
    + right. left. by eapply inner_forg.
    + right. right. by apply (still_now Forg s s' id Hstill Ea).
  - assert (accounted s id) as [Hk|[Hw|Hn]].
    { apply Hi. left. destruct Hl as [Hl|(y & Ey & Eg & Ei)]; [unfold is_listed in *; by rewrite <- E4|]. congruence. }
    + left. unfold is_known. by rewrite E5.
    + right. destruct k.
      * left. apply (waits_same Forg s s'); [by apply E8|done].
      * unfold waits in Hw. rewrite E7, count_cons in Hw. case_bool_decide as Ei.
        -- right. unfold handled_now. rewrite E2, E3. done.
        -- left. unfold waits. lia.
    + unfold handled_now in Hn. by rewrite E1 in Hn.
  - destruct (decide (i_id (ds_info x) = id)) as [<-|Hne].
    + left. unfold is_known. by rewrite E6.
    + assert (accounted s id) as [Hk|[Hw|Hn]].
      { apply Hi. left. destruct Hl as [Hl|(y & Ey & Eg & Ei)]; [unfold is_listed in *; by rewrite <- E5|]. rewrite E6 in Ey. cbn in Ey. congruence. }
      * left. unfold is_known. by rewrite E6.
      * right. left. unfold waits. by rewrite E6.
      * unfold handled_now in Hn. rewrite E1 in Hn. by destruct Hn.
  - assert (accounted s id) as [Hk|[Hw|Hn]].
    { apply Hi. left. destruct Hl as [Hl|(y & Ey & Eg & Ei)]; [unfold is_listed in *; by rewrite <- E5|]. congruence. }
    + left. unfold is_known. by rewrite E6.
    + right. left. unfold waits. by rewrite E6.
    + unfold handled_now in Hn. rewrite E1 in Hn. by destruct Hn.
  - assert (accounted s id) as [Hk|[Hw|Hn]].
    { apply Hi. destruct Hl as [Hl|(y & Ey & Eg & Ei)]; [|congruence]. unfold is_listed in Hl. rewrite E4 in Hl.
      destruct (decide (i_id (ds_info x) = id)) as [<-|Hne]; [right; eauto|left]. rewrite lookup_insert_ne in Hl by done. done. }
    + left. unfold is_known. by rewrite E5.
    + right. left. unfold waits. by rewrite E5.
    + unfold handled_now in Hn. rewrite E1 in Hn. by destruct Hn.
  - destruct Hl as [Hl|(y & Ey & Eg & Ei)]; [|congruence]. unfold is_listed in Hl. rewrite E4 in Hl.
    destruct (decide (i_id (ds_info x) = id)) as [<-|Hne]; [rewrite lookup_delete in Hl; by destruct Hl|]. rewrite lookup_delete_ne in Hl by done.
    destruct (Hi id (or_introl Hl)) as [Hk|[Hw|Hn]].
    + left. unfold is_known. by rewrite E5.
    + right. left. unfold waits. by rewrite E5.
    + unfold handled_now in Hn. rewrite E1 in Hn. by destruct Hn as (_ & ? & _).
  - assert (accounted s id) as [Hk|[Hw|Hn]].
    { apply Hi. left. destruct Hl as [Hl|(y & Ey & Eg & Ei)]; [unfold is_listed in *; by rewrite <- E3|]. rewrite E4 in Ey. done. }
    + left. unfold is_known. by rewrite E4.
    + right. left. unfold waits. by rewrite E4.
    + unfold handled_now in Hn. rewrite E1, E2 in Hn. by destruct Hn as (_ & _ & ?).
  - assert (accounted s id) as [Hk|[Hw'|Hn]].
    { apply Hi. unfold is_listed in *. by rewrite <- Es, <- Eh, <- Ea. }
    + left. unfold is_known. by rewrite Em.
    + right. left. unfold waits. by rewrite Hw.
    + right. right. unfold handled_now. by rewrite Eh, Ea.
Qed.

Lemma list_run now ls s evs : vrun (v_init now) ls = Some (s, evs) -> list_inv s.
Proof.
  intros Hr. assert (ground s /\ list_inv s) as [_ H]; [|done].
  apply (run_inv vstep (fun s _ => ground s /\ list_inv s) (fun _ => True) (v_init now) [] ls s evs) with (4 := Hr); [| |by apply Forall_true].
  - split; [apply ground_init|]. intros id [H|(x & H & _)]; [|done]. unfold is_listed in H. cbn in H. rewrite lookup_empty in H. by destruct H.
  - intros s1 evs1 l s2 ev [Hg Hi] _ Hs. split; [by eapply ground_step|by eapply list_step].
Qed.

(** ** In order, what is known is listed *)

Definition order_inv (s : vstate) : Prop := forall id, is_known s id ->
  waits Disc s id \/ ((handled_now Disc s id \/ is_listed s id) /\ ~ waits Forg s id /\ ~ handled_now Forg s id).

Lemma order_vstep s l s' ev : ground s -> order_inv s -> vstep s l = Some (s', ev) ->
  (forall x, l = VTake Disc -> d_hand (v_d s') = HRunning Disc x -> ~ waits Forg s (i_id (ds_info x))) -> order_inv s'.
Proof.
  intros Hg Hi Hs Hord id Hk.
  destruct (vstep_any _ _ _ _ Hg Hs) as [[dv Hsh Hstill Ea Es _|k x E1 E2 E3 E4 E5 E6 E7 E8 _|x E1 E2 E3 E4 E5 E6 _ _|x E1 E2 E3 E4 E5 E6 _|x E1 E2 E3 E4 E5 _|x E1 E2 E3 E4 E5 _|k x E1 E2 E3 E4 _]|(Em & Hw & Eh & Ea & Es & _)].
  - rewrite (still_now Disc s s' id Hstill Ea), (still_now Forg s s' id Hstill Ea). unfold is_listed. rewrite Es. fold (is_listed s id).
    destruct Hsh as [Hm Hw Hl _|b x Ex En Em Ew1 Ew2 Ewt _|w y x Ey Ep Ex Em Ew1 Ew2 Hl _|w y Ey Ep Ex Em Hw Hl].
    + assert (is_known s id) as Hk0.
      { destruct Hm as [Em|(j & n & Em & Hj & _)]; unfold is_known in *; rewrite Em in Hk; [done|]. destruct (decide (j = id)) as [->|Hne]; [done|]. by rewrite lookup_insert_ne in Hk. }
      unfold waits. rewrite !Hw. apply (Hi id Hk0).
    + destruct (decide (i_id (ds_info x) = id)) as [<-|Hne].
      * left. by eapply waits_new.
      * assert (is_known s id) as Hk0 by (unfold is_known in *; by rewrite Em, lookup_insert_ne in Hk).
        destruct (Hi id Hk0) as [Hw|(H1 & H2 & H3)]; [left; by eapply waits_app|right]. split; [done|]. split; [|done]. unfold waits. by rewrite Ew2.
    + destruct (decide (w_id (wt_cfg y) = id)) as [<-|Hne].
      * unfold is_known in Hk. rewrite Em, lookup_delete in Hk. by destruct Hk.
      * assert (is_known s id) as Hk0 by (unfold is_known in *; by rewrite Em, lookup_delete_ne in Hk).
        destruct (Hi id Hk0) as [Hw|(H1 & H2 & H3)]; [left; unfold waits; by rewrite Ew2|right]. split; [done|]. split; [|done]. unfold waits in *. rewrite Ew1, count_app, count_cons.
        apply (g_keyed _ Hg) in Ex. rewrite Ex, bool_decide_false by done. change (count_id id []) with 0. lia.
    + assert (is_known s id) as Hk0 by (unfold is_known in *; by rewrite Em in Hk). unfold waits. rewrite !Hw. apply (Hi id Hk0).
  - assert (is_known s id) as Hk0 by (unfold is_known in *; by rewrite E5 in Hk).
    assert (handled_now Disc s id -> False) as Hnd by (unfold handled_now; by rewrite E1).
    destruct k.
    + destruct (decide (i_id (ds_info x) = id)) as [Ei|Hne].
      * right. split; [left; unfold handled_now; rewrite E2, E3; done|]. split; [|unfold handled_now; rewrite E2; by intros [? _]].
        unfold waits. rewrite (E8 Forg) by done. rewrite <- Ei. apply Hord; [|done].
        destruct l as [lb|k|]; [| |].
        -- exfalso. unfold vstep in Hs. destruct (inside lb) eqn:Ein; [|done]. destruct (dstep (v_d s) lb) as [[d dv]|] eqn:Ed; [|done]. injection Hs as <- _.
           destruct (inside_hand _ _ _ _ (g_hand _ Hg) Ein Ed) as [[Eh|[_ Hx]] _]; cbn in E2; [congruence|by rewrite E2 in Hx].
        -- unfold vstep, dstep in Hs. destruct (d_crashed (v_d s)); [done|]. rewrite E1 in Hs. destruct (chan_of (v_d s) k); [done|]. injection Hs as <- _. cbn in E2. destruct k; congruence.
        -- unfold vstep, body in Hs. by rewrite E1 in Hs.
      * destruct (Hi id Hk0) as [Hw|(H1 & H2 & H3)].
        -- left. unfold waits in *. rewrite E7, count_cons, bool_decide_false in Hw by done. lia.
        -- right. destruct H1 as [H1|H1]; [by apply Hnd in H1|]. split; [right; unfold is_listed; by rewrite E4|]. split; [unfold waits; by rewrite (E8 Forg)|].
           unfold handled_now. rewrite E2. by intros [? _].
    + destruct (Hi id Hk0) as [Hw|(H1 & H2 & H3)].
      * left. unfold waits. by rewrite (E8 Disc).
      * right. destruct H1 as [H1|H1]; [by apply Hnd in H1|]. split; [right; unfold is_listed; by rewrite E4|].
        unfold waits in H2. rewrite E7, count_cons in H2. case_bool_decide as Ei; [lia|]. split; [unfold waits; lia|]. unfold handled_now. rewrite E2. by intros (_ & ? & _).
  - assert (is_known s id) as Hk0 by (unfold is_known in *; by rewrite E6 in Hk).
    destruct (Hi id Hk0) as [Hw|(H1 & H2 & H3)]; [left; unfold waits; by rewrite E6|right]. unfold waits, handled_now, is_listed in *. rewrite E6, E5. cbn [d_hand ds_watches]. rewrite E1, E4 in *.
    rewrite E2 in *. split; [|split; [done|by intros [? _]]]. destruct H1 as [(_ & ? & _)|?]; [by left|by right].
  - assert (is_known s id) as Hk0 by (unfold is_known in *; by rewrite E6 in Hk).
    destruct (Hi id Hk0) as [Hw|(H1 & H2 & H3)]; [left; unfold waits; by rewrite E6|right]. unfold waits, handled_now, is_listed in *. rewrite E6, E5. rewrite E1, E4 in *.
    rewrite E2 in *. split; [|split; [done|by intros [? _]]]. destruct H1 as [(_ & Ei & _)|?]; [|by right]. exfalso. subst id. unfold is_known in Hk0. rewrite E3 in Hk0. by destruct Hk0.
  - assert (is_known s id) as Hk0 by (unfold is_known in *; by rewrite E5 in Hk).
    destruct (Hi id Hk0) as [Hw|(H1 & H2 & H3)]; [left; unfold waits; by rewrite E5|right]. unfold waits, handled_now, is_listed in *. rewrite E5, E4. rewrite E1, E3 in *.
    rewrite E2 in *. split; [|split; [done|by intros [? _]]]. right. destruct (decide (i_id (ds_info x) = id)) as [<-|Hne]; [by rewrite lookup_insert|]. rewrite lookup_insert_ne by done.
    destruct H1 as [(_ & ? & _)|?]; done.
  - assert (is_known s id) as Hk0 by (unfold is_known in *; by rewrite E5 in Hk).
    destruct (Hi id Hk0) as [Hw|(H1 & H2 & H3)]; [left; unfold waits; by rewrite E5|right]. unfold waits, handled_now, is_listed in *. rewrite E5, E4. rewrite E1, E3 in *.
    rewrite E2 in *. assert (i_id (ds_info x) <> id) as Hne by (intros Ei; by apply H3). rewrite lookup_delete_ne by done.
    split; [|split; [done|by intros (_ & _ & ?)]]. destruct H1 as [[? _]|?]; [done|by right].
  - assert (is_known s id) as Hk0 by (unfold is_known in *; by rewrite E4 in Hk).
    destruct (Hi id Hk0) as [Hw|(H1 & H2 & H3)]; [left; unfold waits; by rewrite E4|right]. unfold waits, handled_now, is_listed in *. rewrite E4, E3. cbn [d_hand ds_hand]. rewrite E1, E2 in *.
    split; [|split; [exact H2|by intros []]]. destruct H1 as [(_ & _ & ?)|?]; [done|by right].
  - assert (is_known s id) as Hk0 by (unfold is_known in *; by rewrite Em in Hk).
    destruct (Hi id Hk0) as [Hw'|H]; [left; unfold waits; by rewrite Hw|right]. unfold waits, handled_now, is_listed in *. by rewrite Hw, Eh, Es, Ea.
Qed.

Lemma order_vrun now ls s evs : vrun (v_init now) ls = Some (s, evs) -> in_order now ls -> order_inv s.
Proof.
  intros Hr Ho. assert (ground s /\ order_inv s) as [_ H]; [|done].
  apply (run_inv_rel vstep (fun s _ => ground s /\ order_inv s) (v_init now) [] ls s evs) with (3 := Hr).
  - split; [apply ground_init|]. intros id [x H]. cbn in H. by rewrite lookup_empty in H.
  - intros s1 evs1 l s2 ev [Hg Hi] _ Ht Hs. split; [by eapply ground_step|]. eapply order_vstep; [done|done|exact Hs|]. intros x -> Hx. by eapply Ho.
Qed.

(** ** A source that is missing stays missing until it is forgotten *)

Definition missing (s : vstate) (id : string) : Prop := is_known s id /\ ~ is_listed s id /\ ~ waits Disc s id /\ ~ handled_now Disc s id.

Lemma missing_step s l s' ev id : ground s -> missing s id -> vstep s l = Some (s', ev) -> Forall (fun e => ~ forgets id e) ev -> missing s' id.
Proof.
  intros Hg (Hk & Hl & Hw & Hn) Hs HF. unfold missing.
  destruct (vstep_any _ _ _ _ Hg Hs) as [[dv Hsh Hstill Ea Es Eev|k x E1 E2 E3 E4 E5 E6 E7 E8 _|x E1 E2 E3 E4 E5 E6 _ _|x E1 E2 E3 E4 E5 E6 _|x E1 E2 E3 E4 E5 _|x E1 E2 E3 E4 E5 _|k x E1 E2 E3 E4 _]|(Em & Hw' & Eh & Ea & Es & _)].
  - rewrite (still_now Disc s s' id Hstill Ea). unfold is_listed. rewrite Es.
    destruct Hsh as [Hm Hw' _ _|b x Ex En Em Ew1 Ew2 Ewt _|w y x Ey Ep Ex Em Ew1 Ew2 _ Hin|w y Ey Ep Ex Em Hw' _].
    + split; [|split; [done|split; [unfold waits; by rewrite Hw'|done]]]. unfold is_known in *. destruct Hm as [->|(j & n & -> & Hj & _)]; [done|].
      destruct (decide (j = id)) as [->|Hne]; [by rewrite lookup_insert|by rewrite lookup_insert_ne].
    + assert (i_id (ds_info x) <> id) as Hne by (intros E; unfold is_known in Hk; rewrite <- E, En in Hk; by destruct Hk).
      split; [unfold is_known; by rewrite Em, lookup_insert_ne|]. split; [done|]. split; [|done]. unfold waits in *. rewrite Ew1, count_app, count_cons, bool_decide_false by done.
      change (count_id id []) with 0. lia.
    + assert (w_id (wt_cfg y) <> id) as Hne.
      { intros E. rewrite Eev, Forall_forall in HF. apply (HF (VD (DOp (ByWatch w) (OForget (w_id (wt_cfg y))) (RBool true)))); [|exact E].
        apply elem_of_list_fmap. eauto. }
      split; [unfold is_known; by rewrite Em, lookup_delete_ne|]. split; [done|]. split; [|done]. unfold waits. by rewrite Ew2.
    + split; [unfold is_known; by rewrite Em|]. split; [done|]. split; [unfold waits; by rewrite Hw'|done].
  - unfold is_known, is_listed. rewrite E5, E4. split; [done|]. split; [done|]. destruct k.
    + unfold waits in *. rewrite E7, count_cons in Hw. case_bool_decide as Ei; [lia|]. split; [lia|]. unfold handled_now. rewrite E2. by intros (_ & ? & _).
    + unfold waits. rewrite (E8 Disc) by done. split; [done|]. unfold handled_now. rewrite E2. by intros [? _].
  - unfold is_known, is_listed, waits, handled_now in *. rewrite E6, E5. split; [done|]. split; [done|]. split; [done|]. cbn [d_hand ds_watches]. rewrite E1 in *. rewrite E4. rewrite E2 in Hn.
    intros (_ & Ei & _). by apply Hn.
  - unfold is_known, is_listed, waits, handled_now in *. rewrite E6, E5. split; [done|]. split; [done|]. split; [done|]. rewrite E1, E4. by intros (_ & _ & ?).
  - unfold is_known, is_listed, waits, handled_now in *. rewrite E5, E4. rewrite E1 in *. rewrite E2 in Hn. rewrite E3.
    assert (i_id (ds_info x) <> id) as Hne by (intros E; by apply Hn). rewrite lookup_insert_ne by done. split; [done|]. split; [done|]. split; [done|]. by intros (_ & _ & ?).
  - unfold is_known, is_listed, waits, handled_now in *. rewrite E5, E4. rewrite E1 in *. split; [done|]. split; [|split; [done|by intros [? _]]].
    intros [z Hz]. apply lookup_delete_Some in Hz as [_ Hz]. apply Hl. by rewrite Hz.
  - unfold is_known, is_listed, waits, handled_now in *. rewrite E4, E3. split; [done|]. split; [done|]. split; [exact Hw|]. by intros [].
  - unfold is_known, is_listed, waits, handled_now in *. by rewrite Em, Es, Hw', Eh, Ea.
Qed.

Lemma missing_run s ls s' evs id : ground s -> missing s id -> vrun s ls = Some (s', evs) -> Forall (fun e => ~ forgets id e) evs -> missing s' id.
Proof.
  intros Hg Hm Hr HF.
  assert (ground s' /\ (Forall (fun e => ~ forgets id e) ([] ++ evs) -> missing s' id)) as [_ H]; [|by apply H].
  apply (run_inv vstep (fun s evs => ground s /\ (Forall (fun e => ~ forgets id e) evs -> missing s id)) (fun _ => True) s [] ls s' evs) with (4 := Hr); [done| |by apply Forall_true].
  intros s1 evs1 l s2 ev [Hg1 Hi] _ Hs. split; [by eapply ground_step|]. intros [H1 H2]%Forall_app. eapply missing_step; [exact Hg1|by apply Hi|exact Hs|done].
Qed.

(** ** When it is stuck *)

Lemma stuck_step s l s' ev : stuck s -> vstep s l = Some (s', ev) ->
  stuck s' /\ d_held (v_d s') = d_held (v_d s) /\ d_map (v_d s') = d_map (v_d s) /\ d_hand (v_d s') = d_hand (v_d s) /\ v_src s' = v_src s /\
  exists lb dv, l = VIn lb /\ ev = VD <$> dv /\ Forall plain dv.
Proof.
  intros ((c & k & x & Hh & Hr) & Hrun & (y & Hd) & Ha) Hs.
  destruct l as [lb|j|].
  - unfold vstep in Hs. destruct (inside lb) eqn:Ei; [|done]. destruct (dstep (v_d s) lb) as [[d dv]|] eqn:E; [|done]. injection Hs as <- <-. cbn [v_d v_at v_src].
    assert (same_core (v_d s) d /\ Forall plain dv) as [Hc HF].
    { destruct (core_cases _ _ _ _ E) as [c' o Hc|c' k' x' -> Hh' Hr'|k' x' q -> Hh'|Hc HF].
      - unfold call in Hc. by rewrite Hh in Hc.
      - congruence.
      - congruence.
      - done. }
    assert (d_hand d = d_hand (v_d s) /\ d_run d <> RIdle) as [Eh Er].
    { destruct (ctl_cases _ _ _ _ E) as [c' o ev' Hc'|c' k' x' _ Hh' Hr' _| _ E0| -> E1| -> E1 E2|k' x' -> E0| k' x' -> | k' x' o' ->| -> E0|b E0 E1 E2 E3|E1 E2 E3]; try done; try congruence.
      - unfold call in Hc'. by rewrite Hh in Hc'.
      - split; [done|]. unfold dstep in E. destruct (d_crashed (v_d s)); [done|]. destruct (d_run (v_d s)); try done. by injection E as <- <-.
      - by rewrite E1, E2.
      - by rewrite E1, E2.
      - by rewrite E1, E2. }
    rewrite (sc_map _ _ Hc), (sc_held _ _ Hc), Eh. split; [|by eauto 10].
    split; [|split; [done|split; [exists y; cbn [v_d]; by rewrite Eh|done]]]. exists c, k, x. cbn [v_d]. rewrite (sc_held _ _ Hc). split; [done|]. unfold roomy. by rewrite (core_chan _ _ _ Hc).
  - exfalso. unfold vstep, dstep in Hs. destruct (d_crashed (v_d s)); [done|]. by rewrite Hd in Hs.
  - exfalso. unfold vstep, body, dstep in Hs. rewrite Hd, Ha, Hh in Hs. by destruct (d_crashed (v_d s)).
Qed.

Lemma stuck_forever s ls s' evs : stuck s -> vrun s ls = Some (s', evs) ->
  stuck s' /\ d_map (v_d s') = d_map (v_d s) /\ v_src s' = v_src s /\ Forall (fun e => match e with VD d => plain d | _ => False end) evs.
Proof.
  intros Hd Hr.
  apply (run_inv vstep (fun s' evs => stuck s' /\ d_map (v_d s') = d_map (v_d s) /\ v_src s' = v_src s /\ Forall (fun e => match e with VD d => plain d | _ => False end) evs)
    (fun _ => True) s [] ls s' evs) with (4 := Hr); [done| |by apply Forall_true].
  intros s1 evs1 l s2 ev (H1 & H2 & H3 & H4) _ Hs. destruct (stuck_step _ _ _ _ H1 Hs) as (G1 & _ & G2 & _ & G3 & lb & dv & _ & -> & HF).
  split; [done|]. split; [congruence|]. split; [congruence|]. apply Forall_app. split; [done|]. by apply Forall_fmap.
Qed.

(** ** Otherwise everything is handled *)

(** The steps of the handler goroutine, and the send of a blocked call. *)
Definition handling (l : vlabel) : Prop := match l with VTake _ | VBody | VIn LUnblock => True | _ => False end.

Definition vload (s : vstate) : nat := 5 * (length (d_disc (v_d s)) + length (d_forg (v_d s))) + (if d_held (v_d s) then 6 else 0) +
  match d_hand (v_d s) with HRunning _ _ => match v_at s with HFresh => 3 | HGot => 2 | HFin => 1 end | _ => 0 end.

Definition serving (s : vstate) : Prop := match d_hand (v_d s) with HSelect | HRunning _ _ => True | _ => False end.

Lemma take_step s k x q : d_crashed (v_d s) = false -> d_hand (v_d s) = HSelect -> chan_of (v_d s) k = x :: q ->
  vstep s (VTake k) = Some (VState (ds_hand (HRunning k x) (set_chan k q (v_d s))) HFresh (v_src s), [VD (DHandle k x)]).
Proof. intros Hc Hh Hq. unfold vstep, dstep. by rewrite Hc, Hh, Hq. Qed.
Lemma unblock_step s c k x : d_crashed (v_d s) = false -> d_held (v_d s) = Some (c, k, x) -> roomy (v_d s) k = true ->
  vstep s (VIn LUnblock) = Some (VState (returns_to c (ds_held None (set_chan k (chan_of (v_d s) k ++ [x]) (v_d s)))) (v_at s) (v_src s), [VD (DRet c)]).
Proof. intros Hc Hh Hr. unfold vstep, dstep. cbn [inside]. by rewrite Hc, Hh, Hr. Qed.

Lemma vdrain_one s : ground s -> serving s -> d_crashed (v_d s) = false -> (stuck s -> False) -> d_run (v_d s) <> RIdle -> vload s <> 0 ->
  exists ls s' evs, Forall handling ls /\ vrun s ls = Some (s', evs) /\ serving s' /\ d_crashed (v_d s') = false /\ (stuck s' -> False) /\ d_run (v_d s') <> RIdle /\ vload s' < vload s.
Proof.
  intros Hg Hsv Hcr Hns Hrun Hl. pose proof (g_hand _ Hg) as [[_ Hhh] _].
  assert (forall c k x t, d_held (v_d t) = Some (c, k, x) -> c <> ByHandler ->
    let d := returns_to c (ds_held None (set_chan k (chan_of (v_d t) k ++ [x]) (v_d t))) in
    d_hand d = d_hand (v_d t) /\ d_crashed d = d_crashed (v_d t) /\ d_held d = None /\ (d_run (v_d t) <> RIdle -> d_run d <> RIdle) /\
    length (d_disc d) + length (d_forg d) = S (length (d_disc (v_d t)) + length (d_forg (v_d t)))) as Hub.
  { intros c k x t Hh Hc d. destruct (unblock_ctl c k x (v_d t)) as (Eh & Er & _). fold d in Eh, Er.
    destruct (returns_core c (ds_held None (set_chan k (chan_of (v_d t) k ++ [x]) (v_d t)))) as [[_ Ed Ef Ehd] (_ & Ecr & _)]. fold d in Ed, Ef, Ehd, Ecr.
    split; [rewrite Eh; by destruct c|]. split; [rewrite Ecr; by destruct k|]. split; [rewrite Ehd; by destruct k|]. split; [rewrite Er; by destruct c|].
    rewrite Ed, Ef. destruct k; cbn; rewrite app_length; cbn; lia. }
  destruct (d_held (v_d s)) as [[[c k] x]|] eqn:Ehd.
  - assert (c <> ByHandler) as Hc by (by intros ->).
    destruct (roomy (v_d s) k) eqn:Er.
    + (* the send succeeds *)
      destruct (Hub _ _ _ _ Ehd Hc) as (U1 & U2 & U3 & U4 & U5).
      eexists [VIn LUnblock], _, _. split; [by repeat constructor|]. split; [rewrite run_one, (unblock_step _ _ _ _ Hcr Ehd Er); reflexivity|]. cbn [v_d v_at].
      split; [unfold serving; cbn [v_d]; by rewrite U1|]. split; [by rewrite U2|]. split; [intros ((? & ? & ? & Hx & _) & _); cbn [v_d] in Hx; congruence|].
      split; [by apply U4|]. unfold vload. cbn [v_d v_at]. rewrite U5, U3, U1, Ehd. lia.
    + destruct (d_hand (v_d s)) as [| |j y| | |] eqn:Eh; try (unfold serving in Hsv; by rewrite Eh in Hsv).
      * (* take from the full channel, then the send succeeds *)
        destruct (chan_of (v_d s) k) as [|z q] eqn:Eq.
        { unfold roomy in Er. rewrite Eq in Er. done. }
        set (s1 := VState (ds_hand (HRunning k z) (set_chan k q (v_d s))) HFresh (v_src s)).
        assert (d_held (v_d s1) = Some (c, k, x)) as Ehd1 by (rewrite <- Ehd; by destruct k).
        assert (chan_of (v_d s1) k = q) as Eq1 by (by destruct k).
        assert (roomy (v_d s1) k = true) as Er1.
        { pose proof (cap_chan _ k (g_cap _ Hg)) as Hcap. rewrite Eq in Hcap. unfold roomy. rewrite Eq1. apply Nat.ltb_lt. cbn in Hcap. lia. }
        assert (d_crashed (v_d s1) = false) as Hcr1 by (by destruct k).
        destruct (Hub _ _ _ s1 Ehd1 Hc) as (U1 & U2 & U3 & U4 & U5).
        eexists [VTake k; VIn LUnblock], _, _. split; [by repeat constructor|]. split.
        { change [VTake k; VIn LUnblock] with ([VTake k] ++ [VIn LUnblock]). rewrite run_app, run_one, (take_step _ _ _ _ Hcr Eh Eq). fold s1.
          rewrite run_one, (unblock_step _ _ _ _ Hcr1 Ehd1 Er1). reflexivity. }
        cbn [v_d v_at]. split; [unfold serving; cbn [v_d]; by rewrite U1|]. split; [by rewrite U2|]. split; [intros ((? & ? & ? & Hx & _) & _); cbn [v_d] in Hx; congruence|].
        split; [apply U4; by destruct k|]. unfold vload. cbn [v_d v_at]. rewrite U5, U3, U1, Ehd, Eh. cbn [s1 v_d v_at d_hand ds_hand].
        assert (S (length (d_disc (v_d s1)) + length (d_forg (v_d s1))) = length (d_disc (v_d s)) + length (d_forg (v_d s))) as El.
        { unfold s1. destruct k; cbn in Eq |- *; rewrite Eq; cbn; lia. }
        unfold s1 in El. cbn [v_d] in El. lia.
      * (* the handler goes on without the lock *)
        destruct (v_at s) eqn:Ea; [destruct j; [exfalso; apply Hns; split; [eauto|]; split; [done|]; split; [eauto|done]|]| |].
        -- eexists [VBody], _, _. split; [by repeat constructor|]. split; [rewrite run_one; unfold vstep, body; rewrite Eh, Ea; reflexivity|]. unfold serving, vload, stuck. cbn [v_d v_at]. rewrite Eh, Ehd, Ea.
           split; [done|]. split; [done|]. split; [by intros (_ & _ & _ & ?)|]. split; [done|]. lia.
        -- destruct j; [|exfalso; pose proof (g_got _ Hg) as Hgg; rewrite Eh in Hgg; by apply Hgg].
           eexists [VBody], _, _. split; [by repeat constructor|]. split; [rewrite run_one; unfold vstep, body; rewrite Eh, Ea; reflexivity|]. unfold serving, vload, stuck. cbn [v_d v_at]. rewrite Eh, Ehd, Ea.
           split; [done|]. split; [done|]. split; [by intros (_ & _ & _ & ?)|]. split; [done|]. lia.
        -- eexists [VBody], _, _. split; [by repeat constructor|]. split.
           { rewrite run_one. unfold vstep, body, dstep. rewrite Eh, Ea, Hcr. destruct j; reflexivity. }
           unfold serving, vload, stuck. cbn [v_d v_at d_hand ds_hand d_crashed d_run d_disc d_forg d_held]. rewrite Eh, Ehd, Ea. split; [done|]. split; [done|]. split; [by intros (_ & _ & (? & ?) & _)|]. split; [done|]. lia.
  - destruct (d_hand (v_d s)) as [| |j y| | |] eqn:Eh; try (unfold serving in Hsv; by rewrite Eh in Hsv).
    + assert (exists k z q, chan_of (v_d s) k = z :: q) as (k & z & q & Eq).
      { unfold vload in Hl. rewrite Ehd, Eh in Hl. destruct (d_disc (v_d s)) as [|z q] eqn:E1; [|by exists Disc, z, q]. destruct (d_forg (v_d s)) as [|z q] eqn:E2; [|by exists Forg, z, q]. cbn in Hl. lia. }
      eexists [VTake k], _, _. split; [by repeat constructor|]. split; [rewrite run_one, (take_step _ _ _ _ Hcr Eh Eq); reflexivity|].
      split; [done|]. split; [by destruct k|]. split; [intros ((? & ? & ? & Hx & _) & _); cbn [v_d] in Hx; destruct k; cbn in Hx; congruence|].
      split; [by destruct k|]. unfold vload. cbn [v_d v_at]. rewrite Ehd, Eh. destruct k; cbn in Eq |- *; rewrite Eq, ?Ehd; cbn; lia.
    + assert (forall t, d_held (v_d t) = None -> stuck t -> False) as Hnst by (intros t Ht ((? & ? & ? & Hx & _) & _); congruence).
      destruct (v_at s) eqn:Ea; [destruct j| |].
      * destruct (d_map (v_d s) !! i_id (ds_info y)) eqn:Em.
        -- eexists [VBody], _, _. split; [by repeat constructor|]. split.
           { rewrite run_one. unfold vstep, body, dstep. rewrite Eh, Ea, Hcr, Ehd. cbn [tool_watch w_id]. rewrite Em. reflexivity. }
           split; [unfold serving; cbn; by rewrite Eh|]. split; [done|]. split; [by apply Hnst|]. split; [done|]. unfold vload. cbn. rewrite Eh, Ehd, Ea. lia.
        -- eexists [VBody], _, _. split; [by repeat constructor|]. split.
           { rewrite run_one. unfold vstep, body, dstep. rewrite Eh, Ea, Hcr, Ehd. cbn [tool_watch w_id]. rewrite Em. reflexivity. }
           split; [unfold serving; cbn; by rewrite Eh|]. split; [done|]. split; [by apply Hnst|]. split; [done|]. unfold vload. cbn. rewrite Eh, Ehd, Ea. lia.
      * eexists [VBody], _, _. split; [by repeat constructor|]. split; [rewrite run_one; unfold vstep, body; rewrite Eh, Ea; reflexivity|].
        split; [unfold serving; cbn; by rewrite Eh|]. split; [done|]. split; [by apply Hnst|]. split; [done|]. unfold vload. cbn. rewrite Eh, Ehd, Ea. lia.
      * destruct j; [|exfalso; pose proof (g_got _ Hg) as Hgg; rewrite Eh in Hgg; by apply Hgg].
        eexists [VBody], _, _. split; [by repeat constructor|]. split; [rewrite run_one; unfold vstep, body; rewrite Eh, Ea; reflexivity|].
        split; [unfold serving; cbn; by rewrite Eh|]. split; [done|]. split; [by apply Hnst|]. split; [done|]. unfold vload. cbn. rewrite Eh, Ehd, Ea. lia.
      * eexists [VBody], _, _. split; [by repeat constructor|]. split.
        { rewrite run_one. unfold vstep, body, dstep. rewrite Eh, Ea, Hcr. destruct j; reflexivity. }
        split; [done|]. split; [done|]. split; [by apply Hnst|]. split; [done|]. unfold vload. cbn. rewrite Eh, Ehd, Ea. lia.
Qed.

Lemma ground_on s ls s' evs : ground s -> vrun s ls = Some (s', evs) -> ground s'.
Proof.
  intros Hg Hr. apply (run_inv vstep (fun s _ => ground s) (fun _ => True) s [] ls s' evs) with (4 := Hr); [done| |by apply Forall_true].
  intros s1 evs1 l s2 ev Hi _ Hs. by eapply ground_step.
Qed.

Lemma vdrain s : ground s -> serving s -> d_crashed (v_d s) = false -> (stuck s -> False) -> d_run (v_d s) <> RIdle ->
  exists ls s' evs, Forall handling ls /\ vrun s ls = Some (s', evs) /\ quiet s'.
Proof.
  remember (vload s) as n eqn:En. revert s En. induction (lt_wf n) as [n _ IH]. intros s -> Hg Hsv Hcr Hns Hrun.
  destruct (decide (vload s = 0)) as [E0|Hne].
  - exists [], s, []. split; [constructor|]. split; [done|]. unfold vload in E0. unfold quiet, serving in *. destruct (d_held (v_d s)); [lia|].
    destruct (d_disc (v_d s)); [|cbn in E0; lia]. destruct (d_forg (v_d s)); [|cbn in E0; lia]. destruct (d_hand (v_d s)); try done. destruct (v_at s); lia.
  - destruct (vdrain_one s Hg Hsv Hcr Hns Hrun Hne) as (l1 & s1 & e1 & HF1 & Hr1 & Hsv1 & Hcr1 & Hns1 & Hrun1 & Hlt).
    destruct (IH _ Hlt s1 eq_refl (ground_on _ _ _ _ Hg Hr1) Hsv1 Hcr1 Hns1 Hrun1) as (l2 & s2 & e2 & HF2 & Hr2 & Hq).
    exists (l1 ++ l2), s2, (e1 ++ e2). split; [by apply Forall_app|]. split; [|done]. by rewrite run_app, Hr1, Hr2.
Qed.

(** ** While Run goes on *)

Definition ends_run (l : vlabel) : Prop := match l with VIn LDCancel | VIn LRunErr => True | _ => False end.

Lemma step_calm s l s' ev : vstep s l = Some (s', ev) -> ~ ends_run l ->
  v_d s' = v_d s /\ l = VBody \/ exists lb dv, dstep (v_d s) lb = Some (v_d s', dv) /\ calm lb /\ (l = VIn LRun -> lb = LRun).
Proof.
  unfold vstep, body. destruct l as [lb|k|]; intros Hs Hl.
  - destruct (inside lb) eqn:Ei; [|done]. destruct (dstep (v_d s) lb) as [[d dv]|] eqn:E; [|done]. injection Hs as <- <-. right. exists lb, dv. split; [done|].
    split; [by destruct lb|by intros [= ->]].
  - destruct (dstep (v_d s) _) as [[d dv]|] eqn:E; [|done]. injection Hs as <- <-. right. by eexists _, _.
  - destruct (d_hand (v_d s)) as [| |[] x| | |]; try done; destruct (v_at s); try done.
    + destruct (dstep (v_d s) _) as [[d dv]|] eqn:E; [|done]. injection Hs as <- <-. right. by eexists _, _.
    + injection Hs as <- <-. by left.
    + destruct (dstep (v_d s) _) as [[d dv]|] eqn:E; [|done]. injection Hs as <- <-. right. by eexists _, _.
    + injection Hs as <- <-. by left.
    + destruct (dstep (v_d s) _) as [[d dv]|] eqn:E; [|done]. injection Hs as <- <-. right. by eexists _, _.
Qed.

Lemma serving_run now ls s evs : vrun (v_init now) ls = Some (s, evs) -> Forall (fun l => ~ ends_run l) ls -> VIn LRun ∈ ls -> serving s /\ d_run (v_d s) <> RIdle.
Proof.
  intros Hr HF Hin.
  assert (calm_inv (v_d s) /\ (VIn LRun ∈ ls -> d_hand (v_d s) <> HNone)) as [(_ & _ & Hc) Hn].
  { clear Hin. revert evs s Hr. induction ls as [|l ls IH] using rev_ind; intros evs s Hr.
    - cbn [run] in Hr. assert (s = v_init now) as -> by congruence. split; [by split|]. by intros ?%elem_of_nil.
    - apply run_snoc in Hr as (s1 & ev1 & ev2 & H1 & H2 & ->). apply Forall_app in HF as [HF Hl]. apply Forall_cons in Hl as [Hl _].
      destruct (IH HF _ _ H1) as [Hi Hn]. destruct (step_calm _ _ _ _ H2 Hl) as [[-> El]|(lb & dv & Hd & Hcm & Hlr)].
      + split; [done|]. rewrite elem_of_app, elem_of_list_singleton. intros [Hin|Heq]; [by apply Hn|]. by rewrite El in Heq.
      + destruct (calm_step _ _ _ _ Hi Hcm Hd) as [Hi' Hn']. split; [done|].
        rewrite elem_of_app, elem_of_list_singleton. intros [Hin|Heq]; apply Hn'; [left; by apply Hn|right; by apply Hlr]. }
  specialize (Hn Hin). split; [unfold serving; by destruct (d_hand (v_d s))|]. intros E. pose proof (ground_run _ _ _ _ Hr) as [[_ H3] _ _ _ _]. by apply H3 in E.
Qed.

(** ** What it takes to get stuck *)

Lemma nodup_count l : (forall id, count_id id l <= 1) -> NoDup (i_id <$> l).
Proof.
  induction l as [|i l IH]; intros H; [constructor|]. cbn. constructor.
  - intros Hin. apply elem_of_list_fmap in Hin as (j & Ej & Hj). specialize (H (i_id i)). rewrite count_cons, bool_decide_true in H by done.
    assert (count_id (i_id i) l <> 0); [|lia]. clear IH H. induction l as [|k l IH]; [by apply elem_of_nil in Hj|]. rewrite count_cons.
    apply elem_of_cons in Hj as [<-|Hj]; [by rewrite bool_decide_true|]. specialize (IH Hj). lia.
  - apply IH. intros id. specialize (H id). rewrite count_cons in H. lia.
Qed.
Lemma count_in id l : count_id id l <> 0 <-> id ∈ i_id <$> l.
Proof.
  induction l as [|i l IH]; [cbn; by rewrite elem_of_nil|]. rewrite count_cons. cbn. rewrite elem_of_cons, <- IH. case_bool_decide; intuition (try lia; congruence).
Qed.

Lemma stuck_needs s : one_inv s -> stuck s -> 34 <= size (d_map (v_d s)) \/ 33 <= length (waiting Forg (v_d s)).
Proof.
  intros Hi ((c & k & x & Hh & Hr) & _ & (y & Ey) & Ea). unfold roomy in Hr. apply Nat.ltb_ge in Hr. unfold chan_cap in Hr. destruct k.
  - left. set (l := ds_info y :: waiting Disc (v_d s)).
    assert (forall id, count_id id l <= match d_map (v_d s) !! id with Some _ => 1 | None => 0 end) as Hl.
    { intros id. specialize (Hi id). unfold unwatched in Hi. rewrite Ey, Ea in Hi. unfold l. rewrite count_cons. lia. }
    assert (NoDup (i_id <$> l)) as Hnd.
    { apply nodup_count. intros id. specialize (Hl id). destruct (d_map (v_d s) !! id); lia. }
    assert (34 <= length (i_id <$> l)) as Hlen.
    { unfold l, waiting. rewrite fmap_length. cbn [length]. rewrite app_length, fmap_length, Hh, bool_decide_true by done. cbn in Hr |- *. lia. }
    rewrite <- (size_list_to_set (C := gset string) _ Hnd) in Hlen. rewrite <- (size_dom (D := gset string)). etrans; [exact Hlen|]. apply subseteq_size.
    intros id Hid. apply elem_of_list_to_set, count_in in Hid. specialize (Hl id). apply elem_of_dom. destruct (d_map (v_d s) !! id); [done|lia].
  - right. unfold waiting. rewrite app_length, fmap_length, Hh, bool_decide_true by done. cbn in Hr |- *. lia.
Qed.

(** ** Details *)

Record detail_inv (s : vstate) : Prop := DetailInv {
  de_wait i : i ∈ waiting Disc (v_d s) -> exists x, d_map (v_d s) !! i_id i = Some x /\ ds_info x = i;
  de_fresh x : d_hand (v_d s) = HRunning Disc x -> v_at s = HFresh -> exists y, d_map (v_d s) !! i_id (ds_info x) = Some y /\ ds_info y = ds_info x;
  de_got x y : d_hand (v_d s) = HRunning Disc x -> v_at s = HGot -> d_map (v_d s) !! i_id (ds_info x) = Some y -> ~ waits Disc s (i_id (ds_info x)) -> ds_info y = ds_info x;
  de_listed id i y : v_src s !! id = Some i -> d_map (v_d s) !! id = Some y -> ~ waits Disc s id -> ~ handled_now Disc s id -> ds_info y = i;
}.

Lemma count_of id i l : i ∈ l -> i_id i = id -> count_id id l <> 0.
Proof.
  induction l as [|j l IH]; intros Hi E; [by apply elem_of_nil in Hi|]. rewrite count_cons. apply elem_of_cons in Hi as [->|Hi]; [rewrite bool_decide_true by done; lia|].
  specialize (IH Hi E). lia.
Qed.

Lemma detail_step s l s' ev : ground s -> (stops l -> False) -> one_inv s -> detail_inv s -> vstep s l = Some (s', ev) -> detail_inv s'.
Proof.
  intros Hg Hst Ho [Hw Hf Hgt Hl] Hs. pose proof (vstep_shape _ _ _ _ Hg Hst Hs) as Hsh. clear Hs.
  destruct Hsh as [dv Hsh Hstill Ea Es ->|k x E1 E2 E3 E4 E5 E6 E7 E8 ->|x E1 E2 E3 E4 E5 E6 _ ->|x E1 E2 E3 E4 E5 E6 ->|x E1 E2 E3 E4 E5 ->|x E1 E2 E3 E4 E5 ->|k x E1 E2 E3 E4 ->].
  - (* what was known *)
    assert (forall id, handled_now Disc s' id <-> handled_now Disc s id) as Hh.
    { intros id. unfold handled_now. rewrite Ea. destruct Hstill as [->|[H1 H2]]; [done|]. destruct (d_hand (v_d s)), (d_hand (v_d s')); done. }
    assert (forall x, d_hand (v_d s') = HRunning Disc x -> d_hand (v_d s) = HRunning Disc x) as Hr.
    { intros x Hx. destruct Hstill as [<-|[H1 H2]]; [done|]. by rewrite Hx in H2. }
    assert (forall (id : string) (y : dsource), d_map (v_d s') !! id = Some y -> waits Disc s' id \/ exists z, d_map (v_d s) !! id = Some z /\ ds_info y = ds_info z) as Hold.
    { intros id y Hy. destruct Hsh as [[Em|(j & n & Em & [z Ez] & _ & Hz)] Hwt Hlv _|b x Ex En Em Ew1 Ew2 Ewt _|w y' x Ey Ep Ex Em Ew1 Ew2 Hlv _|w y' Ey Ep Ex Em Hwt Hlv].
      - right. rewrite Em in Hy. eauto.
      - right. rewrite Em in Hy. destruct (decide (j = id)) as [->|Hne]; [|rewrite lookup_insert_ne in Hy by done; eauto].
        rewrite lookup_insert in Hy. injection Hy as <-. eauto.
      - rewrite Em in Hy. destruct (decide (i_id (ds_info x) = id)) as [<-|Hne]; [left|right; rewrite lookup_insert_ne in Hy by done; eauto].
        unfold waits. rewrite Ew1. eapply count_of; [apply elem_of_app; right; by apply elem_of_list_singleton|done].
      - right. rewrite Em in Hy. apply lookup_delete_Some in Hy as [_ Hy]. eauto.
      - right. rewrite Em in Hy. eauto. }
    assert (forall (id : string), waits Disc s id -> waits Disc s' id) as Hmore.
    { intros id. unfold waits. destruct Hsh as [_ Hwt _ _|b x Ex En Em Ew1 Ew2 Ewt _|w y' x Ey Ep Ex Em Ew1 Ew2 Hlv _|w y' Ey Ep Ex Em Hwt Hlv]; [by rewrite Hwt| |by rewrite Ew2|by rewrite Hwt].
      rewrite Ew1, count_app. lia. }
    (* what waits, or is about to be watched, is not forgotten *)
    assert (forall id y, d_map (v_d s) !! id = Some y -> waits Disc s id \/ unwatched s id <> 0 -> exists y', d_map (v_d s') !! id = Some y' /\ ds_info y' = ds_info y) as Hkeep.
    { intros id y Hy Hp. destruct Hsh as [[Em|(j & n & Em & [z Ez] & _ & Hz)] Hwt Hlv _|b x Ex En Em Ew1 Ew2 Ewt _|w y' x Ey Ep Ex Em Ew1 Ew2 Hlv _|w y' Ey Ep Ex Em Hwt Hlv].
      - rewrite Em. eauto.
      - rewrite Em. destruct (decide (j = id)) as [->|Hne]; [rewrite lookup_insert; eauto|rewrite lookup_insert_ne by done; eauto].
      - rewrite Em. destruct (decide (i_id (ds_info x) = id)) as [<-|Hne]; [by rewrite En in Hy|]. rewrite lookup_insert_ne by done. eauto.
      - rewrite Em. destruct (decide (w_id (wt_cfg y') = id)) as [<-|Hne]; [exfalso|rewrite lookup_delete_ne by done; eauto].
        specialize (Ho (w_id (wt_cfg y'))). rewrite Ex in Ho.
        assert (lives (w_id (wt_cfg y')) (d_watches (v_d s)) <> 0) as Hn; [|unfold waits in Hp; lia].
        eapply lives_one; [exact Ey|]. unfold guards. rewrite Ep. by rewrite bool_decide_true.
      - rewrite Em. eauto. }
    constructor.
    + intros i Hi. assert (i ∈ waiting Disc (v_d s) \/ exists x, i = ds_info x /\ d_map (v_d s') !! i_id (ds_info x) = Some x) as [Hi'|(x & -> & Hx)]; [|idtac|eauto].
      { destruct Hsh as [_ Hwt _ _|b x Ex En Em Ew1 Ew2 Ewt _|w y' x Ey Ep Ex Em Ew1 Ew2 Hlv _|w y' Ey Ep Ex Em Hwt Hlv]; [rewrite Hwt in Hi; by left| |rewrite Ew2 in Hi; by left|rewrite Hwt in Hi; by left].
        rewrite Ew1 in Hi. apply elem_of_app in Hi as [Hi|Hi%elem_of_list_singleton]; [by left|right]. exists x. split; [done|]. by rewrite Em, lookup_insert. }
      destruct (Hw i Hi') as (x & Hx & E). destruct (Hkeep _ _ Hx) as (y & Hy & E'); [left; unfold waits; by eapply count_of|]. exists y. split; [done|]. by rewrite E'.
    + intros x Hx Hat. rewrite Ea in Hat. apply Hr in Hx. destruct (Hf x Hx Hat) as (y & Hy & E). destruct (Hkeep _ _ Hy) as (z & Hz & E').
      { right. unfold unwatched. rewrite Hx, Hat, bool_decide_true; done. }
      exists z. split; [done|]. by rewrite E'.
    + intros x y Hx Hat Hy Hn. rewrite Ea in Hat. apply Hr in Hx. destruct (Hold _ _ Hy) as [?|(z & Hz & ->)]; [done|]. apply Hgt; auto.
    + intros id i y Hi Hy Hn Hnh. rewrite Es in Hi. rewrite Hh in Hnh. destruct (Hold _ _ Hy) as [?|(z & Hz & ->)]; [done|]. eapply Hl; eauto.
  - (* a notification is taken *)
    assert (forall id, ~ handled_now Disc s id) as Hnh by (intros id; unfold handled_now; rewrite E1; tauto). constructor.
    + intros i Hi. rewrite E5. apply Hw. destruct k; [rewrite E7; by right|]. by rewrite (E8 Disc) in Hi.
    + intros y Hy _. rewrite E2 in Hy. injection Hy as -> ->. rewrite E5. destruct (Hw (ds_info y)) as (z & Hz & E); [rewrite E7; left|]. exists z. by rewrite E.
    + intros y z Hy Hat. by rewrite E3 in Hat.
    + intros id i y Hi Hy Hn Hh. rewrite E4 in Hi. rewrite E5 in Hy. apply (Hl id i y); auto. intros Hwt. unfold waits in Hn, Hwt. destruct k.
      * rewrite E7, count_cons in Hwt. case_bool_decide as E; [|lia]. apply Hh. unfold handled_now. rewrite E2, E3. done.
      * apply Hn. rewrite (E8 Disc) by done. exact Hwt.
  - (* the watch is made *)
    constructor; rewrite ?E4, ?E5, ?E6; cbn [d_map d_hand ds_watches].
    + exact Hw.
    + done.
    + intros y z Hy _ Hz _. rewrite E1 in Hy. injection Hy as <-. destruct (Hf x E1 E2) as (u & Hu & E). rewrite Hz in Hu. by injection Hu as <-.
    + intros id i y Hi Hy Hn Hh. apply (Hl id i y); auto.
      * unfold waits in *. rewrite E6 in Hn. exact Hn.
      * intros H. apply Hh. unfold handled_now in *. rewrite E6, E4. cbn [d_hand ds_watches]. rewrite E1 in *. destruct H as (? & ? & ?). done.
  - (* no watch: cannot be *)
    exfalso. destruct (Hf x E1 E2) as (y & Hy & _). by rewrite E3 in Hy.
  - (* it is listed *)
    constructor; rewrite ?E3, ?E4, ?E5; try done.
    intros id i y Hi Hy Hn Hh. destruct (decide (i_id (ds_info x) = id)) as [<-|Hne].
    + rewrite lookup_insert in Hi. injection Hi as <-. apply Hgt; auto. unfold waits in *. by rewrite E5 in Hn.
    + rewrite lookup_insert_ne in Hi by done. apply (Hl id i y); auto; [unfold waits in *; by rewrite E5 in Hn|].
      unfold handled_now. rewrite E1. intros (_ & ? & _). done.
  - (* it is taken off the list *)
    constructor; rewrite ?E3, ?E4, ?E5; try done.
    intros id i y Hi Hy Hn Hh. apply lookup_delete_Some in Hi as [_ Hi]. apply (Hl id i y); auto; [unfold waits in *; by rewrite E5 in Hn|].
    unfold handled_now. rewrite E1. by intros [? _].
  - constructor; rewrite ?E3, ?E4; cbn [d_map d_hand ds_hand]; try done.
    intros id i y Hi Hy Hn Hh. apply (Hl id i y); auto; [unfold waits in *; rewrite E4 in Hn; exact Hn|]. unfold handled_now. rewrite E1, E2. by intros (_ & _ & ?).
Qed.

Lemma details now ls s evs id i x : vrun (v_init now) ls = Some (s, evs) -> Forall (fun l => ~ stops l) ls -> v_src s !! id = Some i -> d_map (v_d s) !! id = Some x ->
  ~ waits Disc s id -> ~ handled_now Disc s id -> ds_info x = i.
Proof.
  intros Hr HF Hi Hx Hn Hh.
  assert ((ground s /\ one_inv s) /\ detail_inv s) as [_ Hd]; [|by eapply de_listed].
  apply (run_inv vstep (fun s _ => (ground s /\ one_inv s) /\ detail_inv s) (fun l => ~ stops l) (v_init now) [] ls s evs) with (4 := Hr); [| |done].
  - split; [split; [apply ground_init|]|].
    + intros j. cbn. by rewrite lookup_empty.
    + constructor; cbn; try done. intros j Hj. by apply elem_of_nil in Hj.
  - intros s1 evs1 l s2 ev [[Hg Ho] Hd] Hl Hs. split; [split; [by eapply ground_step|]|by eapply detail_step]. by destruct (one_step _ _ _ _ Hg Hl Ho Hs).
Qed.
