(** Flush requests when Run is called several times. *)
From Coq Require Import ZArith NArith Ascii String Lia.
From stdpp Require Import base gmap strings list.
From Verif Require Import GoBase Encoding Records Messages Env SyncMap Tokens Cache Dispatch Diff StoreExamples ConvergeFacts Run Manager ManagerFacts ManagerRuns ManagerRunsFacts.

Local Open Scope list_scope.
Local Open Scope Z_scope.

(** ** Specification *)

(** A call of Run that was cancelled and has ended. *)
Definition gave_up (s : nstate) (r : nat) : Prop := nc_cancelled (nctl_at s r) = true /\ nc_serve (nctl_at s r) = SStopped.

(** ** One step *)

Definition ended (s : mstate) : Prop := m_cancelled s = true /\ m_serve s = SStopped.

Record fmove (s s' : mstate) (ev : list mev) : Prop := {
  fm_range : 0 <= m_flushes s' <= 8;
  fm_req : MFlushReq ∈ ev -> 0 < m_flushes s';
  fm_queue : 0 < m_flushes s -> MPassStart ∈ ev \/ 0 < m_flushes s' \/ draining (m_serve s') \/ ended s';
  fm_drain : draining (m_serve s) -> MPassStart ∈ ev \/ draining (m_serve s') \/ ended s';
  fm_ended : ended s -> ended s';
}.

Lemma fmove_keep s s' ev : 0 <= m_flushes s <= 8 -> m_flushes s' = m_flushes s -> MFlushReq ∉ ev ->
  (m_cancelled s = true -> m_cancelled s' = true) ->
  m_serve s' = m_serve s \/ ~ draining (m_serve s) /\ m_serve s <> SStopped -> fmove s s' ev.
Proof.
  intros H8 Hf Hev Hc Hs. constructor.
  - by rewrite Hf.
  - by intros ?%Hev.
  - rewrite Hf. auto.
  - destruct Hs as [->|[? ?]]; [|done]. auto.
  - intros [H1 H2]. destruct Hs as [E|[? ?]]; [|done]. split; [auto|congruence].
Qed.

Lemma flush_move c s l s' ev : 0 <= m_flushes s <= 8 -> mstep c s l = Some (s', ev) -> fmove s s' ev.
Proof.
  intros H8 H. unfold mstep in H. destruct (m_crashed s) eqn:Hc; [done|].
  assert (forall m, m ∉ @nil mev) as Hnil by (intros m; apply not_elem_of_nil).
  assert (forall a b : mev, a <> b -> a ∉ [b]) as Hone by (by intros a b ? ?%elem_of_list_singleton).
  assert (forall e buf s1, m_flushes (finish_batch e buf s1) = m_flushes s1 /\ m_cancelled (finish_batch e buf s1) = m_cancelled s1) as Hfin.
  { intros e buf s1. unfold finish_batch. by destruct (batch_records e buf) as [[|]|]. }
  assert (forall e buf s1, m_flushes (buffered e buf s1) = m_flushes s1 /\ m_cancelled (buffered e buf s1) = m_cancelled s1) as Hbuf.
  { intros e buf s1. unfold buffered. destruct (m_cancelled s1) eqn:E; [by split|]. destruct (Hfin e buf s1). split; congruence. }
  destruct l.
  - destruct (_ <? 256); [|done]. injection H as <- <-. apply fmove_keep; auto.
  - unfold serve_step in H. destruct (m_serve s) as [|buf|m|n|q tok|m q tok|] eqn:Epc; destruct a; try discriminate H.
    + destruct (m_changes s) as [|u q]; [done|]. destruct (_ && _); injection H as <- <-.
      * apply fmove_keep; auto. right. rewrite Epc. split; [intros []|discriminate].
      * destruct (Hfin e [u] (set_changes q s)) as [E1 E2]. apply fmove_keep; auto; [by rewrite E2|]. right. rewrite Epc. split; [intros []|discriminate].
    + destruct (Z.ltb_spec 0 (m_flushes s)); [|done]. destruct (mc_delays c); injection H as <- <-.
      * constructor; flags; cbn; auto; [lia|by intros ?%Hnil|by intros [_ ?]; congruence].
      * constructor; flags; cbn; auto; [lia|by intros ?%Hone|intros; left; apply elem_of_list_here|intros; left; apply elem_of_list_here|by intros [_ ?]; congruence].
    + destruct (m_cancelled s) eqn:Ec; [|done]. injection H as <- <-. apply fmove_keep; auto. right. rewrite Epc. split; [intros []|discriminate].
    + destruct (m_changes s) as [|u q]; [done|]. destruct (_ =? _); injection H as <- <-.
      * destruct (Hbuf e (buf ++ [u]) (set_changes q s)) as [E1 E2]. apply fmove_keep; auto; [by rewrite E2|]. right. rewrite Epc. split; [intros []|discriminate].
      * apply fmove_keep; auto. right. rewrite Epc. split; [intros []|discriminate].
    + injection H as <- <-. destruct (Hbuf e buf s) as [E1 E2]. apply fmove_keep; auto; [by rewrite E2|]. right. rewrite Epc. split; [intros []|discriminate].
    + destruct (m_cancelled s) eqn:Ec; [|done]. injection H as <- <-. apply fmove_keep; auto. right. rewrite Epc. split; [intros []|discriminate].
    + destruct (_ <? 256); [|done]. injection H as <- <-. apply fmove_keep; auto. right. rewrite Epc. split; [intros []|discriminate].
    + destruct (Z.ltb_spec 0 (m_flushes s)); [|done]. destruct (_ =? 2048).
      * unfold drained in H. cbn [m_cancelled set_flushes] in H. destruct (m_cancelled s) eqn:Ec; injection H as <- <-.
        -- constructor; flags; cbn; auto; [lia|by intros ?%Hnil|intros _; do 3 right; by split|intros _; do 2 right; by split|intros _; by split].
        -- constructor; flags; cbn; auto; [lia|by intros ?%Hone|intros; left; apply elem_of_list_here|intros; left; apply elem_of_list_here|by intros [_ ?]; congruence].
      * injection H as <- <-. constructor; flags; cbn; auto; [lia|by intros ?%Hnil|by intros [_ ?]; congruence].
    + unfold drained in H. destruct (m_cancelled s) eqn:Ec; injection H as <- <-.
      * constructor; flags; cbn; auto; [by intros ?%Hnil|intros _; do 2 right; by split|intros _; by split].
      * constructor; flags; cbn; auto; [by intros ?%Hone|intros; left; apply elem_of_list_here|by intros [_ ?]; congruence].
    + destruct q; discriminate H.
    + destruct q; discriminate H.
    + destruct q; discriminate H.
    + destruct q; discriminate H.
    + destruct q; discriminate H.
    + destruct q as [|i q]; injection H as <- <-.
      * apply fmove_keep; [done|done|by apply Hone|done|]. right. rewrite Epc. split; [intros []|discriminate].
      * assert (m_flushes (list_next c e i q tok s) = m_flushes s /\ m_cancelled (list_next c e i q tok s) = m_cancelled s) as [E1 E2].
        { unfold list_next. destruct (run_op _ _ _ _).1.2 as [? |? ?|l tok' [er|]|? ?|]; try done. by destruct l. }
        apply fmove_keep; auto; [by rewrite E2|]. right. rewrite Epc. split; [intros []|discriminate].
    + destruct (m_cancelled s) eqn:Ec; [|done]. injection H as <- <-. apply fmove_keep; auto. right. rewrite Epc. split; [intros []|discriminate].
    + destruct (_ <? 256); [|done]. injection H as <- <-. apply fmove_keep; [done|done|by apply Hone|done|]. right. rewrite Epc. split; [intros []|discriminate].
  - destruct (m_listening s); [|done]. injection H as <- <-. unfold recv_step. cbn [fst snd].
    assert (forall b : bool, m_serve (if b then set_flushes (m_flushes s + 1) s else s) = m_serve s) as E1 by (by intros []).
    assert (forall b : bool, m_cancelled (if b then set_flushes (m_flushes s + 1) s else s) = m_cancelled s) as E2 by (by intros []).
    assert (0 < m_flushes (if m_flushes s <? 8 then set_flushes (m_flushes s + 1) s else s) <= 8) as Hpos.
    { destruct (Z.ltb_spec (m_flushes s) 8); flags; lia. }
    constructor; unfold ended; rewrite ?E1, ?E2; auto; [lia|intros; lia|intros; right; left; lia].
  - destruct (_ && _); [|done]. injection H as <- <-. apply fmove_keep; auto.
  - destruct (m_sending s); [|done]. unfold send_step in H. destruct (m_sends s) as [|m q] eqn:Es; [done|].
    destruct (encode_record_msg _) as [am|er|]; injection H as <- <-; (apply fmove_keep; [done|done|try by apply Hone|done|by left]); by apply Hnil.
  - destruct (_ && _); [|done]. injection H as <- <-. apply fmove_keep; auto.
  - injection H as <- <-. apply fmove_keep; auto.
  - destruct (run_op _ _ _ _) as [[s1 ?] ?]. injection H as <- <-. apply fmove_keep; auto.
Qed.

(** ** Runs *)

Definition nreq_inv (s : nstate) (evs : list (nat * mev)) : Prop :=
  0 <= m_flushes (n_core s) <= 8 /\
  forall ev1 r ev2, evs = ev1 ++ (r, MFlushReq) :: ev2 ->
    (exists q, (q, MPassStart) ∈ ev2) \/ 0 < m_flushes (n_core s) \/ (exists q, draining (nc_serve (nctl_at s q))) \/ exists q, gave_up s q.

Lemma nreq_step c s evs l s' ev : nreq_inv s evs -> nstep c s l = Some (s', ev) -> nreq_inv s' (evs ++ ev).
Proof.
  intros [H8 Hi] H. destruct l as [r|r l].
  - apply nstep_run in H as (_ & Hn & E & -> & _ & _ & Ho). rewrite app_nil_r. split; [by rewrite E|]. rewrite E. intros ev1 q ev2 Ev.
    assert (forall p, p <> r -> nctl_at s' p = nctl_at s p) as Hs by (intros; by apply nctl_same, Ho).
    assert (nctl_at s r = nc_none) as Er by (unfold nctl_at; by rewrite Hn).
    destruct (Hi ev1 q ev2 Ev) as [?|[?|[[p Hp]|[p Hp]]]]; auto; (destruct (decide (p = r)) as [->|Hpr]).
    + by rewrite Er in Hp.
    + right. right. left. exists p. by rewrite Hs.
    + unfold gave_up in Hp. rewrite Er in Hp. by destruct Hp.
    + right. right. right. exists p. unfold gave_up. by rewrite Hs.
  - apply nstep_inv in H as (e & Hm & -> & Hsome & Hnone & Ho).
    pose proof (flush_move c (nfocus s r) l (n_core s') e H8 Hm) as [F1 F2 F3 F4 F5]. split; [exact F1|].
    assert (forall p, p <> r -> nctl_at s' p = nctl_at s p) as Hs by (intros; by apply nctl_same, Ho).
    assert (n_runs s !! r = None -> nctl_at s' r = nc_none /\ nctl_at s r = nc_none /\ MPassStart ∉ e /\ m_flushes (n_core s') = m_flushes (n_core s)) as HN.
    { intros En. unfold nctl_at. rewrite (Hnone En), En. split; [done|]. split; [done|].
      assert (nctl_at s r = nc_none) as Er by (unfold nctl_at; by rewrite En).
      destruct (none_step c (nfocus s r) l (n_core s') e) as (_ & _ & _ & Ef & _ & Ee & _); [unfold nfocus; rewrite Er; done..|exact Hm|].
      split; [|exact Ef]. destruct Ee as [[-> _]|(u & -> & _)]; [by apply not_elem_of_nil|]. by intros ?%elem_of_list_singleton. }
    (* what holds of the step's call, said of the whole state *)
    assert (n_runs s !! r <> None -> draining (m_serve (n_core s')) -> exists q, draining (nc_serve (nctl_at s' q))) as HD.
    { intros Hr Hd. exists r. destruct (Hsome Hr) as [Ef _]. rewrite <- Ef in Hd. exact Hd. }
    assert (n_runs s !! r <> None -> ended (n_core s') -> exists q, gave_up s' q) as HE.
    { intros Hr Hd. exists r. destruct (Hsome Hr) as [Ef _]. rewrite <- Ef in Hd. exact Hd. }
    assert (forall b1, MPassStart ∈ e -> exists q, (q, MPassStart) ∈ b1 ++ (pair r <$> e)) as HP.
    { intros b1 Hin. exists r. apply elem_of_app. right. apply elem_of_list_fmap. by exists MPassStart. }
    intros ev1 q ev2 Ev. apply app_eq_app in Ev. 
    assert ((exists b1, ev2 = b1 ++ (pair r <$> e) /\ evs = ev1 ++ (q, MFlushReq) :: b1) \/ MFlushReq ∈ e) as [(b1 & -> & Eo)|Hin].
    { destruct Ev as (k & [[-> E2]|[-> E2]]).
      - destruct k as [|x k].
        + cbn in E2. right. assert ((q, MFlushReq) ∈ pair r <$> e) as Hin by (rewrite <- E2; apply elem_of_list_here). by apply elem_of_list_fmap in Hin as (y & [= _ <-] & Hy).
        + cbn in E2. injection E2 as <- ->. left. exists k. done.
      - right. assert ((q, MFlushReq) ∈ pair r <$> e) as Hin by (rewrite E2; apply elem_of_app; right; apply elem_of_list_here).
        by apply elem_of_list_fmap in Hin as (y & [= _ <-] & Hy). }
    + destruct (Hi ev1 q b1 Eo) as [[p Hp]|[Hf|[[p Hp]|[p Hp]]]].
      * left. exists p. apply elem_of_app. by left.
      * destruct (n_runs s !! r) eqn:En.
        -- destruct (F3 Hf) as [?|[?|[?|?]]]; auto.
        -- destruct (HN eq_refl) as (_ & _ & _ & ->). auto.
      * destruct (decide (p = r)) as [->|Hpr]; [|right; right; left; exists p; by rewrite Hs].
        destruct (n_runs s !! r) eqn:En; [|destruct (HN eq_refl) as (_ & E & _); by rewrite E in Hp].
        destruct (F4 Hp) as [?|[?|?]]; auto.
      * destruct (decide (p = r)) as [->|Hpr]; [|right; right; right; exists p; unfold gave_up; by rewrite Hs].
        destruct (n_runs s !! r) eqn:En; [|destruct (HN eq_refl) as (_ & E & _); unfold gave_up in Hp; rewrite E in Hp; by destruct Hp].
        right. right. right. apply HE; [done|]. by apply F5.
    + right. left. by apply F2.
Qed.

Lemma nreq_run c w ls s evs : nrun c (n_init w) ls = Some (s, evs) -> nreq_inv s evs.
Proof.
  intros Hr. change evs with ([] ++ evs). apply (run_inv (nstep c) nreq_inv (fun _ => True) (n_init w) [] ls s evs) with (4 := Hr).
  - split; [done|]. intros [|] ? ? E; discriminate E.
  - intros s1 evs1 l s2 ev Hi _ Hs. by eapply nreq_step.
  - by apply Forall_true.
Qed.

(** A new call takes a request that waits and starts a pass. *)
Lemma flush_again c s r : m_crashed (n_core s) = false -> n_runs s !! r = None -> 0 < m_flushes (n_core s) ->
  exists ls s' evs, env_ok (at_time 0) /\ ls `prefix_of` [ATakeFlush; ATimeout] /\
    nrun c s (NRun r :: ((fun a => NStep r (LServe (at_time 0) a)) <$> ls)) = Some (s', evs) /\ (r, MPassStart) ∈ evs.
Proof.
  intros Hc Hn Hf. set (s1 := NState (n_core s) (<[r := nc_start]> (n_runs s))).
  assert (nfocus s1 r = MState (m_changes (n_core s)) (m_flushes (n_core s)) (m_sends (n_core s)) SIdle true true false (m_crashed (n_core s)) (m_stores (n_core s))) as E1.
  { unfold nfocus, nctl_at. cbn [s1 n_runs n_core]. by rewrite lookup_insert. }
  assert (n_runs s1 !! r = Some nc_start) as Er by (cbn; by rewrite lookup_insert).
  destruct (mc_delays c) eqn:Ed.
  - exists [ATakeFlush; ATimeout]. eexists _, _. split; [apply at_time_ok|]. split; [done|]. unfold nrun. cbn [fmap list_fmap run]. cbn [nstep]. rewrite Hc, Hn. fold s1.
    rewrite E1. unfold mstep at 1. cbn [m_crashed]. rewrite ?Hc. unfold serve_step at 1. cbn [m_serve m_flushes].
    destruct (Z.ltb_spec 0 (m_flushes (n_core s))); [|lia]. rewrite Ed, Er. flags.
    set (s2 := NState _ _).
    assert (nfocus s2 r = n_core s2) as E2 by (unfold nfocus, nctl_at; cbn [s2 n_runs n_core]; by rewrite lookup_insert).
    rewrite E2. cbn [s2 n_core]. unfold mstep. cbn [m_crashed]. rewrite ?Hc. unfold serve_step, drained. cbn [m_serve m_cancelled start_pass].
    split; [reflexivity|]. apply elem_of_list_here.
  - exists [ATakeFlush]. eexists _, _. split; [apply at_time_ok|]. split; [by exists [ATimeout]|]. unfold nrun. cbn [fmap list_fmap run]. cbn [nstep]. rewrite Hc, Hn. fold s1.
    rewrite E1. unfold mstep at 1. cbn [m_crashed]. rewrite ?Hc. unfold serve_step at 1. cbn [m_serve m_flushes].
    destruct (Z.ltb_spec 0 (m_flushes (n_core s))); [|lia]. rewrite Ed. cbn [start_pass]. split; [reflexivity|]. apply elem_of_list_here.
Qed.

(** ** No more passes than requests *)

(** Requests that calls have in hand. *)
Definition in_hand (m : gmap nat nctl) : Z := map_fold (fun _ x n => taken (nc_serve x) + n) 0 m.

Lemma taken_nonneg p : 0 <= taken p.
Proof. by destruct p. Qed.

Lemma in_hand_insert m r x : m !! r = None -> in_hand (<[r := x]> m) = taken (nc_serve x) + in_hand m.
Proof. intros H. unfold in_hand. rewrite map_fold_insert_L; [done| |done]. intros. lia. Qed.

Lemma in_hand_delete m r x : m !! r = Some x -> in_hand m = taken (nc_serve x) + in_hand (delete r m).
Proof. intros H. rewrite <- (in_hand_insert (delete r m) r x) by apply lookup_delete. by rewrite insert_delete. Qed.

Lemma in_hand_nonneg m : 0 <= in_hand m.
Proof.
  induction m as [|i x m Hm IH] using map_ind; [done|]. rewrite in_hand_insert by done. pose proof (taken_nonneg (nc_serve x)). lia.
Qed.

Lemma budget_step c s l s' ev : 0 <= m_flushes s -> mstep c s l = Some (s', ev) ->
  count is_pass ev + m_flushes s' + taken (m_serve s') <= count is_recv ev + m_flushes s + taken (m_serve s).
Proof.
  intros H0 H. pose proof (taken_nonneg (m_serve s)) as Ht. set (k := Z.to_nat (m_flushes s + taken (m_serve s))).
  assert (forall n, count is_pass (replicate n MFlushReq) = 0 /\ count is_recv (replicate n MFlushReq) = Z.of_nat n) as Hrep.
  { intros n. unfold count. induction n as [|n [IH1 IH2]]; [done|]. cbn [replicate List.filter is_pass is_recv length]. split; [done|]. lia. }
  pose proof (flush_budget_step c s (replicate k MFlushReq) l s' ev) as Hb. unfold flush_budget in Hb. rewrite !count_app in Hb.
  destruct (Hrep k) as [E1 E2]. rewrite E1, E2 in Hb. assert (Z.of_nat k = m_flushes s + taken (m_serve s)) as Ek by (unfold k; lia).
  specialize (Hb ltac:(lia) H). lia.
Qed.

Lemma nbudget_run c w ls s evs : nrun c (n_init w) ls = Some (s, evs) ->
  count is_pass (nwhole evs) + m_flushes (n_core s) + in_hand (n_runs s) <= count is_recv (nwhole evs).
Proof.
  intros Hr. enough (nreq_inv s evs /\ count is_pass (nwhole evs) + m_flushes (n_core s) + in_hand (n_runs s) <= count is_recv (nwhole evs)) as [_ ?] by done.
  change evs with ([] ++ evs).
  apply (run_inv (nstep c) (fun s evs => nreq_inv s evs /\ count is_pass (nwhole evs) + m_flushes (n_core s) + in_hand (n_runs s) <= count is_recv (nwhole evs))
    (fun _ => True) (n_init w) [] ls s evs) with (4 := Hr).
  - split; [|done]. split; [done|]. intros [|] ? ? E; discriminate E.
  - intros s1 evs1 l s2 ev [Hq Hi] _ Hs. split; [by eapply nreq_step|]. destruct Hq as [H8 _]. rewrite nwhole_app, !count_app. destruct l as [r|r l].
    + cbn [nstep] in Hs. destruct (m_crashed _); [done|]. destruct (n_runs s1 !! r) eqn:En; [done|]. injection Hs as <- <-. cbn [n_core n_runs].
      rewrite in_hand_insert by done. change (count is_pass (nwhole [])) with 0. change (count is_recv (nwhole [])) with 0. change (taken (nc_serve nc_start)) with 0. lia.
    + cbn [nstep] in Hs. destruct (mstep c (nfocus s1 r) l) as [[m e]|] eqn:Em; [|done]. injection Hs as <- <-. rewrite nwhole_pair. cbn [n_core n_runs].
      pose proof (budget_step c (nfocus s1 r) l m e ltac:(cbn; lia) Em) as Hb. cbn [nfocus m_flushes m_serve] in Hb.
      unfold nctl_at in Hb. destruct (n_runs s1 !! r) as [x|] eqn:En; cbn [default] in Hb.
      * rewrite <- insert_delete_insert, in_hand_insert by apply lookup_delete. rewrite (in_hand_delete (n_runs s1) r x En) in Hi. cbn [nc_serve]. cbn in Hb. lia.
      * pose proof (taken_nonneg (m_serve m)). cbn in Hb. lia.
  - by apply Forall_true.
Qed.

(** ** Only cancellation ends a call *)

Lemma cancelled_mstep c s l s' ev : mstep c s l = Some (s', ev) -> l <> LCancel -> m_cancelled s' = m_cancelled s.
Proof.
  intros H Hl. unfold mstep in H. destruct (m_crashed s); [done|].
  assert (forall e buf s1, m_cancelled (finish_batch e buf s1) = m_cancelled s1) as Hfin.
  { intros e buf s1. unfold finish_batch. by destruct (batch_records e buf) as [[|]|]. }
  assert (forall e buf s1, m_cancelled (buffered e buf s1) = m_cancelled s1) as Hbuf.
  { intros e buf s1. unfold buffered. destruct (m_cancelled s1) eqn:E; [done|]. by rewrite Hfin. }
  destruct l; try done.
  - destruct (_ <? 256); [|done]. by injection H as <- <-.
  - unfold serve_step in H. destruct (m_serve s) as [|buf|m|n|q tok|m q tok|]; destruct a; try discriminate H.
    + destruct (m_changes s) as [|u q]; [done|]. destruct (_ && _); injection H as <- <-; [done|]. by rewrite Hfin.
    + destruct (0 <? m_flushes s); [|done]. destruct (mc_delays c); by injection H as <- <-.
    + destruct (m_cancelled s) eqn:Ec; [|done]. by injection H as <- <-.
    + destruct (m_changes s) as [|u q]; [done|]. destruct (_ =? _); injection H as <- <-; [|done]. by rewrite Hbuf.
    + injection H as <- <-. by rewrite Hbuf.
    + destruct (m_cancelled s) eqn:Ec; [|done]. by injection H as <- <-.
    + destruct (_ <? 256); [|done]. by injection H as <- <-.
    + destruct (0 <? m_flushes s); [|done]. destruct (_ =? 2048); [|by injection H as <- <-].
      unfold drained in H. cbn [m_cancelled set_flushes] in H. destruct (m_cancelled s) eqn:Ec; by injection H as <- <-.
    + unfold drained in H. destruct (m_cancelled s) eqn:Ec; by injection H as <- <-.
    + by destruct q.
    + by destruct q.
    + by destruct q.
    + by destruct q.
    + by destruct q.
    + destruct q as [|i q]; injection H as <- <-; [done|]. unfold list_next.
      destruct (run_op _ _ _ _).1.2 as [? |? ?|l tok' [er|]|? ?|]; try done. by destruct l.
    + destruct (m_cancelled s) eqn:Ec; [|done]. by injection H as <- <-.
    + destruct (_ <? 256); [|done]. by injection H as <- <-.
  - destruct (m_listening s); [|done]. injection H as <- <-. unfold recv_step. cbn [fst snd]. by destruct (_ <? 8).
  - destruct (_ && _); [|done]. by injection H as <- <-.
  - destruct (m_sending s); [|done]. unfold send_step in H. destruct (m_sends s) as [|m q]; [done|].
    destruct (encode_record_msg _) as [am|er|]; by injection H as <- <-.
  - destruct (_ && _); [|done]. by injection H as <- <-.
  - destruct (run_op _ _ _ _) as [[s1 ?] ?]. by injection H as <- <-.
Qed.

Lemma cancelled_nrun c ls : forall s s' evs, nrun c s ls = Some (s', evs) -> forall q, nc_cancelled (nctl_at s' q) = true ->
  nc_cancelled (nctl_at s q) = true \/ NStep q LCancel ∈ ls.
Proof.
  induction ls as [|l ls IH]; intros s s' evs Hr q Hq. { injection Hr as <- _. by left. }
  unfold nrun in Hr. cbn [run] in Hr. destruct (nstep c s l) as [[s1 ev1]|] eqn:Es; [|done].
  destruct (run (nstep c) s1 ls) as [[s2 ev2]|] eqn:Er; [|done]. injection Hr as <- _.
  destruct (IH s1 s2 ev2 Er q Hq) as [H1|H1]; [|right; by apply elem_of_list_further].
  destruct l as [r|r l].
  - apply nstep_run in Es as (_ & _ & _ & _ & E & _ & Ho). destruct (decide (q = r)) as [->|Hne]; [by rewrite E in H1|].
    rewrite (nctl_same s s1 q) in H1 by (by apply Ho). by left.
  - apply nstep_inv in Es as (e & Hm & _ & Hsome & Hnone & Ho). destruct (decide (q = r)) as [->|Hne].
    2:{ rewrite (nctl_same s s1 q) in H1 by (by apply Ho). by left. }
    destruct (n_runs s !! r) eqn:En; [|unfold nctl_at in H1; by rewrite Hnone in H1].
    destruct (Hsome ltac:(done)) as [Ef _]. assert (m_cancelled (n_core s1) = true) as Hc by (rewrite <- Ef; exact H1).
    assert (l = LCancel \/ l <> LCancel) as [->|Hl] by (destruct l; auto; by right).
    + right. apply elem_of_list_here.
    + left. rewrite (cancelled_mstep _ _ _ _ _ Hm Hl) in Hc. exact Hc.
Qed.
