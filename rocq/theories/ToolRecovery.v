(** From any state of the tool, a source that falls silent and then announces
    itself gets a new connection. *)
From Coq Require Import ZArith NArith Ascii String Lia.
From stdpp Require Import base gmap strings list functions.
From Verif Require Import GoBase Encoding Records Messages Run Keepalive Discovery DiscoveryFacts DiscoveryLive DiscoveryProgress WatchFacts WatchLive WatchSilence
  Collector CollectorFacts CollectorList Backoff BackoffFacts ToolConns ToolConnsFacts.

Local Open Scope list_scope.

(** ** Specification *)

(** A message that is a beacon. *)
Definition announces (am : amqp_msg) (b : beacon) : Prop :=
  (exists p, am_props am = Some p /\ ap_subject p = Some "BEACON"%string) /\ decode_beacon am = Ok b.

(** What may happen meanwhile: the tool's own steps, time, the message, and a
    connection that succeeds.  No failure, no other message, no activity. *)
Definition vhelps (am : amqp_msg) (l : vlabel) : Prop :=
  match l with
  | VTake _ | VBody => True
  | VIn lb => match lb with
      | LUnblock | LObserve | LDTime _ | LWStart _ | LWLook _ | LWFire _ | LWTakeTimer _ | LWSeen _ | LWReset _ | LWForget _ => True
      | LRunMsg m => m = am
      | _ => False
      end
  end.
Definition helps (am : amqp_msg) (l : tlabel) : Prop :=
  match l with TColl l => vhelps am l | TMake | TTime _ | TNet (Connected _) => True | _ => False end.
Definition tlapse (l : tlabel) : Z := match l with TTime dt => dt | _ => 0 end.
Definition tlapses (ls : list tlabel) : Z := foldr (fun l z => (tlapse l + z)%Z) 0%Z ls.

(** A watch forgot the source. *)
Definition forgot (id : string) (e : tev) : Prop := exists w, e = TV (VD (DOp (ByWatch w) (OForget id) (RBool true))).

(** ** Invariants of the collector until it is stopped *)

Lemma watch_keeps d lb d' ev : dstep d lb = Some (d', ev) -> (forall w, lb <> LWCancel w) -> forall w y', d_watches d' !! w = Some y' ->
  (exists y, d_watches d !! w = Some y /\ wt_cancelled y' = wt_cancelled y /\ wt_cfg y' = wt_cfg y) \/ (exists c, lb = LWatch c /\ wt_cancelled y' = false /\ wt_cfg y' = c).
Proof.
  intros Hs Hn w y' Hy'.
  assert (d_watches d' = d_watches d -> exists y, d_watches d !! w = Some y /\ wt_cancelled y' = wt_cancelled y /\ wt_cfg y' = wt_cfg y) as Hsame by (intros E; rewrite E in Hy'; eauto).
  assert (forall f v, d_watches d' = alter f v (d_watches d) -> (forall x, d_watches d !! v = Some x -> wt_cancelled (f x) = wt_cancelled x /\ wt_cfg (f x) = wt_cfg x) ->
    exists y, d_watches d !! w = Some y /\ wt_cancelled y' = wt_cancelled y /\ wt_cfg y' = wt_cfg y) as Halt.
  { intros f v E Hf. rewrite E, alter_lookup in Hy'. destruct (decide (w = v)) as [->|]; [|eauto]. destruct (d_watches d !! v) as [x|] eqn:Ex; [|done]. injection Hy' as <-. exists x. split; [done|by apply Hf]. }
  assert (forall c o, call c o d = Some (d', ev) -> exists y, d_watches d !! w = Some y /\ wt_cancelled y' = wt_cancelled y /\ wt_cfg y' = wt_cfg y) as Hcall.
  { intros c o Hc. destruct (call_watches _ _ _ _ _ Hc) as (Ew & _). destruct c as [| | |v]; try (by apply Hsame). eapply Halt; [exact Ew|]. intros x' _. destruct (d_held d'); [done|]. by destruct (wt_pc x'). }
  unfold dstep in Hs. destruct (d_crashed d); [done|].
  assert (forall v, label_of lb = Some v -> match d_watches d !! v with Some x => watch_step d v x lb | None => None end = Some (d', ev) ->
    exists y, d_watches d !! w = Some y /\ wt_cancelled y' = wt_cancelled y /\ wt_cfg y' = wt_cfg y) as Hw.
  { intros v El H2. destruct (d_watches d !! v) as [x|] eqn:Ex; [|done]. unfold watch_step in H2.
    destruct lb; try done; try (by destruct (Hn w0)); injection El as ->; destruct (wt_pc x) eqn:Ep; try done; repeat case_match; try done; try (by eapply Hcall);
      injection H2 as H2 _; subst d'; (eapply Halt; [reflexivity|]); intros x' Hz; (assert (x' = x) as -> by congruence); done. }
  destruct lb; try (left; by eapply Hw); clear Hw.
  14: { destruct (d_held d); [done|]. destruct (d_map d !! w_id c); injection Hs as <- <-; [|left; by apply Hsame]. cbn in Hy'.
        apply lookup_app_Some in Hy' as [Hy'|[Hl Hy']]; [left; eauto|]. right. exists c. apply list_lookup_singleton_Some in Hy' as [_ <-]. done. }
  - destruct (0 <=? dt)%Z; [|done]. injection Hs as <- <-. left. by apply Hsame.
  - left. destruct o; try done; by eapply Hcall.
  - left. destruct (d_held d) as [[[c k] x]|]; [|done]. destruct (roomy d k); [|done]. injection Hs as <- <-.
    assert (d_watches (ds_held None (set_chan k (chan_of d k ++ [x]) d)) = d_watches d) as E by (by destruct k).
    destruct c as [| | |v]; [apply Hsame; by rewrite returns_watches, E..|]. eapply Halt; [rewrite returns_watches, E; reflexivity|]. intros z _. cbn. by destruct (wt_pc z).
  - left. destruct (d_run d); try done. injection Hs as <- <-. by apply Hsame.
  - left. destruct (d_run d); try done. injection Hs as Hs. apply Hsame. destruct d. unfold run_msg, ds_run in Hs. cbn in Hs. repeat case_match; by injection Hs as <- <-.
  - left. destruct (d_run d); try done. injection Hs as <- <-. by apply Hsame.
  - left. destruct (d_run d); try done. by eapply Hcall.
  - left. injection Hs as <- <-. by apply Hsame.
  - left. destruct (d_hand d); try done. destruct (chan_of d k); try done. injection Hs as <- <-. apply Hsame. by destruct k.
  - left. destruct (d_hand d); try done. injection Hs as <- <-. by apply Hsame.
  - left. destruct (d_hand d); try done. destruct o; try done; injection Hs as <- <-; by apply Hsame.
  - left. destruct (d_hand d); try done. by eapply Hcall.
  - left. destruct (d_hand d); try done. apply Hsame. destruct (d_run d); try (destruct (d_cancelled d)); try done; by injection Hs as <- <-.
Qed.

Record tool_ok (v : vstate) : Prop := ToolOk {
  to_ground : ground v;
  to_one : one_inv v;
  to_calm : calm_inv (v_d v);
  to_watch : forall w y, d_watches (v_d v) !! w = Some y -> wt_cancelled y = false /\ wt_cfg y = tool_watch (w_id (wt_cfg y));
  to_run : exists ls evs, drun (d_init 0) ls = Some (v_d v, evs);
  to_block : d_run (v_d v) = RBlocked -> exists k x, d_held (v_d v) = Some (ByRun, k, x);
}.

Lemma not_stops v l v2 ev : (forall w y, d_watches (v_d v) !! w = Some y -> wt_cancelled y = false) -> vstep v l = Some (v2, ev) -> ~ stops l.
Proof.
  intros Hc Hs Hl. destruct l as [lb| |]; try done. destruct lb; try done. unfold vstep in Hs. cbn [inside] in Hs. unfold dstep in Hs. destruct (d_crashed (v_d v)); [done|].
  destruct (d_watches (v_d v) !! w) as [y|] eqn:Ey; [|done]. unfold watch_step in Hs. destruct (wt_pc y); try done. by rewrite (Hc _ _ Ey) in Hs.
Qed.

(** The step of the discovery in a step of the tool. *)
Lemma vstep_base v l v2 ev : vstep v l = Some (v2, ev) -> needs_stop l = false ->
  v_d v2 = v_d v \/ exists lb dv, dstep (v_d v) lb = Some (v_d v2, dv) /\ calm lb /\ (forall w, lb <> LWCancel w) /\ (forall c, lb = LWatch c -> exists id, c = tool_watch id).
Proof.
  intros Hs Hn. unfold vstep, body in Hs. destruct l as [lb|k|].
  - destruct (inside lb) eqn:Ei; [|done]. destruct (dstep (v_d v) lb) as [[d dv]|] eqn:E; [|done]. injection Hs as <- <-. right. exists lb, dv. by destruct lb.
  - destruct (dstep (v_d v) _) as [[d dv]|] eqn:E; [|done]. injection Hs as <- <-. right. by eexists _, _.
  - destruct (d_hand (v_d v)) as [| |[] x| | |]; try done; destruct (v_at v); try done.
    + destruct (dstep (v_d v) _) as [[d dv]|] eqn:E; [|done]. injection Hs as <- <-. right. eexists _, _. split; [exact E|]. split; [done|]. split; [done|]. intros c [= <-]. eauto.
    + injection Hs as <- <-. by left.
    + destruct (dstep (v_d v) _) as [[d dv]|] eqn:E; [|done]. injection Hs as <- <-. right. by eexists _, _.
    + injection Hs as <- <-. by left.
    + destruct (dstep (v_d v) _) as [[d dv]|] eqn:E; [|done]. injection Hs as <- <-. right. by eexists _, _.
Qed.


Lemma block_step d lb d' ev : (d_run d = RBlocked -> exists k x, d_held d = Some (ByRun, k, x)) -> dstep d lb = Some (d', ev) ->
  d_run d' = RBlocked -> exists k x, d_held d' = Some (ByRun, k, x).
Proof.
  intros Hb Hs Er. destruct (core_cases _ _ _ _ Hs) as [c o Hc|c k x -> Hh Hr Em Hch Eh ->|k x q -> Hcr Hq Eq Em Hch Eh ->|Hc HF].
  - pose proof (call_run _ _ _ _ _ Hc) as E. destruct (call_watches _ _ _ _ _ Hc) as (_ & _ & _ & Hcw). rewrite Er in E.
    assert (d_held d = None) as Hn by (unfold call in Hc; by destruct (d_held d)).
    destruct c; try (symmetry in E; apply Hb in E as (? & ? & ?); congruence). destruct (d_held d') as [[[c k] x]|]; [|done]. destruct (Hcw _ _ _ eq_refl) as [-> _]. eauto.
  - unfold dstep in Hs. destruct (d_crashed d); [done|]. rewrite Hh, Hr in Hs. injection Hs as Hs. destruct (unblock_ctl c k x d) as (_ & E & _). rewrite Hs in E. rewrite Er in E.
    destruct c; try done; symmetry in E; apply Hb in E as (? & ? & ?); congruence.
  - rewrite Eh. apply Hb. rewrite <- Er. unfold dstep in Hs. destruct (d_crashed d); [done|]. destruct (d_hand d); try done. destruct (chan_of d k); [done|]. injection Hs as <- _. by destruct k.
  - rewrite (sc_held _ _ Hc). apply Hb.
    destruct (ctl_cases _ _ _ _ Hs) as [c o ev' Hc'|c k x -> Hh Hr Es| -> E0 E1 E2 E3| -> E1| -> E1 E2|k x -> E0 E1 E2 E3|k x -> E0 E1 E2 E3|k x o -> _ _ Er' _| -> E0 E1 E2 E3 E4|b E0 E1 E2 E3|E1 E2 E3]; try congruence.
    + pose proof (call_run _ _ _ _ _ Hc') as E. rewrite (sc_held _ _ Hc) in E. assert (d_held d = None) as Hn by (unfold call in Hc'; by destruct (d_held d)). rewrite Hn in E. destruct c; congruence.
    + pose proof (sc_held _ _ Hc) as E. unfold dstep in Hs. destruct (d_crashed d); [done|]. rewrite Hh, Hr in Hs. injection Hs as Hs _.
      destruct (returns_core c (ds_held None (set_chan k (chan_of d k ++ [x]) d))) as [[_ _ _ E'] _]. rewrite Hs, E, Hh in E'. by destruct k.
    + unfold dstep in Hs. destruct (d_crashed d); [done|]. destruct (d_run d); try done. by injection Hs as <- _.
Qed.

Lemma tool_ok_init : tool_ok (v_init 0).
Proof.
  split; [apply ground_init|by intros id|done|done|by exists [], []|done].
Qed.

Lemma tool_ok_step v l v2 ev : tool_ok v -> needs_stop l = false -> vstep v l = Some (v2, ev) ->
  tool_ok v2 /\ (d_hand (v_d v) <> HNone -> d_hand (v_d v2) <> HNone) /\ (d_crashed (v_d v) = true -> d_crashed (v_d v2) = true).
Proof.
  intros [H1 H2 H3 H4 (ls & evs & H5) H6] Hn Hs.
  assert (~ stops l) as Hst by (eapply not_stops; [|exact Hs]; intros w y Hy; by destruct (H4 _ _ Hy)).
  destruct (one_step _ _ _ _ H1 Hst H2 Hs) as [H2' _]. pose proof (ground_step _ _ _ _ H1 Hs) as H1'.
  destruct (vstep_base _ _ _ _ Hs Hn) as [E|(lb & dv & Hd & Hc & Hnc & Hw)].
  - rewrite E. split; [|done]. split; rewrite ?E; try done. by exists ls, evs.
  - destruct (calm_step _ _ _ _ H3 Hc Hd) as [H3' Hh]. split; [|split; [intros Hx; apply Hh; by left|]].
    + split; [done|done|done| |exists (ls ++ [lb]), (evs ++ dv); rewrite run_app, H5, run_one, Hd; done|by eapply block_step].
      intros w y Hy. destruct (watch_keeps _ _ _ _ Hd Hnc _ _ Hy) as [(x & Hx & -> & ->)|(c & -> & -> & ->)]; [by apply (H4 w)|]. split; [done|]. by destruct (Hw _ eq_refl) as [id ->].
    + intros Hx. unfold dstep in Hd. by rewrite Hx in Hd.
Qed.

Lemma tool_ok_on ls : forall v v2 ev, tool_ok v -> Forall (fun l => needs_stop l = false) ls -> vrun v ls = Some (v2, ev) ->
  tool_ok v2 /\ (d_hand (v_d v) <> HNone -> d_hand (v_d v2) <> HNone) /\ (d_crashed (v_d v) = true -> d_crashed (v_d v2) = true).
Proof.
  induction ls as [|l ls IH]; intros v v2 ev Hv HF Hr; cbn [run] in Hr.
  - injection Hr as <- _. done.
  - apply Forall_cons_1 in HF as [Hl HF]. destruct (vstep v l) as [[v1 e1]|] eqn:E1; [|done]. destruct (vrun v1 ls) as [[v3 e3]|] eqn:E2; [|done]. injection Hr as <- _.
    destruct (tool_ok_step _ _ _ _ Hv Hl E1) as (G1 & G2 & G3). destruct (IH _ _ _ G1 HF E2) as (K1 & K2 & K3). auto.
Qed.

Lemma stop_mono s l s2 ev : tstep s l = Some (s2, ev) -> t_stop s = true -> t_stop s2 = true.
Proof.
  intros Hs Ht. destruct (tstep_kind _ _ _ _ Hs) as [ev' _ _ _ _ ->|_ _ _ _ ->|lv ev' m _ _ _ _ _ _ _ ->|id ev' _ _ _ _ _ ->|lb i ev' _ _ _ _ _ ->|dt _ _ _ _ ->|_ _ ->|i _ _ _ _ ->]; cbn; try done. by rewrite Ht.
Qed.

(** Until the tool is stopped, no step of the collector needs it. *)
Lemma unstopped ls : forall s evs, trun t_init ls = Some (s, evs) -> t_stop s = false -> Forall (fun l => needs_stop l = false) (collecting ls).
Proof.
  induction ls as [|l ls IH] using rev_ind; intros s evs Hr Ht; [constructor|].
  apply run_snoc in Hr as (s1 & ev1 & ev2 & H1 & H2 & ->). assert (t_stop s1 = false) as Ht1 by (destruct (t_stop s1) eqn:E; [by rewrite (stop_mono _ _ _ _ H2 E) in Ht|done]).
  unfold collecting. rewrite omap_app. apply Forall_app. split; [by eapply IH|].
  destruct (tstep_kind _ _ _ _ H2) as [ev' -> _ _ _ _| -> _ _ _ _|lv ev' m -> _ _ Hn _ _ _ _|id ev' -> _ _ _ _ _|lb i ev' -> _ _ _ _ _|dt -> _ _ _ _| -> _ _|i -> _ _ _ _]; cbn; repeat constructor.
  destruct (needs_stop lv); [|done]. rewrite Hn in Ht1; done.
Qed.

(** ** The collector alone *)

Definition vlapse (l : vlabel) : Z := match l with VIn (LDTime dt) => dt | _ => 0 end.
Definition vlapses (ls : list vlabel) : Z := foldr (fun l z => (vlapse l + z)%Z) 0%Z ls.

Lemma vlapses_app a b : vlapses (a ++ b) = (vlapses a + vlapses b)%Z.
Proof. unfold vlapses. rewrite foldr_app. induction a as [|x a IH]; cbn [foldr]; [lia|]. rewrite IH. cbn. lia. Qed.
Lemma tlapses_app a b : tlapses (a ++ b) = (tlapses a + tlapses b)%Z.
Proof. unfold tlapses. rewrite foldr_app. induction a as [|x a IH]; cbn [foldr]; [lia|]. rewrite IH. cbn. lia. Qed.

Record ready (v : vstate) : Prop := Ready {
  rd_ok : tool_ok v; rd_serving : serving v; rd_up : d_crashed (v_d v) = false }.

Lemma helps_free am l : vhelps am l -> needs_stop l = false.
Proof. by destruct l as [[]| |]. Qed.

Lemma ready_run am v ls v2 ev : ready v -> Forall (vhelps am) ls -> vrun v ls = Some (v2, ev) -> d_crashed (v_d v2) = false -> ready v2.
Proof.
  intros [H1 H2 H3] HF Hr Hc. destruct (tool_ok_on ls v v2 ev H1) as (G1 & G2 & _); [|done|].
  { eapply List.Forall_impl; [|exact HF]. apply helps_free. }
  split; [done| |done]. destruct (to_calm _ G1) as (_ & _ & Hh). assert (d_hand (v_d v) <> HNone) as Hn by (intros E; unfold serving in H2; by rewrite E in H2).
  apply G2 in Hn. unfold serving. by destruct (d_hand (v_d v2)).
Qed.

Lemma ready_busy v : ready v -> d_run (v_d v) <> RIdle.
Proof. intros [H1 H2 _] E. destruct (to_ground _ H1) as [[_ H3] _ _ _ _]. apply H3 in E. unfold serving in H2. by rewrite E in H2. Qed.

(** What handling what waits leaves as it is. *)
Lemma handling_step v l v2 ev : handling l -> vstep v l = Some (v2, ev) ->
  d_map (v_d v2) = d_map (v_d v) /\ d_crashed (v_d v2) = d_crashed (v_d v) /\ (forall b, d_run (v_d v2) = RObserve b -> d_run (v_d v) = RObserve b).
Proof.
  intros Hl Hs. destruct l as [lb|k|]; cbn [handling] in Hl.
  - destruct lb; try done. unfold vstep in Hs. cbn [inside] in Hs. unfold dstep in Hs. destruct (d_crashed (v_d v)) eqn:Ec; [done|]. destruct (d_held (v_d v)) as [[[c k] x]|]; [|done].
    destruct (roomy (v_d v) k); [|done]. injection Hs as <- <-. cbn [v_d]. destruct (unblock_ctl c k x (v_d v)) as (_ & Er & _). cbv zeta in Er. rewrite Er.
    destruct (returns_core c (ds_held None (set_chan k (chan_of (v_d v) k ++ [x]) (v_d v)))) as ([Em _ _ _] & _ & Ecr & _). rewrite Em, Ecr.
    split; [by destruct k|]. split; [by destruct k|]. intros b. by destruct c.
  - unfold vstep, dstep in Hs. destruct (d_crashed (v_d v)) eqn:Ec; [done|]. destruct (d_hand (v_d v)); try done. destruct (chan_of (v_d v) k) eqn:Eq; [done|]. injection Hs as <- <-. cbn [v_d]. by destruct k.
  - unfold vstep, body, dstep in Hs. destruct (d_hand (v_d v)) as [| |[] x| | |] eqn:Eh; try done; destruct (v_at v); try done;
      destruct (d_crashed (v_d v)) eqn:Ec; try done; try (by injection Hs as <- <-).
    destruct (d_held (v_d v)); [done|]. destruct (d_map (v_d v) !! _) eqn:Em; by injection Hs as <- <-.
Qed.
Lemma handling_run ls : forall v v2 ev, Forall handling ls -> vrun v ls = Some (v2, ev) ->
  d_map (v_d v2) = d_map (v_d v) /\ d_crashed (v_d v2) = d_crashed (v_d v) /\ (forall b, d_run (v_d v2) = RObserve b -> d_run (v_d v) = RObserve b).
Proof.
  induction ls as [|l ls IH]; intros v v2 ev HF Hr; cbn [run] in Hr.
  - injection Hr as <- _. done.
  - apply Forall_cons_1 in HF as [Hl HF]. destruct (vstep v l) as [[v1 e1]|] eqn:E1; [|done]. destruct (vrun v1 ls) as [[v3 e3]|] eqn:E2; [|done]. injection Hr as <- _.
    destruct (handling_step _ _ _ _ Hl E1) as (A1 & A2 & A3). destruct (IH _ _ _ HF E2) as (B1 & B2 & B3). rewrite B1, B2. auto.
Qed.
Lemma handling_helps am l : handling l -> vhelps am l /\ vlapse l = 0%Z.
Proof. by destruct l as [[]| |]. Qed.
Lemma handling_all am ls : Forall handling ls -> Forall (vhelps am) ls /\ vlapses ls = 0%Z.
Proof. induction 1 as [|l ls Hl HF [H1 H2]]; [done|]. destruct (handling_helps am _ Hl) as [G1 G2]. split; [by constructor|]. unfold vlapses in *. cbn [foldr]. lia. Qed.

(** Within [t] it can come to a state such that. *)
Definition reach (am : amqp_msg) (t : Z) (v : vstate) (P : vstate -> Prop) : Prop :=
  exists ls v2 ev, Forall (vhelps am) ls /\ (0 <= vlapses ls <= t)%Z /\ vrun v ls = Some (v2, ev) /\ ready v2 /\ P v2.

Lemma reach_then am t u v (P Q : vstate -> Prop) : reach am t v P -> (forall v2, ready v2 -> P v2 -> reach am u v2 Q) -> reach am (t + u) v Q.
Proof.
  intros (ls & v2 & ev & HF & Ht & Hr & Hv & HP) Hn. destruct (Hn _ Hv HP) as (ls' & v3 & ev' & HF' & Ht' & Hr' & Hv' & HQ).
  exists (ls ++ ls'), v3, (ev ++ ev'). split; [by apply Forall_app|]. split; [rewrite vlapses_app; lia|]. split; [by rewrite run_app, Hr, Hr'|done].
Qed.

Lemma reach_quiet am v : ready v -> ~ stuck v ->
  reach am 0 v (fun v2 => quiet v2 /\ d_map (v_d v2) = d_map (v_d v) /\ (d_run (v_d v2) = RNext \/ exists b, d_run (v_d v2) = RObserve b /\ d_run (v_d v) = RObserve b)).
Proof.
  intros Hv Hn. pose proof Hv as [H1 H2 H3].
  destruct (vdrain v (to_ground _ H1) H2 H3 Hn (ready_busy _ Hv)) as (ls & v2 & ev & HF & Hr & Hq).
  destruct (handling_run _ _ _ _ HF Hr) as (Em & Ec & Eb). destruct (handling_all am _ HF) as [Hh Hz].
  assert (ready v2) as Hv2 by (eapply ready_run; [exact Hv|exact Hh|exact Hr|congruence]).
  exists ls, v2, ev. split; [done|]. split; [lia|]. split; [done|]. split; [done|]. split; [done|]. split; [done|].
  destruct (d_run (v_d v2)) as [| |b| |] eqn:Er; [by destruct (ready_busy _ Hv2)|by left|right; eauto| |].
  - destruct (to_block _ (rd_ok _ Hv2) Er) as (k & x & Hx). destruct Hq as (_ & Hd & _). congruence.
  - destruct (to_calm _ (rd_ok _ Hv2)) as (_ & Hd & _). congruence.
Qed.

Lemma observe_step v b : quiet v -> d_crashed (v_d v) = false -> d_run (v_d v) = RObserve b ->
  exists v2 ev, vstep v (VIn LObserve) = Some (v2, ev) /\ d_run (v_d v2) = RNext /\ d_crashed (v_d v2) = false /\ d_held (v_d v2) = None.
Proof.
  intros (Hh & Hhe & Hd & Hf) Hc Hr. unfold vstep. cbn [inside]. unfold dstep. rewrite Hc, Hr. unfold call. rewrite Hhe. cbn [effect].
  destruct (d_map (v_d v) !! bc_identity b) as [x|].
  - eexists _, _. split; [reflexivity|]. done.
  - unfold roomy. cbn [chan_of]. rewrite Hd. eexists _, _. split; [reflexivity|]. done.
Qed.

Lemma unheld_free v : d_held (v_d v) = None -> ~ stuck v.
Proof. intros H ((c & k & x & Hx & _) & _). congruence. Qed.

(** It comes to wait for the next message with nothing left to do. *)
Definition idle (v : vstate) : Prop := quiet v /\ d_run (v_d v) = RNext.

Lemma reach_idle am v : ready v -> ~ stuck v -> reach am 0 v idle.
Proof.
  intros Hv Hn. apply (reach_then am 0 0 v _ _ (reach_quiet am v Hv Hn)). intros v2 Hv2 (Hq & _ & [Hr|(b & Hr & _)]).
  - exists [], v2, []. split; [constructor|]. split; [cbn; lia|]. done.
  - destruct (observe_step _ _ Hq (rd_up _ Hv2) Hr) as (v3 & ev & Hs & Hr3 & Hc3 & Hh3).
    apply (reach_then am 0 0 v2 (fun v3 => d_run (v_d v3) = RNext /\ d_held (v_d v3) = None)).
    + exists [VIn LObserve], v3, ev. assert (vrun v2 [VIn LObserve] = Some (v3, ev)) as Hr1 by (by rewrite run_one, Hs). split; [by repeat constructor|]. split; [cbn; lia|]. split; [done|].
      split; [eapply (ready_run am); [exact Hv2| |exact Hr1|done]; by repeat constructor|done].
    + intros v4 Hv4 [Hr4 Hh4]. destruct (reach_quiet am v4 Hv4 (unheld_free _ Hh4)) as (ls & v5 & ev5 & HF & Ht & Hrun & Hv5 & Hq5 & _ & Hb).
      exists ls, v5, ev5. split; [done|]. split; [done|]. split; [done|]. split; [done|]. split; [done|]. destruct Hb as [Hb|(b' & _ & Hb)]; [done|congruence].
Qed.

(** The steps of a watch are steps of the collector. *)
Lemma in_run w a src ls : forall d d2 ev, Forall (silently w) ls -> drun d ls = Some (d2, ev) -> vrun (VState d a src) (VIn <$> ls) = Some (VState d2 a src, VD <$> ev).
Proof.
  induction ls as [|l ls IH]; intros d d2 ev HF Hr; cbn [run] in Hr.
  - by injection Hr as <- <-.
  - apply Forall_cons_1 in HF as [Hl HF]. destruct (dstep d l) as [[d1 e1]|] eqn:E1; [|done]. destruct (drun d1 ls) as [[d3 e3]|] eqn:E2; [|done]. injection Hr as <- <-.
    cbn [fmap list_fmap run]. assert (inside l = true) as Hi by (by destruct l). unfold vstep at 1. rewrite Hi. cbn [v_d v_at v_src]. rewrite E1. change (list_fmap _ _ VIn ls) with (VIn <$> ls). rewrite (IH _ _ _ HF E2). by rewrite fmap_app.
Qed.
Lemma in_helps am w ls : Forall (silently w) ls -> Forall (vhelps am) (VIn <$> ls) /\ vlapses (VIn <$> ls) = lapses ls.
Proof.
  induction 1 as [|l ls Hl HF [H1 H2]]; [by split; [constructor|]|]. split; [constructor; [by destruct l|done]|]. unfold vlapses, lapses in *. cbn [fmap list_fmap foldr]. rewrite <- H2. done.
Qed.

Lemma lives_one id ws : lives id ws <> 0 -> exists w y, ws !! w = Some y /\ w_id (wt_cfg y) = id /\ live (wt_pc y) = true.
Proof.
  unfold lives. intros H. destruct (List.filter (guards id) ws) as [|y l] eqn:E; [done|]. assert (In y (List.filter (guards id) ws)) as Hy by (rewrite E; by left).
  apply filter_In in Hy as [Hy Hg]. apply elem_of_list_In, elem_of_list_lookup in Hy as [w Hw]. unfold guards in Hg. apply andb_true_iff in Hg as [H1 H2]. apply bool_decide_eq_true in H1. eauto.
Qed.

(** A source that stays silent becomes unknown. *)
Lemma reach_unknown am v id : ready v -> idle v -> reach am 60000000000 v (fun v2 => idle v2 /\ d_map (v_d v2) !! id = None).
Proof.
  intros Hv [Hq Hr]. destruct (d_map (v_d v) !! id) as [z|] eqn:Ez; [|exists [], v, []; split; [constructor|]; split; [cbn; lia|]; done].
  destruct Hv as [Hok Hsv Hc]. pose proof (to_one _ Hok id) as H1. rewrite Ez in H1. destruct Hq as (Q1 & Q2 & Q3 & Q4).
  unfold waiting, unwatched in H1. cbn [chan_of] in H1. rewrite Q3, Q2, Q1 in H1. cbn in H1.
  destruct (lives_one id (d_watches (v_d v))) as (w & y & Hy & Hid & Hl); [lia|]. destruct (to_watch _ Hok _ _ Hy) as [_ Hcfg]. rewrite Hid in Hcfg.
  destruct (to_run _ Hok) as (ls0 & evs0 & Hr0).
  destruct (silent_forgets 0 ls0 (v_d v) evs0 w y id 30000000000 Hr0 Hy) as (ls & d' & ev & x & HF & Ht & Hd & Em & _ & Ed & Ef & Ehe & Er & Eh & Ec); try done; [by destruct (wt_pc y)|].
  destruct v as [d a src]. cbn [v_d] in *. pose proof (in_run w a src _ _ _ _ HF Hd) as Hrun. destruct (in_helps am _ _ HF) as [HF' Hz].
  apply (reach_then am 60000000000 0 _ (fun v2 => d_map (v_d v2) !! id = None /\ d_held (v_d v2) = None /\ d_run (v_d v2) = RNext)).
  - eexists _, _, _. split; [exact HF'|]. split; [lia|]. split; [exact Hrun|]. split; [eapply ready_run; [by split|exact HF'|exact Hrun|done]|]. cbn [v_d]. split; [done|]. split; [done|congruence].
  - intros v4 Hv4 (Hm4 & Hh4 & Hr4). destruct (reach_quiet am v4 Hv4 (unheld_free _ Hh4)) as (l4 & v5 & ev5 & HF5 & Ht5 & Hr5 & Hv5 & Hq5 & Em5 & Hb).
    exists l4, v5, ev5. split; [done|]. split; [done|]. split; [done|]. split; [done|]. split; [split; [done|]|congruence]. destruct Hb as [Hb|(b' & _ & Hb)]; [done|congruence].
Qed.

(** It takes the beacon. *)
Lemma reach_taken am b v : announces am b -> ready v -> idle v -> d_map (v_d v) !! bc_identity b = None ->
  reach am 0 v (fun v2 => d_hand (v_d v2) = HSelect /\ d_held (v_d v2) = None /\ d_disc (v_d v2) = [of_beacon b (d_now (v_d v2))] /\ is_Some (d_map (v_d v2) !! bc_identity b)).
Proof.
  intros ((p & Hp & Hsub) & Hdec) Hv [Hq Hr] Hm. pose proof Hv as [_ _ Hc]. destruct v as [d a src]. cbn [v_d] in *. destruct Hq as (Q1 & Q2 & Q3 & Q4). cbn [v_d] in *.
  assert (vstep (VState d a src) (VIn (LRunMsg am)) = Some (VState (ds_run (RObserve b) d) a src, [])) as S1.
  { unfold vstep. cbn [inside v_d v_at v_src]. unfold dstep. rewrite Hc, Hr. unfold run_msg. rewrite Hp, Hsub. change (bool_decide ("BEACON"%string = beacon_subject)) with true. cbn iota. by rewrite Hdec. }
  set (x := of_beacon b (d_now d)).
  assert (vstep (VState (ds_run (RObserve b) d) a src) (VIn LObserve) =
    Some (VState (ds_run RNext (set_chan Disc [x] (ds_map (<[bc_identity b := x]> (d_map d)) (ds_run (RObserve b) d)))) a src, [VD (DOp ByRun (OObserve b) RUnit); VD (DRet ByRun)])) as S2.
  { unfold vstep. cbn [inside v_d v_at v_src]. unfold dstep. cbn [d_crashed ds_run d_run]. rewrite Hc. unfold call. cbn [d_held d_now d_map ds_run]. rewrite Q2. cbn [effect]. rewrite Hm.
    unfold roomy. cbn [chan_of d_disc ds_run]. rewrite Q3. reflexivity. }
  eexists [VIn (LRunMsg am); VIn LObserve], _, _. split; [by repeat constructor|]. split; [cbn; lia|].
  assert (vrun (VState d a src) [VIn (LRunMsg am); VIn LObserve] = Some (VState (ds_run RNext (set_chan Disc [x] (ds_map (<[bc_identity b := x]> (d_map d)) (ds_run (RObserve b) d)))) a src, [VD (DOp ByRun (OObserve b) RUnit); VD (DRet ByRun)])) as Hrun.
  { cbn [run]. rewrite S1, S2. reflexivity. }
  split; [exact Hrun|]. split; [eapply (ready_run am); [exact Hv| |exact Hrun|done]; by repeat constructor|].
  cbn [v_d ds_run set_chan ds_map ds_chans d_hand d_held d_disc d_map d_now]. split; [done|]. split; [done|]. split; [done|]. by rewrite lookup_insert.
Qed.

(** ** The tool *)

Record up (s : tstate) (evs : list tev) : Prop := Up { up_inv : tinv s evs; up_reg : t_reg s = true; up_stop : t_stop s = false }.

Lemma up_step am s evs l s2 ev : up s evs -> helps am l -> tstep s l = Some (s2, ev) -> up s2 (evs ++ ev).
Proof.
  intros [H1 H2 H3] Hl Hs. split; [by eapply tinv_step| |];
    destruct (tstep_kind _ _ _ _ Hs) as [ev' -> _ _ _ _| -> _ _ _ _|lv ev' m -> _ _ Hn _ _ _ ->|id ev' -> _ _ _ _ ->|lb i ev' -> Hi _ Hb _ ->|dt -> _ _ _ ->| -> _ _|i -> _ _ _ _]; try done; cbn [t_reg t_stop].
  rewrite H3. destruct lb as [| |j| | |]; try done. unfold tool_step in Hb. cbn [step] in Hb. destruct (s_phase (t_b s) j); try done. injection Hb as _ <-. unfold on_errors. cbn [existsb]. by rewrite andb_false_r.
Qed.

Lemma make_step s evs id : up s evs -> about_to_watch (t_v s) = Some id -> t_made s = false ->
  exists b2, tstep s TMake = Some (TState (t_v s) b2 (t_up s) (t_reg s) (t_of s ++ [id]) true (t_stop s) (t_ended s), [TMade (S (length (t_of s))) id]) /\
    s_phase b2 (S (length (t_of s))) = PTrying.
Proof.
  intros [H1 _ _] Ha Hm. assert (s_phase (t_b s) (S (length (t_of s))) = PNew) as Hp by (apply (ti_new _ _ H1); right; lia).
  unfold tstep. rewrite Ha, Hm. unfold tool_step. cbn [step]. rewrite Hp. eexists. split; [reflexivity|]. cbn [s_phase]. by rewrite fn_lookup_insert.
Qed.

Lemma lift am ls : forall s evs v2 ev, up s evs -> Forall (vhelps am) ls -> vrun (t_v s) ls = Some (v2, ev) ->
  exists tls s2 tev, Forall (helps am) tls /\ tlapses tls = vlapses ls /\ trun s tls = Some (s2, tev) /\ t_v s2 = v2 /\ up s2 (evs ++ tev).
Proof.
  induction ls as [|l ls IH]; intros s evs v2 ev Hu HF Hr; cbn [run] in Hr.
  - injection Hr as <- _. exists [], s, []. split; [constructor|]. split; [done|]. split; [done|]. split; [done|]. by rewrite app_nil_r.
  - apply Forall_cons_1 in HF as [Hl HF]. destruct (vstep (t_v s) l) as [[v1 e1]|] eqn:E1; [|done]. destruct (vrun v1 ls) as [[v3 e3]|] eqn:E2; [|done]. injection Hr as <- _.
    assert (exists tl s1 te, Forall (helps am) tl /\ tlapses tl = vlapse l /\ trun s tl = Some (s1, te) /\ t_v s1 = v1 /\ up s1 (evs ++ te)) as (tl & s1 & te & A1 & A2 & A3 & A4 & A5).
    { assert (forall s evs m, up s evs -> vstep (t_v s) l = Some (v1, e1) -> passes_time l = false -> (l = VBody -> is_Some (about_to_watch (t_v s)) -> t_made s = true) ->
        m = (match l, about_to_watch (t_v s) with VBody, Some _ => false | _, _ => t_made s end) ->
        tstep s (TColl l) = Some (TState v1 (t_b s) (t_up s) (t_reg s) (t_of s) m (t_stop s) (t_ended s), TV <$> e1)) as Hgo.
      { clear s evs Hu E1. intros s evs m Hu E1 Hp Hb ->. unfold tstep. rewrite (up_reg _ _ Hu), Hp, (helps_free _ _ Hl), orb_true_r. cbn [andb negb].
        destruct l; try (by rewrite E1). destruct (about_to_watch (t_v s)) eqn:Ea; [|by rewrite E1]. rewrite Hb by done. by rewrite E1. }
      destruct (passes_time l) eqn:Hp.
      - destruct l as [lb| |]; try done. destruct lb; try done. exists [TTime dt].
        assert (exists b, tool_step (t_b s) (Tick dt) = Some (b, [])) as [b Hb].
        { unfold vstep in E1. cbn [inside] in E1. unfold dstep in E1. destruct (d_crashed _); [done|]. unfold tool_step. cbn [step]. destruct (0 <=? dt)%Z; [eauto|done]. }
        assert (tstep s (TTime dt) = Some (TState v1 b (t_up s) (t_reg s) (t_of s) (t_made s) (t_stop s) (t_ended s), [])) as Hs by (unfold tstep; by rewrite Hb, E1).
        eexists _, _. split; [by repeat constructor|]. split; [cbn; lia|]. split; [by rewrite run_one, Hs|]. split; [done|]. by eapply (up_step am); [exact Hu| |exact Hs].
      - assert (vlapse l = 0%Z) as Hz by (by destruct l as [[]| |]). rewrite Hz.
        assert ((l = VBody /\ is_Some (about_to_watch (t_v s)) /\ t_made s = false) \/ (l = VBody -> is_Some (about_to_watch (t_v s)) -> t_made s = true)) as [(-> & [id Ha] & Hm)|Hb].
        { destruct l; try (by right). destruct (about_to_watch (t_v s)); [|right; by intros _ [? ?]]. destruct (t_made s); [by right|left; eauto]. }
        + destruct (make_step _ _ _ Hu Ha Hm) as (b2 & Hs & _). pose proof (up_step am _ _ TMake _ _ Hu I Hs) as Hu2.
          pose proof (Hgo _ _ _ Hu2 E1 eq_refl (fun _ _ => eq_refl) eq_refl) as Hs2. eexists [TMake; TColl VBody], _, _. split; [by repeat constructor|]. split; [done|].
          split; [cbn [run]; rewrite Hs, Hs2; reflexivity|]. split; [done|]. rewrite app_nil_r. rewrite app_assoc. eapply (up_step am); [exact Hu2| |exact Hs2]. done.
        + pose proof (Hgo _ _ _ Hu E1 eq_refl Hb eq_refl) as Hs2. eexists [TColl l], _, _. split; [by repeat constructor|]. split; [done|]. split; [by rewrite run_one, Hs2|]. split; [done|].
          eapply (up_step am); [exact Hu| |exact Hs2]. done. }
    subst v1. destruct (IH _ _ _ _ A5 HF E2) as (tls & s2 & tev & B1 & B2 & B3 & B4 & B5).
    exists (tl ++ tls), s2, (te ++ tev). split; [by apply Forall_app|]. split; [rewrite tlapses_app; unfold vlapses in *; cbn [foldr]; lia|]. split; [by rewrite run_app, A3, B3|]. split; [done|]. by rewrite app_assoc.
Qed.

Lemma coll_reg l ls s evs : trun t_init ls = Some (s, evs) -> TColl l ∈ ls -> t_reg s = true.
Proof.
  intros Hr. revert s evs Hr. induction ls as [|l' ls IH] using rev_ind; intros s evs Hr; [intros H; by apply elem_of_nil in H|].
  apply run_snoc in Hr as (s1 & ev1 & ev2 & H1 & H2 & ->). rewrite elem_of_app, elem_of_list_singleton.
  assert (t_reg s1 = true -> t_reg s = true) as Hk.
  { destruct (tstep_kind _ _ _ _ H2) as [ev' _ Eu Hb _ ->| _ Eu Er _ ->|lv ev' m _ Er _ Hst Hv' _ Hmm ->|id ev' _ Ea Em Hb _ ->|lb i ev' _ Ha Hi Hb _ ->|dt _ Hb Hv' _ ->| _ _ ->|i _ Es Hrun _ ->]; done. }
  intros [H|<-]; [by apply Hk, (IH _ _ H1)|]. apply Hk. unfold tstep in H2. by destruct (t_reg s1).
Qed.

Lemma start_up ls s evs : trun t_init ls = Some (s, evs) -> TStops ∉ evs -> TColl (VIn LRun) ∈ ls -> d_crashed (v_d (t_v s)) = false -> up s evs /\ ready (t_v s).
Proof.
  intros Hr Hst Hin Hc. pose proof (tinv_run _ _ _ Hr) as Hi.
  assert (t_stop s = false) as Ht by (destruct (t_stop s) eqn:E; [by apply (ti_stop _ _ Hi) in E|done]).
  split; [split; [done|by eapply coll_reg|done]|].
  pose proof (collecting_run _ _ _ _ Hr) as Hv. pose proof (unstopped _ _ _ Hr Ht) as HF. change (t_v t_init) with (v_init 0) in Hv.
  destruct (tool_ok_on _ _ _ _ tool_ok_init HF Hv) as (Hok & _ & _). split; [done| |done].
  destruct (serving_run _ _ _ _ Hv) as [Hs _]; [|..|done].
  - eapply List.Forall_impl; [|exact HF]. intros l Hn He. by destruct l as [[]| |].
  - apply elem_of_list_omap. eexists. split; [exact Hin|done].
Qed.

Lemma body_watch d x : d_crashed d = false -> d_held d = None -> d_hand d = HRunning Disc x -> is_Some (d_map d !! i_id (ds_info x)) ->
  forall src, exists d1 w, vstep (VState d HFresh src) VBody = Some (VState d1 HGot src, [VD (DWatch w (i_id (ds_info x)))]) /\
    d_crashed d1 = false /\ d_hand d1 = HRunning Disc x /\ d_map d1 = d_map d.
Proof.
  intros Hc Hhe Hh [z Hz] src. unfold vstep, body. cbn [v_d v_at v_src]. rewrite Hh. unfold dstep. rewrite Hc, Hhe. cbn [tool_watch w_id]. rewrite Hz.
  eexists _, _. split; [reflexivity|]. done.
Qed.

Lemma recovers ls s evs am b : trun t_init ls = Some (s, evs) -> TStops ∉ evs -> TColl (VIn LRun) ∈ ls -> d_crashed (v_d (t_v s)) = false -> ~ stuck (t_v s) -> announces am b ->
  exists ls' s' evs' i, Forall (helps am) ls' /\ (tlapses ls' <= 60000000000)%Z /\ trun s ls' = Some (s', evs') /\
    TMade i (bc_identity b) ∈ evs' /\ connected s' i /\ is_known (t_v s') (bc_identity b) /\
    v_src (t_v s') !! bc_identity b = Some (Info (bc_identity b) (Z.of_N (bc_version b)) (bc_source_type b) (bc_address b) (bc_direct b)).
Proof.
  intros Hr Hst Hin Hc Hns Ha. destruct (start_up _ _ _ Hr Hst Hin Hc) as [Hu Hv].
  assert (reach am (0 + (60000000000 + 0)) (t_v s) (fun v2 => d_hand (v_d v2) = HSelect /\ d_held (v_d v2) = None /\ d_disc (v_d v2) = [of_beacon b (d_now (v_d v2))] /\ is_Some (d_map (v_d v2) !! bc_identity b)))
    as (lv & v & ev & HF & Ht & Hrun & Hrv & Hh & Hhe & Hd & Hk).
  { eapply reach_then; [by apply reach_idle|]. intros v2 Hv2 Hi2. eapply reach_then; [by apply (reach_unknown am v2 (bc_identity b))|]. intros v3 Hv3 [Hi3 Hm3]. by apply reach_taken. }
  destruct (lift am _ _ _ _ _ Hu HF Hrun) as (tls & s1 & tev & HFt & Hz & Hrt & Ev & Hu1). rewrite <- Ev in *. clear v Ev. pose proof Hrv as [_ _ Hc1].
  set (x := of_beacon b (d_now (v_d (t_v s1)))) in *. set (id := bc_identity b) in *.
  assert (about_to_watch (t_v s1) = None) as Hab by (unfold about_to_watch; by rewrite Hh). pose proof (ti_made _ _ (up_inv _ _ Hu1) Hab) as Hmade.
  destruct s1 as [v1 b1 up1 reg1 of1 made1 stop1 end1]. destruct v1 as [d1 a1 src1]. cbn [t_v v_d t_made] in *. subst made1.
  destruct Hu1 as [Hinv Hreg Hstop]. cbn [t_reg t_stop] in Hreg, Hstop. subst reg1 stop1.
  assert (end1 = []) as -> by (pose proof (ti_stopped _ _ Hinv) as Hs; cbn [t_ended t_stop] in Hs; destruct end1; [done|]; by specialize (Hs ltac:(done))).
  (* the handler takes the notification *)
  set (d2 := ds_hand (HRunning Disc x) (set_chan Disc [] d1)).
  assert (tstep (TState (VState d1 a1 src1) b1 up1 true of1 false false []) (TColl (VTake Disc)) = Some (TState (VState d2 HFresh src1) b1 up1 true of1 false false [], [TV (VD (DHandle Disc x))])) as S1.
  { cbn [tstep t_reg passes_time needs_stop t_stop andb orb negb t_v]. rewrite (take_step (VState d1 a1 src1) Disc x []) by done. reflexivity. }
  assert (up (TState (VState d1 a1 src1) b1 up1 true of1 false false []) (evs ++ tev)) as Hu1 by (by split).
  pose proof (up_step am _ _ (TColl (VTake Disc)) _ _ Hu1 I S1) as Hu2.
  (* it makes the container *)
  destruct (make_step _ _ id Hu2 eq_refl eq_refl) as (b2 & S2 & Hp2). cbn [t_v t_up t_reg t_of t_stop t_ended] in S2, Hp2.
  (* it watches the source, lists it and returns *)
  destruct (body_watch d2 x Hc1 Hhe eq_refl Hk src1) as (d3 & w & V3 & Hc3 & Hh3 & Em3).
  set (i := S (length of1)) in *.
  assert (tstep (TState (VState d2 HFresh src1) b2 up1 true (of1 ++ [id]) true false []) (TColl VBody) = Some (TState (VState d3 HGot src1) b2 up1 true (of1 ++ [id]) false false [], [TV (VD (DWatch w id))])) as S3.
  { cbn [tstep t_reg passes_time needs_stop t_stop andb orb negb t_v]. change (about_to_watch (VState d2 HFresh src1)) with (Some id). cbn iota. cbn [t_made]. rewrite V3. reflexivity. }
  set (v4 := VState d3 HFin (<[id := ds_info x]> src1)).
  assert (tstep (TState (VState d3 HGot src1) b2 up1 true (of1 ++ [id]) false false []) (TColl VBody) = Some (TState v4 b2 up1 true (of1 ++ [id]) false false [], [TV (VListed id)])) as S4.
  { cbn [tstep t_reg passes_time needs_stop t_stop andb orb negb t_v]. unfold about_to_watch, vstep, body. cbn [v_d v_at v_src]. rewrite Hh3. reflexivity. }
  set (v5 := VState (ds_hand HSelect d3) HFresh (<[id := ds_info x]> src1)).
  assert (tstep (TState v4 b2 up1 true (of1 ++ [id]) false false []) (TColl VBody) = Some (TState v5 b2 up1 true (of1 ++ [id]) false false [], [TV (VD DHandled)])) as S5.
  { cbn [tstep t_reg passes_time needs_stop t_stop andb orb negb t_v]. unfold about_to_watch, vstep, body, v4. cbn [v_d v_at v_src]. rewrite Hh3. unfold dstep. rewrite Hc3, Hh3. reflexivity. }
  (* the container connects *)
  set (b3 := St (s_now b2) (s_bo b2) (<[i := PUp]> (s_phase b2))).
  assert (tstep (TState v5 b2 up1 true (of1 ++ [id]) false false []) (TNet (Connected i)) = Some (TState v5 b3 up1 true (of1 ++ [id]) false false [], [])) as S6.
  { cbn [tstep acts t_ended t_b]. rewrite bool_decide_eq_false_2 by (apply not_elem_of_nil). unfold tool_step. cbn [step]. rewrite Hp2. reflexivity. }
  exists (tls ++ [TColl (VTake Disc); TMake; TColl VBody; TColl VBody; TColl VBody; TNet (Connected i)]), (TState v5 b3 up1 true (of1 ++ [id]) false false []),
    (tev ++ [TV (VD (DHandle Disc x)); TMade i id; TV (VD (DWatch w id)); TV (VListed id); TV (VD DHandled)]), i.
  split; [apply Forall_app; split; [done|]; by repeat constructor|]. split; [rewrite tlapses_app; cbn; lia|].
  split. { rewrite run_app, Hrt. cbn [run]. rewrite S1. rewrite S2. rewrite S3. rewrite S4. rewrite S5. rewrite S6. reflexivity. }
  split; [apply elem_of_app; right; right; left|]. split.
  { split; [|apply not_elem_of_nil]. cbn [t_b b3 s_phase]. by rewrite fn_lookup_insert. }
  split; [unfold is_known; cbn [t_v v5 v_d ds_hand d_map]; by rewrite Em3|]. cbn [t_v v5 v_src]. by rewrite lookup_insert.
Qed.

(** ** Not before it was forgotten *)

(** The source is known, its discovery was handled and its connection made. *)
Record settled (s : tstate) (id : string) : Prop := Settled {
  se_known : is_known (t_v s) id; se_disc : ~ waits Disc (t_v s) id; se_made : about_to_watch (t_v s) = Some id -> t_made s = true }.

Lemma settled_coll s lv s2 id ev m : tool_ok (t_v s) -> needs_stop lv = false -> settled s id -> vstep (t_v s) lv = Some (t_v s2, ev) ->
  (lv = VBody /\ is_Some (about_to_watch (t_v s)) /\ t_made s = true /\ m = false \/ (lv = VBody -> about_to_watch (t_v s) = None) /\ m = t_made s) -> t_made s2 = m ->
  (forall e, e ∈ TV <$> ev -> ~ forgot id e) -> settled s2 id.
Proof.
  intros Hok Hn [Hk Hd Hm] Hs Hmm Em Hno. pose proof (to_ground _ Hok) as Hg.
  assert (~ stops lv) as Hst by (eapply not_stops; [|exact Hs]; intros w y Hy; by destruct (to_watch _ Hok _ _ Hy)).
  assert (is_known (t_v s2) id /\ ~ waits Disc (t_v s2) id) as [Hk2 Hd2].
  { destruct (vstep_shape _ _ _ _ Hg Hst Hs) as [dv Hsh _ _ _ ->|k x E1 E2 E3 E4 E5 E6 E7 E8 ->|x E1 E2 E3 E4 E5 E6 _ ->|x E1 E2 E3 E4 E5 E6 ->|x E1 E2 E3 E4 E5 ->|x E1 E2 E3 E4 E5 ->|k x E1 E2 E3 E4 ->].
    - destruct Hsh as [Em' Hw _ _|b x Ex En Em' Ew1 Ew2 Ewt _|w y x Ey Ep Ex Em' Ew1 Ew2 Hl Hin|w y Ey Ep Ex Em' Hw Hl]; unfold is_known in *.
      + split; [destruct Em' as [->|(j & n & -> & _)]; [done|]; destruct (decide (j = id)) as [->|]; [by rewrite lookup_insert|by rewrite lookup_insert_ne]|]. by rewrite (waits_same _ _ _ _ (Hw Disc)).
      + split; [rewrite Em'; destruct (decide (i_id (ds_info x) = id)) as [->|]; [by rewrite lookup_insert|by rewrite lookup_insert_ne]|].
        unfold waits in *. rewrite Ew1, count_app, count_cons. rewrite bool_decide_eq_false_2; [change (count_id id []) with 0; intros Hx; apply Hd; lia|]. intros E. rewrite E in En. rewrite En in Hk. by destruct Hk.
      + assert (w_id (wt_cfg y) <> id) as Hne. { intros E. apply (Hno (TV (VD (DOp (ByWatch w) (OForget (w_id (wt_cfg y))) (RBool true))))); [|exists w; by rewrite E]. apply elem_of_list_fmap. eexists. split; [done|]. apply elem_of_list_fmap. eauto. }
        split; [by rewrite Em', lookup_delete_ne|]. by rewrite (waits_same _ _ _ _ Ew2).
      + split; [by rewrite Em'|]. by rewrite (waits_same _ _ _ _ (Hw Disc)).
    - unfold is_known, waits in *. rewrite E5. split; [done|]. destruct k; [|by rewrite E8]. rewrite E7, count_cons in Hd. intros Hx. apply Hd. lia.
    - unfold is_known, waits, waiting in *. rewrite E6. done.
    - unfold is_known, waits, waiting in *. rewrite E6. done.
    - unfold is_known, waits, waiting in *. rewrite E5. done.
    - unfold is_known, waits, waiting in *. rewrite E5. done.
    - unfold is_known, waits, waiting in *. rewrite E4. done. }
  split; [done|done|]. intros Ha2. destruct (about_step _ _ _ _ Hg Hs) as [(-> & _ & Ha & _)|[(id' & -> & _ & Ha & Ht)|(Hb & Ha & _)]]; [congruence| |].
  - exfalso. assert (id' = id) as -> by congruence. unfold vstep, dstep in Hs. destruct (d_crashed (v_d (t_v s))); [done|]. destruct (d_hand (v_d (t_v s))); try done.
    destruct (chan_of (v_d (t_v s)) Disc) as [|x q] eqn:Eq; [done|]. injection Hs as _ <-. unfold takes in Ht. cbn in Ht. injection Ht as E.
    apply Hd. unfold waits, waiting. rewrite Eq. cbn [fmap list_fmap app]. rewrite count_cons, bool_decide_true by done. lia.
  - rewrite Em. destruct Hmm as [(-> & [? Hx] & _)|[_ ->]]; [|apply Hm; congruence]. rewrite (Hb eq_refl) in Hx. done.
Qed.

Lemma settled_step s l s2 id ev : tool_ok (t_v s) -> t_stop s = false -> settled s id -> tstep s l = Some (s2, ev) -> (forall e, e ∈ ev -> ~ forgot id e) -> settled s2 id.
Proof.
  intros Hok Hst Hse Hs Hno.
  destruct (tstep_kind _ _ _ _ Hs) as [ev' _ _ _ _ ->|_ _ _ _ ->|lv ev' m _ _ _ Hn Hv -> Hm E|id' ev' _ Ha Hm _ _ ->|lb i ev' _ _ _ _ _ ->|dt _ _ Hv _ E|_ _ ->|i _ _ _ _ ->];
    try (destruct Hse as [H1 H2 H3]; by split).
  - eapply settled_coll; [exact Hok| |exact Hse|exact Hv|exact Hm|by rewrite E|done]. destruct (needs_stop lv); [|done]. by rewrite Hn in Hst.
  - eapply (settled_coll s (VIn (LDTime dt)) s2 id [] (t_made s)); try done; [by right|by rewrite E|]. intros e He. by apply elem_of_nil in He.
Qed.

Lemma split_snoc {A} (evs ev e1 e2 : list A) x : evs ++ ev = e1 ++ x :: e2 ->
  (exists e2', evs = e1 ++ x :: e2' /\ e2 = e2' ++ ev) \/ (exists e1', ev = e1' ++ x :: e2 /\ e1 = evs ++ e1').
Proof.
  intros H. apply app_eq_inv in H as [(k & -> & Hk)|(k & -> & Hk)].
  - destruct k as [|y k]; [right; exists []; cbn in Hk; rewrite Hk, !app_nil_r; done|]. injection Hk as -> ->. left. by exists k.
  - right. by exists k.
Qed.

Lemma made_when s l s2 ev e1 i id e2 : tstep s l = Some (s2, ev) -> ev = e1 ++ TMade i id :: e2 ->
  about_to_watch (t_v s) = Some id /\ t_made s = false /\ t_v s2 = t_v s /\ t_made s2 = true /\ (forall j k, TMade j k ∉ e1).
Proof.
  intros Hs E.
  destruct (tstep_kind _ _ _ _ Hs) as [ev' _ _ _ E' ->|_ _ _ E' ->|lv ev' m _ _ _ Hn Hv E' Hm _|id' ev' _ Ha Hm _ E' ->|lb j ev' _ _ _ _ E' ->|dt _ _ Hv E' _|_ E' ->|j _ _ _ E' ->]; rewrite E' in E.
  - assert (TMade i id ∈ TB <$> ev') as Hin by (rewrite E; apply elem_of_app; right; left). by apply tb_only in Hin as [? ?].
  - by destruct e1.
  - assert (TMade i id ∈ TV <$> ev') as Hin by (rewrite E; apply elem_of_app; right; left). by apply tv_only in Hin as [? ?].
  - destruct e1 as [|y e1].
    + injection E as _ -> _. split; [done|]. split; [done|]. split; [done|]. split; [done|]. intros j k Hj. by apply elem_of_nil in Hj.
    + injection E as _ E. assert (TMade i id ∈ TB <$> ev') as Hin by (rewrite E; apply elem_of_app; right; left). by apply tb_only in Hin as [? ?].
  - assert (TMade i id ∈ (TB <$> ev') ++ (if on_errors (t_reg s) ev' then [TStops] else [])) as Hin by (rewrite E; apply elem_of_app; right; left).
    apply elem_of_app in Hin as [Hin|Hin]; [by apply tb_only in Hin as [? ?]|]. destruct (on_errors _ _); [by apply elem_of_list_singleton in Hin|by apply elem_of_nil in Hin].
  - by destruct e1.
  - by destruct e1 as [|? [|]].
  - by destruct e1 as [|? [|]].
Qed.

Lemma tool_ok_run ls s evs : trun t_init ls = Some (s, evs) -> TStops ∉ evs -> tool_ok (t_v s).
Proof.
  intros Hr Hst. pose proof (tinv_run _ _ _ Hr) as Hi.
  assert (t_stop s = false) as Ht by (destruct (t_stop s) eqn:E; [by apply (ti_stop _ _ Hi) in E|done]).
  pose proof (collecting_run _ _ _ _ Hr) as Hv. pose proof (unstopped _ _ _ Hr Ht) as HF. change (t_v t_init) with (v_init 0) in Hv.
  by destruct (tool_ok_on _ _ _ _ tool_ok_init HF Hv) as (Hok & _ & _).
Qed.

Lemma between ls : forall s evs, trun t_init ls = Some (s, evs) -> TStops ∉ evs -> forall id,
  (forall e1 i e2, evs = e1 ++ TMade i id :: e2 -> Exists (forgot id) e2 \/ settled s id) /\
  (forall e1 i e2 j e3, evs = e1 ++ TMade i id :: e2 ++ TMade j id :: e3 -> Exists (forgot id) e2).
Proof.
  induction ls as [|l ls IH] using rev_ind; intros s evs Hr Hst id.
  - injection Hr as <- <-. split; intros e1; by destruct e1.
  - apply run_snoc in Hr as (s1 & ev1 & ev & H1 & H2 & ->). rewrite elem_of_app in Hst.
    assert (TStops ∉ ev1) as Hst1 by tauto. destruct (IH _ _ H1 Hst1 id) as [I1 I2]. pose proof (tool_ok_run _ _ _ H1 Hst1) as Hok. pose proof (tinv_run _ _ _ H1) as Hi1.
    assert (t_stop s1 = false) as Ht1 by (destruct (t_stop s1) eqn:E; [by apply (ti_stop _ _ Hi1) in E|done]).
    split.
    + intros e1 i e2 E. apply split_snoc in E as [(e2' & -> & ->)|(e1' & E & ->)].
      * rewrite Exists_app. destruct (I1 _ _ _ eq_refl) as [Hf|Hse]; [by left; left|].
        assert (Exists (forgot id) ev \/ forall e, e ∈ ev -> ~ forgot id e) as [Hf|Hno]; [|by left; right|right; by eapply settled_step].
        { clear. induction ev as [|e ev [IH|IH]]; [right; intros e He; by apply elem_of_nil in He|by left; right|].
          assert (forgot id e \/ ~ forgot id e) as [He|He]; [|by left; left|right; intros e' [->|He']%elem_of_cons; [done|by apply IH]].
          destruct e as [v| | | |]; try (right; by intros [? ?]). destruct v as [d| |]; try (right; by intros [? ?]). destruct d as [c o r| | | | | | | | | | | | | |]; try (right; by intros [? ?]).
          destruct c as [| | |w]; try (right; by intros [? ?]). destruct o as [|id0| | | |]; try (right; by intros [? ?]). destruct r as [[]| | |]; try (right; by intros [? ?]). destruct (decide (id0 = id)) as [->|]; [left; by eexists|right; intros [? ?]; congruence]. }
      * destruct (made_when _ _ _ _ _ _ _ _ H2 E) as (Ha & Hm & Ev & Hm2 & _). right. pose proof (to_one _ Hok id) as Ho. unfold unwatched in Ho. unfold about_to_watch in Ha.
        destruct (d_hand (v_d (t_v s1))) as [| |[] x| | |] eqn:Eh; try done. destruct (v_at (t_v s1)) eqn:Ea; try done. injection Ha as Ha. rewrite bool_decide_true in Ho by done.
        split; [unfold is_known; rewrite Ev; destruct (d_map (v_d (t_v s1)) !! id); [done|lia]|unfold waits; rewrite Ev; destruct (d_map (v_d (t_v s1)) !! id); lia|done].
    + intros e1 i e2 j e3 E. rewrite app_comm_cons, app_assoc in E. apply split_snoc in E as [(e3' & -> & ->)|(e' & E & E1)].
      * eapply I2. rewrite <- app_assoc. reflexivity.
      * destruct (made_when _ _ _ _ _ _ _ _ H2 E) as (Ha & Hm & _ & _ & Hne). symmetry in E1. apply split_snoc in E1 as [(e2' & -> & ->)|(e1' & -> & _)].
        -- apply Exists_app. left. destruct (I1 _ _ _ eq_refl) as [Hf|[_ _ Hse]]; [done|]. by rewrite Hse in Hm.
        -- exfalso. eapply Hne. apply elem_of_app. right. left.
Qed.
