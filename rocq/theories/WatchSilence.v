(** A watch whose source falls silent forgets it, from any state. *)
From Coq Require Import ZArith NArith Ascii String Lia.
From stdpp Require Import base gmap strings list.
From Verif Require Import GoBase Encoding Records Messages Run Keepalive Discovery DiscoveryFacts DiscoveryLive DiscoveryProgress WatchFacts WatchLive.

Local Open Scope list_scope.

(** ** Specification *)

(** The watch's own steps, and time. *)
Definition silently (w : nat) (lb : dlabel) : Prop :=
  match lb with LDTime _ => True | LWStart v | LWLook v | LWFire v | LWTakeTimer v | LWSeen v | LWReset v | LWForget v => v = w | _ => False end.
Definition lapse (lb : dlabel) : Z := match lb with LDTime dt => dt | _ => 0 end.
Definition lapses (ls : list dlabel) : Z := foldr (fun lb z => (lapse lb + z)%Z) 0%Z ls.
Definition is_live (p : wpc) : Prop := match p with WBlocked | WClosing | WEnded => False | _ => True end.

(** ** Steps *)

Record same (d d' : dstate) : Prop := Same {
  sm_disc : d_disc d' = d_disc d; sm_forg : d_forg d' = d_forg d; sm_held : d_held d' = d_held d; sm_run : d_run d' = d_run d;
  sm_hand : d_hand d' = d_hand d; sm_crashed : d_crashed d' = d_crashed d; sm_known : forall id, is_Some (d_map d' !! id) <-> is_Some (d_map d !! id) }.

Lemma same_upd w f d : same d (upd_watch w f d).
Proof. by split. Qed.

Section watch.
Context (w : nat) (id : string) (T : Z) (HT : (0 < T)%Z).

(** From [d] the watch can forget within [t]. *)
Definition can_forget (t : Z) (d : dstate) : Prop :=
  exists ls d' ev x, Forall (silently w) ls /\ (0 <= lapses ls <= t)%Z /\ drun d ls = Some (d', ev) /\
    d_map d' !! id = None /\ (forall j, j <> id -> is_Some (d_map d' !! j) <-> is_Some (d_map d !! j)) /\
    d_disc d' = d_disc d /\ d_forg d' = d_forg d ++ [x] /\ d_held d' = None /\ d_run d' = d_run d /\ d_hand d' = d_hand d /\ d_crashed d' = false.

Lemma forget_step t d lb d1 ev : dstep d lb = Some (d1, ev) -> silently w lb -> (0 <= lapse lb)%Z -> same d d1 -> can_forget t d1 -> can_forget (lapse lb + t) d.
Proof.
  intros Hs Hlb Hl [S1 S2 S3 S4 S5 S6 S7] (ls & d' & ev' & x & HF & Ht & Hr & Hm & Ho & E1 & E2 & E3 & E4 & E5 & E6).
  exists (lb :: ls), d', (ev ++ ev'), x. split; [by constructor|]. split; [unfold lapses in *; cbn [foldr]; lia|]. split; [cbn [run]; by rewrite Hs, Hr|].
  split; [done|]. split; [intros j Hj; by rewrite <- S7, Ho|]. rewrite <- S1, <- S2, <- S4, <- S5. done.
Qed.
Lemma forget_more t t' d : (t <= t')%Z -> can_forget t d -> can_forget t' d.
Proof. intros H (ls & d' & ev & x & HF & Ht & Hr). exists ls, d', ev, x. split; [done|]. split; [lia|done]. Qed.

Context (d : dstate) (y : watch) (Hy : d_watches d !! w = Some y) (Hc : wt_cfg y = WCfg id T 0 0)
  (Hcr : d_crashed d = false) (Hh : d_held d = None) (Hfo : d_forg d = []) (Hk : is_Some (d_map d !! id)).

Lemma at_forget : wt_pc y = WForget -> can_forget 0 d.
Proof.
  intros Ep. destruct Hk as [x Ex].
  assert (dstep d (LWForget w) = Some (returns_to (ByWatch w) (set_chan Forg (d_forg d ++ [x]) (ds_map (delete id (d_map d)) d)), [DOp (ByWatch w) (OForget id) (RBool true); DRet (ByWatch w)])) as Hs.
  { unfold dstep. rewrite Hcr, Hy. unfold watch_step. rewrite Ep, Hc. cbn [w_id]. unfold call. rewrite Hh. cbn [effect]. rewrite Ex.
    unfold roomy. cbn [chan_of]. rewrite Hfo. reflexivity. }
  eexists [LWForget w], _, _, x. split; [repeat constructor|]. split; [cbn; lia|]. split; [rewrite run_one, Hs; reflexivity|].
  cbn [returns_to set_chan ds_map ds_chans upd_watch ds_watches d_map d_disc d_forg d_held d_run d_hand d_crashed].
  split; [apply lookup_delete|]. split; [intros j Hj; by rewrite lookup_delete_ne|]. done.
Qed.
End watch.

Section silence.
Context (w : nat) (id : string) (T : Z) (HT : (0 < T)%Z).
Local Notation can := (can_forget w id).

Record at_watch (d : dstate) (y : watch) : Prop := AtWatch {
  aw_y : d_watches d !! w = Some y; aw_c : wt_cfg y = WCfg id T 0 0;
  aw_cr : d_crashed d = false; aw_h : d_held d = None; aw_f : d_forg d = []; aw_k : is_Some (d_map d !! id) }.

(** A step of the watch on its own. *)
Lemma own_step t d y y1 lb ev : at_watch d y -> dstep d lb = Some (upd_watch w (fun _ => y1) d, ev) -> silently w lb -> lapse lb = 0%Z ->
  wt_cfg y1 = wt_cfg y -> (at_watch (upd_watch w (fun _ => y1) d) y1 -> can t (upd_watch w (fun _ => y1) d)) -> can t d.
Proof.
  intros [H1 H2 H3 H4 H5 H6] Hs Hlb Hl Hc Hn. replace t with (lapse lb + t)%Z by lia. eapply forget_step; [exact Hs|done|lia|apply same_upd|].
  apply Hn. split; try done; [|congruence]. rewrite upd_lookup, decide_True by done. by rewrite H1.
Qed.

Lemma forget_now d y : at_watch d y -> wt_pc y = WForget -> can 0 d.
Proof. intros [H1 H2 H3 H4 H5 H6] Ep. by apply (at_forget w id T d y). Qed.

(** In the select, with the timer's value there and nothing new. *)
Lemma forget_due d y : at_watch d y -> wt_pc y = WSelect -> wt_chan y = true -> newer y = None -> can 0 d.
Proof.
  intros Ha Ep Ec En. eapply (own_step _ d y _ (LWTakeTimer w)); [exact Ha| |done|done| |].
  - unfold dstep. rewrite (aw_cr _ _ Ha), (aw_y _ _ Ha). unfold watch_step. rewrite Ep, Ec, En. reflexivity.
  - done.
  - intros Ha'. by eapply forget_now.
Qed.

Lemma fire_step d y f : at_watch d y -> wt_fire y = Some f -> (f <= d_now d)%Z ->
  dstep d (LWFire w) = Some (upd_watch w (fun _ => Watch (wt_cfg y) (wt_pc y) (wt_last y) (wt_pend y) (wt_prev y) None true (wt_next y) (wt_tick y) (wt_cancelled y)) d, []).
Proof. intros Ha Ef Hle. unfold dstep. rewrite (aw_cr _ _ Ha), (aw_y _ _ Ha). unfold watch_step. destruct (wt_pc y); rewrite Ef, (proj2 (Z.leb_le _ _) Hle); done. Qed.

Definition later (t : Z) (d : dstate) : dstate :=
  DState (d_map d) (d_disc d) (d_forg d) (d_held d) (d_run d) (d_hand d) (d_cancelled d) (d_watches d) (d_now d + t) (d_crashed d).
Lemma wait_step t u d y : at_watch d y -> (0 <= t)%Z -> (at_watch (later t d) y -> can u (later t d)) -> can (t + u) d.
Proof.
  intros [H1 H2 H3 H4 H5 H6] Ht Hn. apply (forget_step w id u d (LDTime t) (later t d) []); [|done|done|by split|apply Hn; by split].
  unfold dstep, later. rewrite H3, (proj2 (Z.leb_le _ _) Ht). done.
Qed.

(** The timer is set for [T] from now at most, or has fired. *)
Definition timed (d : dstate) (y : watch) : Prop := (exists f, wt_fire y = Some f /\ (f <= d_now d + T)%Z) \/ wt_chan y = true.

(** In the select: wait for the timer. *)
Lemma forget_wait u d y : at_watch d y -> wt_pc y = WSelect -> timed d y -> (0 <= u)%Z ->
  (forall d' y', at_watch d' y' -> wt_pc y' = WSelect -> wt_chan y' = true -> wt_last y' = wt_last y -> wt_prev y' = wt_prev y -> can u d') -> can (T + u) d.
Proof.
  intros Ha Ep [(f & Ef & Hf)|Ec] Hu Hn.
  - apply wait_step with (y := y); [done|lia|]. intros Ha'.
    eapply own_step; [exact Ha'|apply (fire_step _ _ _ Ha' Ef); cbn; lia|done|done|done|]. intros Ha2. eapply Hn; [exact Ha2|done..].
  - apply (forget_more w id u); [lia|]. by apply (Hn d y).
Qed.

Lemma forget_select_seen d y : at_watch d y -> wt_pc y = WSelect -> timed d y -> newer y = None -> can T d.
Proof.
  intros Ha Ep Ht En. rewrite <- (Z.add_0_r T). eapply forget_wait; [done..|lia|]. intros d' y' Ha' Ep' Ec El Epr.
  apply (forget_due d' y'); try done. unfold newer in *. by rewrite El, Epr.
Qed.

(** The last reset. *)
Lemma forget_reset_timer d y n : at_watch d y -> wt_pc y = WReset false n -> wt_last y = Some n -> can T d.
Proof.
  intros Ha Ep El. eapply (own_step _ d y _ (LWReset w)); [exact Ha| |done|done| |].
  - unfold dstep. rewrite (aw_cr _ _ Ha), (aw_y _ _ Ha). unfold watch_step. rewrite Ep. cbn [negb orb]. reflexivity.
  - done.
  - intros Ha'. eapply forget_select_seen; [exact Ha'|done|left; eexists; split; [reflexivity|cbn; rewrite (aw_c _ _ Ha); cbn; lia]|].
    unfold newer. cbn. rewrite El. by rewrite Z.ltb_irrefl.
Qed.

(** LastSeen does not change what is known. *)
Lemma seen_step t d y tick n : at_watch d y -> wt_pc y = WSeen tick n -> (forall d' , d_now d' = d_now d -> at_watch d' (w_goto (WReset tick n) y) -> can t d') -> can t d.
Proof.
  intros Ha Ep Hn. pose proof Ha as [H1 H2 H3 H4 H5 H6].
  set (m := match d_map d !! id with Some x => if (ds_seen x <? n)%Z then <[id := DSource (ds_info x) n]> (d_map d) else d_map d | None => d_map d end).
  assert (dstep d (LWSeen w) = Some (returns_to (ByWatch w) (ds_map m d), [DOp (ByWatch w) (OSeen id n) RUnit; DRet (ByWatch w)])) as Hs.
  { unfold dstep. rewrite H3, H1. unfold watch_step. rewrite Ep, H2. cbn [w_id]. unfold call. rewrite H4. cbn [effect]. unfold m. by destruct (d_map d !! id). }
  assert (forall j, is_Some (m !! j) <-> is_Some (d_map d !! j)) as Hm.
  { intros j. unfold m. destruct (d_map d !! id) as [x|] eqn:E; [|done]. destruct (ds_seen x <? n)%Z; [|done]. destruct (decide (j = id)) as [->|Hne]; [rewrite lookup_insert, E; split; eauto|by rewrite lookup_insert_ne]. }
  replace t with (lapse (LWSeen w) + t)%Z by done. eapply forget_step; [exact Hs|done|done|by split|]. apply Hn; [done|]. split; try done.
  - cbn. rewrite list_lookup_alter. unfold ds_map. cbn. rewrite H1. cbn. by rewrite Ep.
  - cbn. by rewrite Hm.
Qed.

Lemma forget_select d y : at_watch d y -> wt_pc y = WSelect -> timed d y -> can (T + T) d.
Proof.
  intros Ha Ep Ht. eapply forget_wait; [done..|lia|]. intros d' y' Ha' Ep' Ec El Epr. destruct (newer y') as [n|] eqn:En; [|apply (forget_more w id 0); [lia|]; by eapply forget_due].
  eapply (own_step _ d' y' _ (LWTakeTimer w)); [exact Ha'| |done|done| |].
  - unfold dstep. rewrite (aw_cr _ _ Ha'), (aw_y _ _ Ha'). unfold watch_step. rewrite Ep', Ec, En. reflexivity.
  - done.
  - intros Ha2. eapply seen_step; [exact Ha2|done|]. intros d3 _ Ha3. eapply forget_reset_timer; [exact Ha3|done|]. cbn. by apply newer_last in En.
Qed.

Lemma forget_reset d y tick n : at_watch d y -> wt_pc y = WReset tick n -> (tick = true -> timed d y) -> can (T + T) d.
Proof.
  intros Ha Ep Ht. assert (w_timeout (wt_cfg y) = T) as Ect by (by rewrite (aw_c _ _ Ha)).
  assert (exists ch, dstep d (LWReset w) = Some (upd_watch w (fun _ => Watch (wt_cfg y) WSelect (wt_last y) (wt_pend y) (Some n) (Some (d_now d + T)%Z) ch (wt_next y) (wt_tick y) (wt_cancelled y)) d, [DReset w (d_now d)])) as [ch Hs].
  { unfold dstep. rewrite (aw_cr _ _ Ha), (aw_y _ _ Ha). unfold watch_step. rewrite Ep, Ect, (proj2 (Z.ltb_lt _ _) HT), orb_true_r.
    destruct tick; [|eauto]. destruct (wt_fire y) eqn:Ef; [eauto|]. destruct (Ht eq_refl) as [(f & Hf & _)|Hch]; [by rewrite Hf in Ef|]. rewrite Hch. eauto. }
  eapply own_step; [exact Ha|exact Hs|done|done|done|]. intros Ha2. eapply forget_select; [exact Ha2|done|]. left. eexists. split; [reflexivity|]. cbn. lia.
Qed.

(** From anywhere. *)
Lemma forget_any d y : at_watch d y -> is_live (wt_pc y) -> wt_pc y <> WStuck -> (WatchFacts.waits (wt_pc y) = true -> timed d y) -> can (T + T) d.
Proof.
  intros Ha Hl Hst Ht. assert (w_timeout (wt_cfg y) = T) as Ect by (by rewrite (aw_c _ _ Ha)). destruct (wt_pc y) as [| | |tick n|tick n| | | | |] eqn:Ep; try done.
  - (* WStart *)
    eapply (own_step _ d y _ (LWStart w)); [exact Ha| |done|done| |].
    + unfold dstep. rewrite (aw_cr _ _ Ha), (aw_y _ _ Ha). unfold watch_step. rewrite Ep. rewrite Ect, (proj2 (Z.ltb_lt _ _) HT). reflexivity.
    + done.
    + intros Ha2. eapply (own_step _ _ _ _ (LWLook w)); [exact Ha2| |done|done| |].
      * unfold dstep. rewrite (aw_cr _ _ Ha2), (aw_y _ _ Ha2). unfold watch_step. cbn [wt_pc]. reflexivity.
      * done.
      * intros Ha3. eapply forget_select; [exact Ha3|done|]. left. eexists. split; [reflexivity|]. cbn. rewrite (aw_c _ _ Ha). cbn. lia.
  - (* WLook *)
    eapply (own_step _ d y _ (LWLook w)); [exact Ha| |done|done| |].
    + unfold dstep. rewrite (aw_cr _ _ Ha), (aw_y _ _ Ha). unfold watch_step. rewrite Ep. reflexivity.
    + done.
    + intros Ha3. eapply forget_select; [exact Ha3|done|]. exact (Ht eq_refl).
  - by eapply forget_select, Ht.
  - (* WSeen *)
    eapply seen_step; [exact Ha|exact Ep|]. intros d' En Ha'. eapply forget_reset; [exact Ha'|done|]. intros ->. unfold timed in *. rewrite En. exact (Ht eq_refl).
  - eapply forget_reset; [exact Ha|exact Ep|]. intros ->. exact (Ht eq_refl).
  - apply (forget_more w id 0); [lia|]. by eapply forget_now.
Qed.
End silence.

(** ** Reachable states *)

(** A timer is never set for later than the grace period and the timeout. *)
Definition soon (d : dstate) : Prop := forall w y, d_watches d !! w = Some y -> (0 <= w_grace (wt_cfg y))%Z ->
  forall f, wt_fire y = Some f -> (f <= d_now d + (w_grace (wt_cfg y) + w_timeout (wt_cfg y)))%Z.

Lemma soon_step d lb d' ev : blocked_inv d -> soon d -> dstep d lb = Some (d', ev) -> soon d'.
Proof.
  intros Hb Hs Hd w y Hy. destruct (step_moves _ _ _ _ Hb Hd) as (Hn & _ & Hm).
  destruct (Hm _ _ Hy) as [Hx Hab|c _ -> -> _ ->|x Hx Ho E|x t n Hx Ep -> _ Hab|x p Hx Hpc -> Hab Hlb].
  - intros Hg f Hf. specialize (Hs _ _ Hx Hg _ Hf). lia.
  - done.
  - intros Hg f Hf. pose proof (Hs _ _ Hx) as Hx'.
    destruct Ho as [-> Ep -> ->| -> Ep -> ->| -> -> ->|k ts -> Ek -> ->|t -> Ef Hle -> ->|b Ey ->|tick n Ep En Ht Ey ->| -> Ep Ech En -> ->|tick n -> Ep Ht Hf' -> ->|n -> Ep Ht -> ->|n -> Ep Ef Ech Ht -> ->| -> Ep -> ->| -> Ep -> ->];
      try subst y; cbn [wt_cfg wt_fire w_goto] in Hf, Hg |- *; try (specialize (Hx' Hg _ Hf); lia); try done.
    1: { destruct (0 <? w_timeout (wt_cfg x))%Z; [|done]. injection Hf as <-. lia. }
    3: { injection Hf as <-. lia. }
    all: assert (wt_fire y = wt_fire x /\ wt_cfg y = wt_cfg x) as [E1 E2] by (by rewrite Ey); rewrite E1 in Hf; rewrite E2 in *; specialize (Hx' Hg _ Hf); lia.
  - intros Hg f Hf. specialize (Hs _ _ Hx Hg _ Hf). cbn. lia.
  - intros Hg f Hf. specialize (Hs _ _ Hx Hg _ Hf). cbn. lia.
Qed.

Lemma soon_run now ls d evs : drun (d_init now) ls = Some (d, evs) -> soon d.
Proof.
  intros Hr. assert (watch_inv d evs /\ soon d) as [_ H]; [|exact H].
  apply (run_inv dstep (fun s evs => watch_inv s evs /\ soon s) (fun _ => True) (d_init now) [] ls d evs) with (4 := Hr); [| |by apply Forall_true].
  - split; [by apply (watch_run now [] _ [])|]. done.
  - intros s1 evs1 l s2 ev [Hi Hh] _ Hs. split; [by eapply watch_inv_step|]. destruct Hi as ([Hb _] & _). by eapply soon_step.
Qed.

(** A live watch whose source sends nothing forgets it within twice its timeout. *)
Lemma silent_forgets now ls d evs w y id T : drun (d_init now) ls = Some (d, evs) -> d_watches d !! w = Some y -> wt_cfg y = WCfg id T 0 0 -> (0 < T)%Z ->
  is_live (wt_pc y) -> d_crashed d = false -> d_held d = None -> d_forg d = [] -> is_Some (d_map d !! id) -> can_forget w id (T + T) d.
Proof.
  intros Hr Hy Hc HT Hl Hcr Hh Hf Hk. destruct (watch_run _ _ _ _ Hr) as (_ & _ & Hw). pose proof (Hw _ _ Hy) as Hi.
  apply (forget_any w id T HT d y); [by split|done|by apply (wi_stuck _ _ _ _ Hi)|]. intros Hwt.
  destruct (wi_wait _ _ _ _ Hi) as [[f Ef]|Hch]; [by rewrite Hc|done| |by right]. left. exists f. split; [done|].
  pose proof (soon_run _ _ _ _ Hr _ _ Hy) as Hs. rewrite Hc in Hs. cbn in Hs. specialize (Hs ltac:(lia) _ Ef). lia.
Qed.
