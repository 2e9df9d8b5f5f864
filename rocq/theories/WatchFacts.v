(** Watches: when they forget, and what. *)
From Coq Require Import ZArith NArith Ascii String Lia.
From stdpp Require Import base gmap strings list sorting.
From Verif Require Import GoBase Encoding Records Messages Run Keepalive Discovery DiscoveryFacts DiscoveryLive DiscoveryProgress.

Local Open Scope list_scope.

(** ** Specification *)

(** The times of a watch's events in a history: when its timers were set, of its
    first look at the activity, of the resets of its timer, of its decisions to
    forget, and the activity recorded. *)
Definition starts (w : nat) (evs : list dev) : list Z := omap (fun e => match e with DStart j t => if bool_decide (j = w) then Some t else None | _ => None end) evs.
Definition looks (w : nat) (evs : list dev) : list Z := omap (fun e => match e with DLook j t => if bool_decide (j = w) then Some t else None | _ => None end) evs.
Definition resets (w : nat) (evs : list dev) : list Z := omap (fun e => match e with DReset j t => if bool_decide (j = w) then Some t else None | _ => None end) evs.
Definition decides (w : nat) (evs : list dev) : list Z := omap (fun e => match e with DDecide j t => if bool_decide (j = w) then Some t else None | _ => None end) evs.
Definition acts (w : nat) (evs : list dev) : list Z := omap (fun e => match e with DAct j t => if bool_decide (j = w) then Some t else None | _ => None end) evs.

(** Whether a decision at [t] after history [a] is right. *)
Definition decided_well (w : nat) (c : wcfg) (a : list dev) (t : Z) : Prop :=
  exists t0 tl, starts w a = [t0] /\ looks w a = [tl] /\ (0 < w_timeout c)%Z /\
    match last (resets w a) with
    | None => (t0 + (w_grace c + w_timeout c) <= t)%Z /\ (Sorted Z.le (acts w a) -> Forall (fun ts => (ts <= tl)%Z) (acts w a))
    | Some r => (r + w_timeout c <= t)%Z /\ (Sorted Z.le (acts w a) -> Forall (fun ts => (ts <= r)%Z) (acts w a))
    end.

(** ** Basics *)

Section lists.
Context (w : nat).
Lemma starts_about evs : starts w (about w evs) = starts w evs.
Proof. induction evs as [|e evs IH]; [done|]. unfold starts, about in *. cbn. destruct e; cbn; try done; destruct (bool_decide (w0 = w)) eqn:E; cbn; rewrite ?E; by rewrite IH. Qed.
Lemma looks_about evs : looks w (about w evs) = looks w evs.
Proof. induction evs as [|e evs IH]; [done|]. unfold looks, about in *. cbn. destruct e; cbn; try done; destruct (bool_decide (w0 = w)) eqn:E; cbn; rewrite ?E; by rewrite IH. Qed.
Lemma resets_about evs : resets w (about w evs) = resets w evs.
Proof. induction evs as [|e evs IH]; [done|]. unfold resets, about in *. cbn. destruct e; cbn; try done; destruct (bool_decide (w0 = w)) eqn:E; cbn; rewrite ?E; by rewrite IH. Qed.
Lemma decides_about evs : decides w (about w evs) = decides w evs.
Proof. induction evs as [|e evs IH]; [done|]. unfold decides, about in *. cbn. destruct e; cbn; try done; destruct (bool_decide (w0 = w)) eqn:E; cbn; rewrite ?E; by rewrite IH. Qed.
Lemma acts_about evs : acts w (about w evs) = acts w evs.
Proof. induction evs as [|e evs IH]; [done|]. unfold acts, about in *. cbn. destruct e; cbn; try done; destruct (bool_decide (w0 = w)) eqn:E; cbn; rewrite ?E; by rewrite IH. Qed.
Lemma starts_app a b : starts w (a ++ b) = starts w a ++ starts w b. Proof. apply omap_app. Qed.
Lemma looks_app a b : looks w (a ++ b) = looks w a ++ looks w b. Proof. apply omap_app. Qed.
Lemma resets_app a b : resets w (a ++ b) = resets w a ++ resets w b. Proof. apply omap_app. Qed.
Lemma decides_app a b : decides w (a ++ b) = decides w a ++ decides w b. Proof. apply omap_app. Qed.
Lemma acts_app a b : acts w (a ++ b) = acts w a ++ acts w b. Proof. apply omap_app. Qed.
End lists.

Lemma decide_in w evs a t b : evs = a ++ DDecide w t :: b -> t ∈ decides w evs.
Proof. intros ->. rewrite decides_app. apply elem_of_app. right. unfold decides. cbn. rewrite bool_decide_eq_true_2 by done. left. Qed.

(** A sorted list is bounded by its last element. *)
Lemma sorted_last (l : list Z) z : Sorted Z.le l -> last l = Some z -> Forall (fun t => (t <= z)%Z) l.
Proof.
  intros Hs. apply Sorted_StronglySorted in Hs; [|intros ? ? ?; lia].
  induction Hs as [|x l Hs IH HF]; [done|]. destruct l as [|y l].
  - intros [= ->]. constructor; [lia|constructor].
  - intros Hl. change (last (x :: y :: l)) with (last (y :: l)) in Hl. specialize (IH Hl). constructor; [|done].
    apply Forall_cons in HF as [Hxy _]. apply Forall_cons in IH as [Hyz _]. lia.
Qed.

(** ** The invariant *)

(** When the running timer is due. *)
Definition due (w : nat) (c : wcfg) (evs : list dev) (t0 d : Z) : Prop :=
  match last (resets w evs) with None => d = (t0 + (w_grace c + w_timeout c))%Z | Some r => d = (r + w_timeout c)%Z end.

Definition waits (p : wpc) : bool := match p with WLook | WSelect | WSeen true _ | WReset true _ => true | _ => false end.
Definition takes (p : wpc) : bool := match p with WSeen false _ | WReset false _ | WForget | WBlocked => true | _ => false end.

Record winv (w : nat) (y : watch) (evs : list dev) (now : Z) : Prop := WInv {
  wi_last : wt_last y = last (acts w evs);
  wi_start : wt_pc y = WStart -> starts w evs = [] /\ looks w evs = [] /\ resets w evs = [] /\ wt_fire y = None /\ wt_chan y = false;
  wi_started : wt_pc y <> WStart -> exists t0, starts w evs = [t0] /\
    (forall d, wt_fire y = Some d -> due w (wt_cfg y) evs t0 d /\ wt_chan y = false) /\
    (wt_chan y = true -> exists d, (d <= now)%Z /\ due w (wt_cfg y) evs t0 d);
  wi_look : wt_pc y = WLook -> looks w evs = [] /\ resets w evs = [] /\ wt_prev y = None;
  wi_looked : wt_pc y <> WStart -> wt_pc y <> WLook -> exists tl, looks w evs = [tl] /\
    ((0 < w_timeout (wt_cfg y))%Z -> match last (resets w evs) with None => opt_le (wt_prev y) tl | Some r => exists p, wt_prev y = Some p /\ (p <= r)%Z end);
  wi_wait : (0 < w_timeout (wt_cfg y))%Z -> waits (wt_pc y) = true -> is_Some (wt_fire y) \/ wt_chan y = true;
  wi_zero : (w_timeout (wt_cfg y) <= 0)%Z -> wt_fire y = None /\ wt_chan y = false /\ takes (wt_pc y) = false /\ decides w evs = [];
  wi_took : wt_pc y = WForget \/ wt_pc y = WBlocked -> decides w evs <> [];
  wi_seen : forall n, wt_pc y = WSeen false n \/ wt_pc y = WReset false n -> wt_fire y = None /\ wt_chan y = false;
  wi_stuck : wt_pc y <> WStuck;
  wi_decides : forall a t b, evs = a ++ DDecide w t :: b -> decided_well w (wt_cfg y) a t;
}.

Lemma about_split w a evs b e : of_watch w e = true -> about w b = [] -> a ++ e :: evs = b -> False.
Proof.
  intros He Hb <-. rewrite about_app in Hb. unfold about at 2 in Hb. cbn in Hb. rewrite He in Hb. by destruct (about w a).
Qed.

(** Events of others change nothing. *)
Lemma winv_quiet w y evs now ev now' : winv w y evs now -> about w ev = [] -> (now <= now')%Z -> winv w y (evs ++ ev) now'.
Proof.
  intros [H1 H2 H3 H4 H5 H6 H7 H8 H9 H10 H11] Ha Hn.
  assert (starts w (evs ++ ev) = starts w evs) as E1 by (rewrite starts_app, <- (starts_about w ev), Ha; apply app_nil_r).
  assert (looks w (evs ++ ev) = looks w evs) as E2 by (rewrite looks_app, <- (looks_about w ev), Ha; apply app_nil_r).
  assert (resets w (evs ++ ev) = resets w evs) as E3 by (rewrite resets_app, <- (resets_about w ev), Ha; apply app_nil_r).
  assert (decides w (evs ++ ev) = decides w evs) as E4 by (rewrite decides_app, <- (decides_about w ev), Ha; apply app_nil_r).
  assert (acts w (evs ++ ev) = acts w evs) as E5 by (rewrite acts_app, <- (acts_about w ev), Ha; apply app_nil_r).
  split; rewrite ?E1, ?E2, ?E3, ?E4, ?E5; try done.
  - intros Hp. destruct (H3 Hp) as (t0 & G1 & G2 & G3). exists t0. split; [done|]. unfold due in *. rewrite E3. split; [done|].
    intros Hc. destruct (G3 Hc) as (d & Hd & G). exists d. split; [lia|done].
  - intros a t b E. apply app_eq_app in E as [l [[-> E]|[-> E]]].
    + destruct l as [|e l].
      * exfalso. cbn in E. eapply (about_split w [] b ev (DDecide w t)); [by apply bool_decide_eq_true|done|done].
      * injection E as <- ->. by apply (H11 a t l).
    + exfalso. eapply (about_split w l b ev (DDecide w t)); [by apply bool_decide_eq_true|done|done].
Qed.

(** The lists after one event of the watch itself. *)
Lemma self_events w t :
  starts w [DStart w t] = [t] /\ looks w [DLook w t] = [t] /\ resets w [DReset w t] = [t] /\ decides w [DDecide w t] = [t] /\ acts w [DAct w t] = [t].
Proof. unfold starts, looks, resets, decides, acts. cbn. by rewrite bool_decide_eq_true_2. Qed.

Lemma winv_own w x y evs now lb ev : winv w x evs now -> past now x -> own now w x y lb ev -> winv w y (evs ++ ev) now.
Proof.
  intros [H1 H2 H3 H4 H5 H6 H7 H8 H9 H10 H11] Hpa Ho.
  destruct (self_events w now) as (S1 & S2 & S3 & S4 & _).
  assert (wt_cfg y = wt_cfg x) as Ec by (destruct Ho; subst; try done; match goal with H : y = _ |- _ => by rewrite H end).
  (* decisions of a step that decides nothing *)
  assert ((forall t, ev <> [DDecide w t]) -> forall a t b, evs ++ ev = a ++ DDecide w t :: b -> decided_well w (wt_cfg y) a t) as Hdec.
  { intros Hne a t b E. rewrite Ec. apply app_eq_app in E as [l [[-> E]|[-> E]]].
    - destruct l as [|e l]; [|injection E as <- ->; by apply (H11 a t l)]. exfalso. cbn in E.
      destruct Ho; subst ev; try done; injection E; intros; subst; try done. by eapply Hne.
    - exfalso. destruct Ho; subst ev; destruct l as [|? [|? ?]]; try done; injection E; intros; subst; try done. by eapply Hne. }
  assert (forall e, starts w [e] = match e with DStart j t => if bool_decide (j = w) then [t] else [] | _ => [] end) as F1
    by (intros []; try done; unfold starts; cbn; by destruct (bool_decide _)).
  assert (forall e, looks w [e] = match e with DLook j t => if bool_decide (j = w) then [t] else [] | _ => [] end) as F2
    by (intros []; try done; unfold looks; cbn; by destruct (bool_decide _)).
  assert (forall e, resets w [e] = match e with DReset j t => if bool_decide (j = w) then [t] else [] | _ => [] end) as F3
    by (intros []; try done; unfold resets; cbn; by destruct (bool_decide _)).
  assert (forall e, decides w [e] = match e with DDecide j t => if bool_decide (j = w) then [t] else [] | _ => [] end) as F4
    by (intros []; try done; unfold decides; cbn; by destruct (bool_decide _)).
  assert (forall e, acts w [e] = match e with DAct j t => if bool_decide (j = w) then [t] else [] | _ => [] end) as F5
    by (intros []; try done; unfold acts; cbn; by destruct (bool_decide _)).
  assert (bool_decide (w = w) = true) as Fw by (by apply bool_decide_eq_true).
  (* a step without events *)
  assert (ev = [] -> wt_last y = wt_last x -> wt_pc y = wt_pc x -> wt_prev y = wt_prev x ->
    (wt_fire y = wt_fire x /\ wt_chan y = wt_chan x \/ exists d, wt_fire x = Some d /\ (d <= now)%Z /\ wt_fire y = None /\ wt_chan y = true) ->
    winv w y (evs ++ ev) now) as Hquiet.
  { intros -> E1 E2 E3 E4. rewrite app_nil_r in *. specialize (Hdec ltac:(done)).
    split; rewrite ?E1, ?E2, ?E3, ?Ec; try done.
    - intros Hp. destruct (H2 Hp) as (G1 & G2 & G3 & G4 & G5). destruct E4 as [[-> ->]|(d & Hd & _)]; [done|congruence].
    - intros Hp. destruct (H3 Hp) as (t0 & G1 & G2 & G3). exists t0. split; [done|]. destruct E4 as [[-> ->]|(d & Hd & Hle & -> & ->)]; [done|].
      split; [done|]. intros _. exists d. split; [done|]. by apply G2.
    - intros HT Hw. destruct E4 as [[-> ->]|(d & Hd & Hle & -> & ->)]; [by apply H6|by right].
    - intros HT. destruct (H7 HT) as (G1 & G2 & G3 & G4). destruct E4 as [[-> ->]|(d & Hd & _)]; [done|congruence].
    - intros n Hp. destruct (H9 n Hp) as [G1 G2]. destruct E4 as [[-> ->]|(d & Hd & _)]; [done|congruence]. }
  destruct Ho as [ -> Ep -> ->| -> Ep -> ->| -> -> ->|k ts -> Ek -> ->|t -> Ef Hle -> ->|b Ey ->|tick n Ep En Ht Ey ->| -> Ep Ech En -> ->|tick n -> Ep Ht Hf -> ->|n -> Ep Ht -> ->|n -> Ep Ef Ech Ht -> ->| -> Ep -> ->| -> Ep -> ->].
  - (* start *)
    destruct (H2 Ep) as (G1 & G2 & G3 & G4 & G5). split; cbn [wt_last wt_pc wt_fire wt_chan wt_cfg wt_prev]; try done;
      rewrite ?acts_app, ?starts_app, ?resets_app, ?looks_app, ?decides_app, ?F1, ?F2, ?F3, ?F4, ?F5, ?Fw, ?app_nil_r; try done.
    + intros _. exists now. rewrite G1. split; [done|]. split; [|done]. unfold due. rewrite resets_app, F3, app_nil_r, G3. cbn.
      intros d. destruct (0 <? _)%Z; [|done]. by intros [= <-].
    + intros HT _. apply Z.ltb_lt in HT. rewrite HT. eauto.
    + intros HT. apply Z.ltb_ge in HT as HT2. rewrite HT2. destruct (H7 HT) as (_ & _ & _ & G). done.
    + by intros [|].
    + by intros n [|].
    + by apply Hdec.
  - (* look *)
    destruct (H4 Ep) as (G1 & G2 & G3). split; cbn [wt_last wt_pc wt_fire wt_chan wt_cfg wt_prev]; try done;
      rewrite ?acts_app, ?starts_app, ?resets_app, ?looks_app, ?decides_app, ?F1, ?F2, ?F3, ?F4, ?F5, ?Fw, ?app_nil_r; try done.
    + intros _. destruct H3 as (t0 & K1 & K2 & K3); [by rewrite Ep|]. exists t0. unfold due in *. rewrite resets_app, F3, app_nil_r. done.
    + intros _ _. exists now. rewrite G1, G2. split; [done|]. intros _. cbn. destruct (newer x) as [n|] eqn:En; [|done]. cbn.
      pose proof (pa_last _ _ Hpa) as Hl. rewrite (newer_last _ _ En) in Hl. exact Hl.
    + intros HT _. apply H6; [done|by rewrite Ep].
    + intros HT. destruct (H7 HT) as (K1 & K2 & K3 & K4). done.
    + by intros [|].
    + by intros n [|].
    + by apply Hdec.
  - by apply Hquiet; [..|left].
  - (* store *)
    split; cbn [wt_last wt_pc wt_fire wt_chan wt_cfg wt_prev]; try done; unfold due in *;
      rewrite ?acts_app, ?starts_app, ?resets_app, ?looks_app, ?decides_app, ?F1, ?F2, ?F3, ?F4, ?F5, ?Fw, ?app_nil_r; try done.
    + by rewrite last_snoc.
    + by apply Hdec.
  - apply Hquiet; try done. right. eauto.
  - apply Hquiet; try done; rewrite Ey; try done. by left.
  - (* activity seen *)
    rewrite app_nil_r in *. rewrite Ey. pose proof (H3 ltac:(by rewrite Ep)) as (t0 & K1 & K2 & K3).
    split; cbn [wt_last wt_pc wt_fire wt_chan wt_cfg wt_prev]; try done.
    + intros _. exists t0. split; [done|]. split.
      * intros d Hd. destruct (K2 _ Hd) as [Hdue Hch]. split; [done|]. by destruct tick.
      * by destruct tick.
    + intros _ _. apply H5; by rewrite Ep.
    + intros HT Hw. destruct tick; [|done]. apply H6; [done|by rewrite Ep].
    + intros HT. destruct (H7 HT) as (G1 & G2 & G3 & G4). split; [done|]. split; [by destruct tick|]. split; [|done].
      destruct tick; [done|]. rewrite Ht in G2; done.
    + by intros [|].
    + intros n' [E|E]; [|done]. injection E as -> _. split; [|done]. destruct (wt_fire x) as [d|] eqn:Ef; [|done].
      destruct (K2 _ eq_refl) as [_ Hch]. rewrite Ht in Hch; done.
  - (* decide *)
    pose proof (H3 ltac:(by rewrite Ep)) as (t0 & K1 & K2 & K3). destruct (K3 Ech) as (d & Hd & Hdue).
    pose proof (H5 ltac:(by rewrite Ep) ltac:(by rewrite Ep)) as (tl & L1 & L2).
    assert (0 < w_timeout (wt_cfg x))%Z as HT.
    { destruct (Z.le_gt_cases (w_timeout (wt_cfg x)) 0) as [HT|HT]; [|done]. destruct (H7 HT) as (_ & G & _). congruence. }
    split; cbn [wt_last wt_pc wt_fire wt_chan wt_cfg wt_prev]; try done; unfold due in *;
      rewrite ?acts_app, ?starts_app, ?resets_app, ?looks_app, ?decides_app, ?F1, ?F2, ?F3, ?F4, ?F5, ?Fw, ?app_nil_r; try done.
    + intros _. exists t0. split; [done|]. split; [|done]. intros d' Hd'. by destruct (K2 _ Hd').
    + intros _ _. eauto.
    + lia.
    + intros _. by destruct (decides w evs).
    + by intros n [|].
    + intros a t b E.
      assert ((exists l, evs = a ++ DDecide w t :: l) \/ a = evs /\ t = now) as [[l El]|[-> ->]].
      { destruct b as [|e b] using rev_ind; [apply app_inj_tail in E as [-> E]; injection E as ->; by right|].
        rewrite app_comm_cons, app_assoc in E. apply app_inj_tail in E as [-> _]. left. eauto. }
      { by apply (H11 a t l). }
      clear Hdec Hquiet. exists t0, tl. split; [done|]. split; [done|]. split; [done|].
      assert (forall B, (forall p, wt_prev x = Some p -> (p <= B)%Z) -> (wt_prev x = None -> wt_last x = None) ->
        Sorted Z.le (acts w evs) -> Forall (fun ts => (ts <= B)%Z) (acts w evs)) as Hall.
      { intros B HB1 HB2 Hso. destruct (last (acts w evs)) as [z|] eqn:Ez.
        - eapply Forall_impl; [by apply sorted_last|]. cbn. intros u Hu. unfold newer in En. rewrite H1 in En, HB2.
          destruct (wt_prev x) as [p|]; [|by specialize (HB2 eq_refl)]. specialize (HB1 _ eq_refl). destruct (p <? z)%Z eqn:El; [done|]. apply Z.ltb_ge in El. lia.
        - apply last_None in Ez. rewrite Ez. constructor. }
      assert (wt_prev x = None -> wt_last x = None) as HB2 by (unfold newer in En; intros E0; rewrite E0 in En; by destruct (wt_last x)).
      specialize (L2 HT). destruct (last (resets w evs)) as [r|].
      * split; [lia|]. apply Hall; [|done]. destruct L2 as (p & Hp & Hle). intros p' Hp'. assert (p' = p) as -> by congruence. done.
      * split; [lia|]. apply Hall; [|done]. intros p Hp. by rewrite Hp in L2.
  - (* reset *)
    pose proof (H3 ltac:(by rewrite Ep)) as (t0 & K1 & K2 & K3).
    pose proof (H5 ltac:(by rewrite Ep) ltac:(by rewrite Ep)) as (tl & L1 & L2).
    assert ((if tick then match wt_fire x with Some _ => wt_chan x | None => false end else wt_chan x) = false) as Ech.
    { destruct tick; [|by apply (H9 n); right]. destruct (wt_fire x) as [d|]; [by apply (K2 d)|done]. }
    rewrite Ech. assert (0 < w_timeout (wt_cfg x))%Z as HT.
    { destruct (Z.le_gt_cases (w_timeout (wt_cfg x)) 0) as [HT|HT]; [|done]. destruct tick; [by apply Ht|]. destruct (H7 HT) as (_ & _ & G & _). by rewrite Ep in G. }
    split; cbn [wt_last wt_pc wt_fire wt_chan wt_cfg wt_prev]; try done; unfold due in *;
      rewrite ?acts_app, ?starts_app, ?resets_app, ?looks_app, ?decides_app, ?F1, ?F2, ?F3, ?F4, ?F5, ?Fw, ?app_nil_r; try done.
    + intros _. exists t0. split; [done|]. split; [|done]. rewrite last_snoc. by intros d [= <-].
    + intros _ _. exists tl. split; [done|]. intros _. rewrite last_snoc. exists n. split; [done|].
      pose proof (pa_pc _ _ Hpa) as Hn. by rewrite Ep in Hn.
    + intros _ _. left. eauto.
    + lia.
    + by intros [|].
    + by intros n' [|].
    + by apply Hdec.
  - (* no timer *)
    rewrite app_nil_r in *. pose proof (H3 ltac:(by rewrite Ep)) as (t0 & K1 & K2 & K3).
    pose proof (H5 ltac:(by rewrite Ep) ltac:(by rewrite Ep)) as (tl & L1 & L2). destruct (H7 Ht) as (Z1 & Z2 & Z3 & Z4).
    split; cbn [wt_last wt_pc wt_fire wt_chan wt_cfg wt_prev]; try done.
    + intros _. eauto.
    + intros _ _. exists tl. split; [done|]. intros; lia.
    + intros; lia.
    + by intros [|].
  - (* stuck *)
    exfalso. destruct (H6 Ht) as [[d E]|E]; [by rewrite Ep|congruence|congruence].
  - (* context *)
    rewrite app_nil_r in *. pose proof (H3 ltac:(by rewrite Ep)) as (t0 & K1 & K2 & K3).
    pose proof (H5 ltac:(by rewrite Ep) ltac:(by rewrite Ep)) as (tl & L1 & L2).
    split; cbn [w_goto wt_last wt_pc wt_fire wt_chan wt_cfg wt_prev]; try done.
    + intros _. eauto.
    + intros _ _. eauto.
    + intros HT. by destruct (H7 HT) as (Z1 & Z2 & Z3 & Z4).
    + by intros [|].
    + by intros n' [|].
  - (* end *)
    pose proof (H3 ltac:(by rewrite Ep)) as (t0 & K1 & K2 & K3).
    pose proof (H5 ltac:(by rewrite Ep) ltac:(by rewrite Ep)) as (tl & L1 & L2).
    split; cbn [wt_last wt_pc wt_fire wt_chan wt_cfg wt_prev]; try done; unfold due in *;
      rewrite ?acts_app, ?starts_app, ?resets_app, ?looks_app, ?decides_app, ?F1, ?F2, ?F3, ?F4, ?F5, ?Fw, ?app_nil_r; try done.
    + intros _. exists t0. done.
    + intros _ _. eauto.
    + intros HT. by destruct (H7 HT) as (Z1 & Z2 & Z3 & Z4).
    + by intros [|].
    + by intros n' [|].
    + by apply Hdec.
Qed.

Lemma winv_goto w x evs now p : winv w x evs now ->
  (p = WClosing \/ p = WBlocked /\ wt_pc x = WForget \/ exists t n, p = WReset t n /\ wt_pc x = WSeen t n) -> wt_pc x <> WStart -> wt_pc x <> WLook ->
  winv w (w_goto p x) evs now.
Proof.
  intros [H1 H2 H3 H4 H5 H6 H7 H8 H9 H10 H11] Hp Hs Hl.
  assert (p <> WStart /\ p <> WLook /\ p <> WStuck) as (N1 & N2 & N3) by (destruct Hp as [->|[[-> _]|(t & n & -> & _)]]; done).
  split; cbn [w_goto wt_last wt_pc wt_fire wt_chan wt_cfg wt_prev]; try done.
  - intros _. by apply H3.
  - intros _ _. by apply H5.
  - intros HT Hw. destruct Hp as [->|[[-> _]|(t & n & -> & Ep)]]; try done. apply H6; [done|]. rewrite Ep. exact Hw.
  - intros HT. destruct (H7 HT) as (Z1 & Z2 & Z3 & Z4). repeat split; try done.
    destruct Hp as [->|[[-> Ep]|(t & n & -> & Ep)]]; [done|by rewrite Ep in Z3|by rewrite Ep in Z3].
  - destruct Hp as [->|[[-> Ep]|(t & n & -> & Ep)]]; [by intros [|]| |by intros [|]]. intros _. apply H8. by left.
  - intros m [E|E]; destruct Hp as [->|[[-> Ep]|(t & n & -> & Ep)]]; try done. injection E as -> ->. apply (H9 m). by left.
Qed.

Definition watch_inv (s : dstate) (evs : list dev) : Prop := past_inv s /\ (forall w, length (d_watches s) <= w -> about w evs = []) /\
  forall w y, d_watches s !! w = Some y -> winv w y evs (d_now s).

Lemma winv_new w c evs now : about w evs = [] -> winv w (new_watch c) evs now.
Proof.
  intros Ha.
  assert (starts w evs = []) as E1 by (by rewrite <- starts_about, Ha). assert (looks w evs = []) as E2 by (by rewrite <- looks_about, Ha).
  assert (resets w evs = []) as E3 by (by rewrite <- resets_about, Ha). assert (decides w evs = []) as E4 by (by rewrite <- decides_about, Ha).
  assert (acts w evs = []) as E5 by (by rewrite <- acts_about, Ha).
  split; cbn; rewrite ?E1, ?E2, ?E3, ?E4, ?E5; try done.
  - by intros [|].
  - intros a t b E. exfalso. eapply (about_split w a b evs (DDecide w t)); [by apply bool_decide_eq_true|done|done].
Qed.

Lemma watches_length s lb s' ev : dstep s lb = Some (s', ev) -> length (d_watches s) <= length (d_watches s') /\
  forall w, length (d_watches s') <= w -> about w ev = [].
Proof.
  intros H. unfold dstep in H. destruct (d_crashed s); [done|].
  assert (forall c o, call c o s = Some (s', ev) -> length (d_watches s) <= length (d_watches s') /\ forall w, length (d_watches s') <= w -> about w ev = []) as Hcall.
  { intros c o Hc. destruct (call_watches _ _ _ _ _ Hc) as (Hw & _ & Ha & _). rewrite Hw. split; [|by intros w _].
    destruct c; try done. by rewrite alter_length. }
  assert (d_watches s' = d_watches s -> (forall w, about w ev = []) -> length (d_watches s) <= length (d_watches s') /\ forall w, length (d_watches s') <= w -> about w ev = []) as Hsame.
  { intros -> Ha. by split. }
  assert (forall w, label_of lb = Some w -> match d_watches s !! w with Some x => watch_step s w x lb | None => None end = Some (s', ev) ->
    length (d_watches s) <= length (d_watches s') /\ forall w, length (d_watches s') <= w -> about w ev = []) as Hw.
  { intros w Hl Hx. destruct (d_watches s !! w) as [x|] eqn:Ex; [|done].
    destruct (watch_own _ _ _ _ _ _ Hx Hl) as [(y & Ho & ->)|[(t & n & -> & Ep & Hc)|(-> & Ep & Hc)]]; try (by eapply Hcall).
    cbn [upd_watch ds_watches d_watches]. rewrite alter_length. split; [done|]. intros j Hj. eapply own_about; [done|].
    apply lookup_lt_Some in Ex. lia. }
  destruct lb; try (eapply Hw; [reflexivity|exact H]); clear Hw.
  - destruct (0 <=? dt)%Z; [|done]. injection H as <- <-. by apply Hsame.
  - destruct o; try done; by eapply Hcall.
  - destruct (d_held s) as [[[c k] x]|] eqn:Eh; [|done]. destruct (roomy s k) eqn:Er; [|done]. injection H as <- <-. rewrite returns_watches.
    split; [|done]. destruct c, k; cbn; try done; by rewrite alter_length.
  - destruct (d_run s); try done. injection H as <- <-. by apply Hsame.
  - destruct (d_run s); try done. injection H as H. unfold run_msg in H. open_step H; injection H as <- <-; by apply Hsame.
  - destruct (d_run s); try done. injection H as <- <-. by apply Hsame.
  - destruct (d_run s); try done. by eapply Hcall.
  - injection H as <- <-. by apply Hsame.
  - destruct (d_hand s) eqn:Eh; try done. destruct (chan_of s k) as [|x q] eqn:Ec; [done|]. injection H as <- <-. apply Hsame; by destruct k.
  - destruct (d_hand s) eqn:Eh; try done. injection H as <- <-. by apply Hsame.
  - destruct (d_hand s) eqn:Eh; try done. destruct o; try done; injection H as <- <-; by apply Hsame.
  - destruct (d_hand s) eqn:Eh; try done. by eapply Hcall.
  - destruct (d_hand s) eqn:Eh; try done. destruct (d_run s); try (destruct (d_cancelled s); [|done]); injection H as <- <-; by apply Hsame.
  - destruct (d_held s) eqn:Eh; [done|]. destruct (d_map s !! w_id c) eqn:Em; injection H as <- <-; [|by apply Hsame].
    cbn. rewrite app_length. cbn. split; [lia|done].
Qed.

Lemma watch_inv_step s evs lb s' ev : watch_inv s evs -> dstep s lb = Some (s', ev) -> watch_inv s' (evs ++ ev).
Proof.
  intros (Hp & Hl & Hw) Hs. pose proof (past_step _ _ _ _ Hp Hs) as Hp'. destruct Hp as [Hb Hp].
  destruct (step_moves _ _ _ _ Hb Hs) as (Hn & _ & Hm). destruct (watches_length _ _ _ _ Hs) as [Hlen Ha].
  split; [done|]. split.
  - intros w Hle. rewrite about_app, (Hl w), (Ha w Hle) by lia. done.
  - intros w y Hy. destruct (Hm _ _ Hy) as [Hx Hab|c _ -> -> _ ->|x Hx Ho E|x t n Hx Ep -> _ Hab|x p Hx Hpc -> Hab Hlb].
    + eapply winv_quiet; [by apply Hw|done|done].
    + apply winv_new. rewrite about_app, (Hl _ (le_n _)). done.
    + rewrite E. eapply winv_own; [by apply Hw|by eapply Hp|done].
    + eapply winv_quiet; [|exact Hab|exact Hn]. apply winv_goto; [by apply Hw| |by rewrite Ep|by rewrite Ep]. right; right. eauto.
    + eapply winv_quiet; [|exact Hab|exact Hn]. destruct Hlb as [[_ Ep]|(_ & Ep & ->)]; (apply winv_goto; [by apply Hw| |by rewrite Ep|by rewrite Ep]).
      * destruct Hpc as [-> | ->]; auto.
      * by left.
Qed.

Lemma watch_run now ls s evs : drun (d_init now) ls = Some (s, evs) -> watch_inv s evs.
Proof.
  intros Hr. apply (run_inv dstep watch_inv (fun _ => True) (d_init now) [] ls s evs) with (4 := Hr); [| |by apply Forall_true].
  - split; [|by split]. split; [|done]. by intros w k x [=].
  - intros s1 evs1 l s2 ev Hi _ Hs. by eapply watch_inv_step.
Qed.

(** ** What a watch calls *)

Definition calls_ok (s : dstate) (evs : list dev) : Prop :=
  forall a w o r b, evs = a ++ DOp (ByWatch w) o r :: b -> exists y, d_watches s !! w = Some y /\
    match o with OSeen id _ => id = w_id (wt_cfg y) | OForget id => id = w_id (wt_cfg y) /\ decides w a <> [] | _ => False end.

(** A watch keeps its configuration. *)
Lemma cfg_step s lb s' ev w x : blocked_inv s -> dstep s lb = Some (s', ev) -> d_watches s !! w = Some x ->
  exists y, d_watches s' !! w = Some y /\ wt_cfg y = wt_cfg x.
Proof.
  intros Hb Hs Hx. destruct (watches_length _ _ _ _ Hs) as [Hlen _]. destruct (step_moves _ _ _ _ Hb Hs) as (_ & _ & Hm).
  assert (is_Some (d_watches s' !! w)) as [y Hy] by (apply lookup_lt_is_Some; apply lookup_lt_Some in Hx; lia). exists y. split; [done|].
  destruct (Hm _ _ Hy) as [Hx' _|c _ -> _ _ _|x' Hx' Ho _|x' t n Hx' _ -> _ _|x' p Hx' _ -> _ _].
  - congruence.
  - apply lookup_lt_Some in Hx. lia.
  - assert (x' = x) as -> by congruence. destruct Ho; subst; try done; match goal with H : y = _ |- _ => by rewrite H end.
  - assert (x' = x) as -> by congruence. done.
  - assert (x' = x) as -> by congruence. done.
Qed.

Lemma calls_step s evs lb s' ev : watch_inv s evs -> calls_ok s evs -> dstep s lb = Some (s', ev) -> calls_ok s' (evs ++ ev).
Proof.
  intros (Hp & Hl & Hw) Hc Hs a w o r b E. destruct Hp as [Hb _].
  assert ((exists l, evs = a ++ DOp (ByWatch w) o r :: l) \/ exists l, ev = l ++ DOp (ByWatch w) o r :: b /\ a = evs ++ l) as [[l El]|[l [El Ea]]].
  { apply app_eq_app in E as [l [[-> E]|[-> E]]]; [|right; eauto]. destruct l as [|e l]; [right; exists []; cbn in E; by rewrite E, !app_nil_r|].
    injection E as <- ->. left. eauto. }
  - destruct (Hc _ _ _ _ _ El) as (x & Hx & Ho). destruct (cfg_step _ _ _ _ _ _ Hb Hs Hx) as (y & Hy & Ey). exists y. by rewrite Ey.
  - destruct (step_call _ _ _ _ Hs) as [(c & o' & Hcall & Hwho)|[_ HF]].
    2: { rewrite El in HF. apply Forall_app in HF as [_ HF]. by apply Forall_cons in HF as [? _]. }
    destruct (call_called _ _ _ _ _ Hcall) as [m r' n _ He _ Hn].
    assert (c = ByWatch w /\ o' = o /\ l = []) as (-> & -> & ->).
    { assert (exists t, ev = DOp c o' r' :: t /\ Forall idle_ev t) as (t & Et & HFt).
      { destruct n as [[k x]|]; [destruct Hn as [(_ & _ & _ & ->)|(_ & _ & _ & ->)]|destruct Hn as (_ & _ & ->)]; eexists; (split; [reflexivity|by repeat constructor]). }
      rewrite Et in El. destruct l as [|e l]; [injection El; intros; subst; done|]. injection El as _ El. rewrite El in HFt. apply Forall_app in HFt as [_ HFt].
      by apply Forall_cons in HFt as [? _]. }
    rewrite app_nil_r in Ea. subst a. destruct Hwho as (x & Hx & Hlb). destruct (cfg_step _ _ _ _ _ _ Hb Hs Hx) as (y & Hy & Ey). exists y. split; [done|]. rewrite Ey.
    destruct Hlb as [(_ & t & n' & _ & ->)|(_ & Ep & ->)]; [done|]. split; [done|]. apply (wi_took _ _ _ _ (Hw _ _ Hx)). by left.
Qed.

Lemma calls_run now ls s evs : drun (d_init now) ls = Some (s, evs) -> calls_ok s evs.
Proof.
  intros Hr. assert (watch_inv s ([] ++ evs) /\ calls_ok s ([] ++ evs)) as [_ H]; [|exact H].
  apply (run_inv dstep (fun s evs => watch_inv s evs /\ calls_ok s evs) (fun _ => True) (d_init now) [] ls s evs) with (4 := Hr); [| |by apply Forall_true].
  - split; [by apply (watch_run now [] _ [])|]. intros a w o r b E. by destruct a.
  - intros s1 evs1 l s2 ev [Hi Hh] _ Hs. split; [by eapply watch_inv_step|by eapply calls_step].
Qed.

(** ** Silence *)

Definition quiet (w : nat) (y : watch) (evs : list dev) : Prop :=
  acts w evs = [] -> resets w evs = [] /\ match wt_pc y with WSeen _ _ | WReset _ _ => False | _ => True end.

Lemma quiet_events w ev : about w ev = [] -> acts w ev = [] /\ resets w ev = [].
Proof. intros H. by rewrite <- acts_about, <- resets_about, H. Qed.

Lemma quiet_step s evs lb s' ev : watch_inv s evs -> (forall w y, d_watches s !! w = Some y -> quiet w y evs) -> dstep s lb = Some (s', ev) ->
  forall w y, d_watches s' !! w = Some y -> quiet w y (evs ++ ev).
Proof.
  intros (Hp & Hl & Hw) Hq Hs w y Hy Ha. rewrite acts_app in Ha. apply app_nil in Ha as [Ha Ha']. rewrite resets_app. destruct Hp as [Hb _].
  destruct (step_moves _ _ _ _ Hb Hs) as (_ & _ & Hm). destruct (Hm _ _ Hy) as [Hx Hab|c _ -> -> _ ->|x Hx Ho E|x t n Hx Ep -> _ Hab|x p Hx Hpc -> Hab Hlb].
  - destruct (quiet_events _ _ Hab) as [_ ->]. destruct (Hq _ _ Hx Ha) as [-> ?]. done.
  - rewrite <- (resets_about _ evs), (Hl _ (le_n _)). done.
  - destruct (Hq _ _ Hx Ha) as [-> Hpc]. pose proof (wi_last _ _ _ _ (Hw _ _ Hx)) as Hla. rewrite Ha in Hla. cbn in Hla.
    assert (newer x = None) as Hn by (unfold newer; by rewrite Hla).
    destruct Ho as [-> Ep -> ->| -> Ep -> ->| -> -> ->|k ts -> Ek -> ->|t -> Ef Hle -> ->|b Ey ->|tick n Ep En Ht Ey ->| -> Ep Ech En -> ->|tick n -> Ep Ht Hf -> ->|n -> Ep Ht -> ->|n -> Ep Ef Ech Ht -> ->| -> Ep -> ->| -> Ep -> ->].
    all: try (split; done). all: try (split; [done|exact Hpc]).
    + rewrite Ey. split; [done|exact Hpc].
    + congruence.
    + by rewrite Ep in Hpc.
  - destruct (Hq _ _ Hx Ha) as [_ Hpc]. by rewrite Ep in Hpc.
  - destruct (quiet_events _ _ Hab) as [_ ->]. destruct (Hq _ _ Hx Ha) as [-> _]. split; [done|]. by destruct Hpc as [-> | ->].
Qed.

Lemma quiet_run now ls s evs : drun (d_init now) ls = Some (s, evs) -> forall w y, d_watches s !! w = Some y -> quiet w y evs.
Proof.
  intros Hr. assert (watch_inv s ([] ++ evs) /\ forall w y, d_watches s !! w = Some y -> quiet w y ([] ++ evs)) as [_ H]; [|exact H].
  apply (run_inv dstep (fun s evs => watch_inv s evs /\ forall w y, d_watches s !! w = Some y -> quiet w y evs) (fun _ => True) (d_init now) [] ls s evs) with (4 := Hr); [| |by apply Forall_true].
  - split; [by apply (watch_run now [] _ [])|]. done.
  - intros s1 evs1 l s2 ev [Hi Hh] _ Hs. split; [by eapply watch_inv_step|by eapply quiet_step].
Qed.

(** The deadline of a watch that saw nothing. *)
Lemma silent_forgets now ls s evs w y t0 : drun (d_init now) ls = Some (s, evs) -> d_watches s !! w = Some y -> (0 < w_timeout (wt_cfg y))%Z ->
  acts w evs = [] -> wt_pc y = WSelect -> starts w evs = [t0] -> (t0 + (w_grace (wt_cfg y) + w_timeout (wt_cfg y)) <= d_now s)%Z ->
  d_crashed s = false -> d_held s = None ->
  exists ls' s' evs', (ls' = [LWFire w; LWTakeTimer w; LWForget w] \/ ls' = [LWTakeTimer w; LWForget w]) /\
    drun s ls' = Some (s', evs') /\ DDecide w (d_now s) ∈ evs' /\ d_map s' !! w_id (wt_cfg y) = None.
Proof.
  intros Hr Hy HT Ha Ep Hst Hdue Hcr Hh. destruct (watch_run _ _ _ _ Hr) as (_ & _ & Hw). pose proof (Hw _ _ Hy) as Hi.
  destruct (quiet_run _ _ _ _ Hr _ _ Hy Ha) as [Hres _].
  assert (newer y = None) as Hn by (unfold newer; by rewrite (wi_last _ _ _ _ Hi), Ha).
  (* the timer's value is there *)
  assert (forall s y, d_watches s !! w = Some y -> wt_pc y = WSelect -> newer y = None -> wt_chan y = true -> d_crashed s = false -> d_held s = None ->
    exists s' evs', drun s [LWTakeTimer w; LWForget w] = Some (s', evs') /\ DDecide w (d_now s) ∈ evs' /\ d_map s' !! w_id (wt_cfg y) = None) as Htake.
  { clear. intros s y Hy Ep Hn Hch Hcr Hh.
    cbn [run]. unfold dstep at 1. rewrite Hcr, Hy. unfold watch_step. rewrite Ep, Hch, Hn.
    match goal with |- context [upd_watch w (fun _ => ?y0) s] => set (y1 := y0) end.
    unfold dstep. change (d_crashed (upd_watch w (fun _ => y1) s)) with (d_crashed s). rewrite Hcr, upd_lookup, decide_True, Hy by done. cbn [fmap option_fmap option_map].
    unfold watch_step. change (wt_pc y1) with WForget. change (wt_cfg y1) with (wt_cfg y).
    assert (exists s' ev, call (ByWatch w) (OForget (w_id (wt_cfg y))) (upd_watch w (fun _ => y1) s) = Some (s', ev)) as (s' & ev & Hc).
    { unfold call. change (d_held (upd_watch w (fun _ => y1) s)) with (d_held s). rewrite Hh. cbn [effect].
      destruct (d_map (upd_watch w (fun _ => y1) s) !! w_id (wt_cfg y)); [destruct (roomy (upd_watch w (fun _ => y1) s) Forg)|]; eauto. }
    rewrite Hc. eexists _, _. split; [reflexivity|]. split; [left|].
    destruct (call_called _ _ _ _ _ Hc) as [m r n _ He Em _]. rewrite Em. cbn [effect] in He.
    destruct (d_map (upd_watch w (fun _ => y1) s) !! w_id (wt_cfg y)) eqn:El; injection He as <- _ _; [by rewrite lookup_delete|done]. }
  destruct (wi_wait _ _ _ _ Hi HT) as [[d Hd]|Hch]; [by rewrite Ep| |].
  - destruct (wi_started _ _ _ _ Hi) as (t0' & Hst' & Hdu & _); [by rewrite Ep|]. assert (t0' = t0) as -> by congruence.
    destruct (Hdu _ Hd) as [Hd2 _]. unfold due in Hd2. rewrite Hres in Hd2. cbn in Hd2.
    assert (dstep s (LWFire w) = Some (upd_watch w (fun _ => Watch (wt_cfg y) (wt_pc y) (wt_last y) (wt_pend y) (wt_prev y) None true (wt_next y) (wt_tick y) (wt_cancelled y)) s, [])) as Hf.
    { unfold dstep. rewrite Hcr, Hy. unfold watch_step. destruct (wt_pc y); try done; by rewrite Hd, (proj2 (Z.leb_le _ _)) by lia. }
    set (y1 := Watch _ _ _ _ _ _ _ _ _ _) in Hf. set (s1 := upd_watch _ _ _) in Hf.
    destruct (Htake s1 y1) as (s' & evs' & Hrun & Hin & Hmap); try done.
    { unfold s1. by rewrite upd_lookup, decide_True, Hy. }
    exists [LWFire w; LWTakeTimer w; LWForget w], s', evs'. split; [by left|]. split; [|done].
    change [LWFire w; LWTakeTimer w; LWForget w] with ([LWFire w] ++ [LWTakeTimer w; LWForget w]). rewrite run_app, run_one, Hf, Hrun. done.
  - destruct (Htake s y) as (s' & evs' & Hrun & Hin & Hmap); try done. exists [LWTakeTimer w; LWForget w], s', evs'. auto.
Qed.

(** ** Consequences *)

(** A decision comes a timeout after the last activity that the timer knows of,
    or after the whole grace period. *)
Lemma decision now ls s evs w y a t b : drun (d_init now) ls = Some (s, evs) -> d_watches s !! w = Some y -> evs = a ++ DDecide w t :: b ->
  decided_well w (wt_cfg y) a t.
Proof. intros Hr Hy E. destruct (watch_run _ _ _ _ Hr) as (_ & _ & Hw). exact (wi_decides _ _ _ _ (Hw _ _ Hy) a t b E). Qed.

Lemma zero_never now ls s evs w y : drun (d_init now) ls = Some (s, evs) -> d_watches s !! w = Some y -> (w_timeout (wt_cfg y) <= 0)%Z ->
  decides w evs = [] /\ forall id r, DOp (ByWatch w) (OForget id) r ∉ evs.
Proof.
  intros Hr Hy HT. destruct (watch_run _ _ _ _ Hr) as (_ & _ & Hw). destruct (wi_zero _ _ _ _ (Hw _ _ Hy) HT) as (_ & _ & _ & Hd). split; [done|].
  intros id r Hin. apply elem_of_list_split in Hin as (a & b & E). destruct (calls_run _ _ _ _ Hr _ _ _ _ _ E) as (_ & _ & _ & Hne).
  rewrite E, decides_app in Hd. apply app_nil in Hd as [Hd _]. done.
Qed.

Lemma never_stuck now ls s evs w y : drun (d_init now) ls = Some (s, evs) -> d_watches s !! w = Some y -> wt_pc y <> WStuck.
Proof. intros Hr Hy. destruct (watch_run _ _ _ _ Hr) as (_ & _ & Hw). exact (wi_stuck _ _ _ _ (Hw _ _ Hy)). Qed.
