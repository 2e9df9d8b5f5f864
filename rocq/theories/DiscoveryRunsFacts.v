(** Facts about several calls of Discovery.Run. *)
From Coq Require Import ZArith NArith Ascii String Lia.
From stdpp Require Import base gmap strings list sorting.
From Verif Require Import GoBase Encoding Records Messages Run Keepalive Discovery DiscoveryFacts DiscoveryLive DiscoveryProgress DiscoveryRuns.

Local Open Scope list_scope.

(** ** Specification *)

(** The history of the Discovery: who of the calls of Run did what is left out. *)
Definition whole (evs : list (nat * dev)) : list dev := snd <$> evs.

(** The source is taken off the list in this history. *)
Definition forgets (id : string) (e : dev) : Prop := match e with DOp _ (OForget j) _ => j = id | _ => False end.

(** ** Steps *)

Lemma whole_app a b : whole (a ++ b) = whole a ++ whole b.
Proof. apply fmap_app. Qed.
Lemma whole_pair r (ev : list dev) : whole (pair r <$> ev) = ev.
Proof. unfold whole. rewrite <- list_fmap_compose. by apply list_fmap_id. Qed.

Lemma mstep_inv s r lb s' ev : mstep s (r, lb) = Some (s', ev) ->
  exists e, dstep (focus s r) lb = Some (ms_core s', e) /\ ev = pair r <$> e /\ focus s' r = ms_core s' /\
    (forall q, q <> r -> ctl_at s' q = ctl_at s q) /\ (lb = LUnblock -> r = ms_owner s) /\
    ms_owner s' = match d_held (ms_core s), d_held (ms_core s') with None, Some _ => r | _, _ => ms_owner s end.
Proof.
  unfold mstep. intros H. destruct (match lb with LUnblock => _ | _ => _ end) eqn:Eu; [|done].
  destruct (dstep (focus s r) lb) as [[d e]|] eqn:Ed; [|done]. injection H as <- <-. exists e. split; [done|]. split; [done|].
  split; [|split; [|split]].
  - unfold focus, ctl_at. cbn [ms_runs ms_core]. rewrite lookup_insert. by destruct d.
  - intros q Hq. unfold ctl_at. cbn [ms_runs]. by rewrite lookup_insert_ne.
  - intros ->. by apply bool_decide_eq_true in Eu.
  - done.
Qed.

Lemma mstep_intro s r lb d e : dstep (focus s r) lb = Some (d, e) -> (lb = LUnblock -> r = ms_owner s) ->
  exists s', mstep s (r, lb) = Some (s', pair r <$> e) /\ ms_core s' = d.
Proof.
  intros Hd Hu. unfold mstep. assert (match lb with LUnblock => bool_decide (r = ms_owner s) | _ => true end = true) as ->.
  { destruct lb; try done. apply bool_decide_eq_true. by apply Hu. }
  rewrite Hd. by eexists.
Qed.

Lemma focus_core s r : same_core (focus s r) (ms_core s).
Proof. done. Qed.

Lemma map_inv_core s s' evs : same_core s s' -> map_inv s evs -> map_inv s' evs.
Proof.
  intros Hc (H1 & H2 & H3 & H4). split; [by rewrite (sc_map _ _ Hc)|]. split; [intros id; by rewrite (sc_map _ _ Hc)|]. split; [done|].
  intros k. rewrite <- H4. unfold waiting. by rewrite (sc_held _ _ Hc), (core_chan _ _ k Hc).
Qed.

Definition m_inv (s : mstate) (evs : list (nat * dev)) : Prop :=
  map_inv (ms_core s) (whole evs) /\ held_inv (ms_core s) /\ cap_inv (ms_core s).

Lemma m_step s evs l s' ev : m_inv s evs -> mstep s l = Some (s', ev) -> m_inv s' (evs ++ ev).
Proof.
  intros (Hm & Hh & Hc) Hs. destruct l as [r lb]. destruct (mstep_inv _ _ _ _ _ Hs) as (e & Hd & -> & _).
  assert (map_inv (focus s r) (whole evs)) as Hm' by (by apply (map_inv_core (ms_core s))).
  split; [rewrite whole_app, whole_pair; by eapply map_step|]. split.
  - apply (held_step (focus s r) lb _ e); [apply Hm'|exact Hh|exact Hd].
  - by eapply (cap_step (focus s r)).
Qed.

Lemma m_run now ls s evs : mrun (m_init now) ls = Some (s, evs) -> m_inv s evs.
Proof.
  intros Hr. change evs with ([] ++ evs). apply (run_inv mstep m_inv (fun _ => True) (m_init now) [] ls s evs) with (4 := Hr); [| |by apply Forall_true].
  - split; [by apply (map_run now [] _ [])|]. split; [done|]. split; cbn; lia.
  - intros s1 evs1 l s2 ev Hi _ Hs. by eapply m_step.
Qed.

(** ** One call *)

Lemma one_step s d lb : focus s 0 = d -> (forall c k x, d_held d = Some (c, k, x) -> ms_owner s = 0) ->
  match dstep d lb with
  | Some (d', ev) => exists s', mstep s (0, lb) = Some (s', pair 0 <$> ev) /\ focus s' 0 = d' /\
      (forall c k x, d_held d' = Some (c, k, x) -> ms_owner s' = 0)
  | None => mstep s (0, lb) = None
  end.
Proof.
  intros <- Ho. destruct (dstep (focus s 0) lb) as [[d' ev]|] eqn:Ed.
  - assert (lb = LUnblock -> 0 = ms_owner s) as Hu.
    { intros ->. unfold dstep in Ed. destruct (d_crashed _); [done|]. destruct (d_held (focus s 0)) as [[[c k] x]|] eqn:Eh; [|done]. symmetry. by eapply Ho. }
    destruct (mstep_intro _ _ _ _ _ Ed Hu) as (s' & Hs & E). exists s'. split; [done|].
    destruct (mstep_inv _ _ _ _ _ Hs) as (e & _ & _ & Ef & _ & _ & Eo). split; [by rewrite Ef|].
    intros c k x Hh. rewrite Eo, E, Hh. change (d_held (focus s 0)) with (d_held (ms_core s)) in Ho.
    destruct (d_held (ms_core s)) as [[[c' k'] x']|] eqn:E'; [by eapply Ho|done].
  - unfold mstep. rewrite Ed. by destruct (match lb with LUnblock => _ | _ => _ end).
Qed.

Lemma one_run now ls :
  match run dstep (d_init now) ls with
  | Some (d, evs) => exists s, mrun (m_init now) (pair 0 <$> ls) = Some (s, pair 0 <$> evs) /\ focus s 0 = d
  | None => mrun (m_init now) (pair 0 <$> ls) = None
  end.
Proof.
  assert (forall ls s, (forall c k x, d_held (focus s 0) = Some (c, k, x) -> ms_owner s = 0) ->
    match run dstep (focus s 0) ls with
    | Some (d, evs) => exists s', mrun s (pair 0 <$> ls) = Some (s', pair 0 <$> evs) /\ focus s' 0 = d
    | None => mrun s (pair 0 <$> ls) = None
    end) as H.
  { clear ls. intros ls. induction ls as [|lb ls IH]; intros s Ho; [by exists s|].
    pose proof (one_step s _ lb eq_refl Ho) as H1. cbn [run fmap list_fmap]. unfold mrun in *. destruct (dstep (focus s 0) lb) as [[d e]|].
    - destruct H1 as (s' & Hs & Ef & Ho'). rewrite <- Ef in *. specialize (IH s' Ho'). cbn [run]. rewrite Hs.
      destruct (run dstep (focus s' 0) ls) as [[d2 e2]|].
      + destruct IH as (s2 & Hr & E2). exists s2. rewrite fmap_app. unfold fmap in *. rewrite Hr. done.
      + unfold fmap in *. by rewrite IH.
    - unfold fmap. cbn [run]. by rewrite H1. }
  exact (H ls (m_init now) ltac:(intros c k x; by intros [=])).
Qed.

(** ** What the handlers are told *)

Lemma known_stays id a b : known a id <> None -> Forall (fun e => ~ forgets id e) b -> known (a ++ b) id <> None.
Proof.
  intros Hk HF. rewrite known_app. revert Hk. generalize (known a id) as v. induction HF as [|e b He HF IH]; intros v Hv; [done|].
  cbn [foldl]. apply IH. destruct e as [c o r| | | | | | | | | | | | | |]; cbn [known_step]; try done.
  destruct o as [x|j|j|l|bc|j t]; try done; cbn; case_bool_decide as E; try done.
Qed.

Lemma issue_forg_only id a e : ~ forgets id e -> count_id id (of_kind Forg (issue a e)) = 0.
Proof.
  intros He. destruct e as [c o r| | | | | | | | | | | | | |]; cbn [issue]; try done. destruct o as [x|j|j|l|b|j t]; cbn [issue]; try done.
  - by destruct (known a _).
  - destruct (known a j) as [i|] eqn:Ek; [|done]. cbn. rewrite ?bool_decide_eq_true_2 by done. unfold count_id. cbn [List.filter].
    rewrite bool_decide_eq_false_2; [done|]. rewrite (known_id _ _ _ Ek). intros ->. by apply He.
  - by destruct (known a _).
Qed.

Lemma issues_forg_none id a b : Forall (fun e => ~ forgets id e) b -> count_id id (of_kind Forg (issues a b)) = 0.
Proof.
  intros HF. revert a. induction HF as [|e b He HF IH]; intros a; [done|]. cbn [issues]. rewrite of_kind_app, count_app, IH, issue_forg_only by done. done.
Qed.

Lemma told_at_most now ls1 ls2 s1 evs1 s2 evs2 id :
  mrun (m_init now) ls1 = Some (s1, evs1) -> mrun s1 ls2 = Some (s2, evs2) -> known (whole evs1) id <> None ->
  Forall (fun e => ~ forgets id e) (whole evs2) ->
  count_id id (delivered Disc (whole evs2)) + count_id id (waiting Disc (ms_core s2)) = count_id id (waiting Disc (ms_core s1)).
Proof.
  intros H1 H2 Hk HF. assert (mrun (m_init now) (ls1 ++ ls2) = Some (s2, evs1 ++ evs2)) as H12 by (unfold mrun in *; by rewrite run_app, H1, H2).
  destruct (m_run _ _ _ _ H1) as ((_ & _ & _ & Hi1) & _). destruct (m_run _ _ _ _ H12) as ((_ & _ & _ & Hi2) & _).
  specialize (Hi1 Disc). specialize (Hi2 Disc). apply (f_equal (count_id id)) in Hi1, Hi2.
  rewrite !whole_app, delivered_app, !count_app in Hi2. rewrite count_app in Hi1.
  pose proof (balance (whole evs1) id) as B1. pose proof (balance (whole evs1 ++ whole evs2) id) as B2.
  assert (count_id id (issued Forg (whole evs1 ++ whole evs2)) = count_id id (issued Forg (whole evs1))) as EF.
  { unfold issued. rewrite issues_app, of_kind_app, count_app, (issues_forg_none id _ _ HF). lia. }
  pose proof (known_stays id _ _ Hk HF) as Hk2. destruct (known (whole evs1) id); [|done]. destruct (known (whole evs1 ++ whole evs2) id); [|done]. lia.
Qed.

Lemma in_delivered r k x evs : (r, DHandle k x) ∈ evs -> ds_info x ∈ delivered k (whole evs).
Proof.
  intros Hin. unfold delivered. apply elem_of_list_omap. exists (DHandle k x). split; [|by rewrite bool_decide_eq_true_2].
  apply elem_of_list_fmap. by exists (r, DHandle k x).
Qed.
Lemma count_in id i l : i ∈ l -> i_id i = id -> 0 < count_id id l.
Proof.
  intros Hin <-. unfold count_id. apply elem_of_list_split in Hin as (l1 & l2 & ->). rewrite List.filter_app, app_length. cbn [List.filter].
  rewrite bool_decide_eq_true_2 by done. cbn. lia.
Qed.

(** ** A new call frees what was blocked *)

Lemma ctl_unused now ls s evs r : mrun (m_init now) ls = Some (s, evs) -> (forall lb, (r, lb) ∉ ls) -> ctl_at s r = rc_none.
Proof.
  intros Hr Hn. assert (Forall (fun l => fst l <> r) ls) as HF.
  { apply Forall_forall. intros [q lb] Hin E. cbn in E. subst q. by apply (Hn lb). }
  apply (run_inv mstep (fun s _ => ctl_at s r = rc_none) (fun l => fst l <> r) (m_init now) [] ls s evs) with (4 := Hr); [done| |done].
  intros s1 evs1 [q lb] s2 ev Hi Hq Hs. destruct (mstep_inv _ _ _ _ _ Hs) as (e & _ & _ & _ & Ho & _). rewrite Ho by (cbn in Hq; congruence). done.
Qed.

(** The steps of the handler goroutine of call [r], and the send of a blocked call. *)
Definition freeing (r : nat) (l : nat * dlabel) : Prop :=
  l = (r, LHandlerRet) \/ (exists k, l = (r, LTake k)) \/ snd l = LUnblock.

Definition at_work (s : mstate) (r : nat) : Prop := match rc_hand (ctl_at s r) with HSelect | HRunning _ _ => True | _ => False end.

Lemma free_one s r : at_work s r -> d_crashed (ms_core s) = false -> load (focus s r) <> 0 ->
  exists l s' ev, freeing r l /\ mstep s l = Some (s', ev) /\ at_work s' r /\ d_crashed (ms_core s') = false /\ load (focus s' r) < load (focus s r) /\
    (forall q k x, (q, DHandle k x) ∈ ev -> q = r).
Proof.
  intros Hw Hcr Hl.
  assert (forall lb d e, lb <> LUnblock -> dstep (focus s r) lb = Some (d, e) -> freeing r (r, lb) -> match d_hand d with HSelect | HRunning _ _ => True | _ => False end ->
    d_crashed d = false -> load d < load (focus s r) ->
    exists l s' ev, freeing r l /\ mstep s l = Some (s', ev) /\ at_work s' r /\ d_crashed (ms_core s') = false /\ load (focus s' r) < load (focus s r) /\
      (forall q k x, (q, DHandle k x) ∈ ev -> q = r)) as Hgo.
  { intros lb d e Hne Hd Hf Hh Hc Hlt. destruct (mstep_intro _ _ _ _ _ Hd ltac:(done)) as (s' & Hs & E).
    destruct (mstep_inv _ _ _ _ _ Hs) as (e' & _ & _ & Ef & _). exists (r, lb), s', (pair r <$> e). split; [done|]. split; [done|].
    rewrite E in Ef. split; [unfold at_work; change (rc_hand (ctl_at s' r)) with (d_hand (focus s' r)); by rewrite Ef|]. split; [by rewrite E|]. split; [by rewrite Ef|].
    intros q k x Hin. apply elem_of_list_fmap in Hin as (y & Ey & _). congruence. }
  unfold at_work in Hw. change (rc_hand (ctl_at s r)) with (d_hand (focus s r)) in Hw. change (d_crashed (ms_core s)) with (d_crashed (focus s r)) in Hcr.
  destruct (d_hand (focus s r)) as [| |k x| | |] eqn:Eh; try done.
  - destruct (d_held (focus s r)) as [[[c k] x]|] eqn:Ehd.
    + destruct (roomy (focus s r) k) eqn:Er.
      * (* the blocked send *)
        set (o := ms_owner s). assert (exists d, dstep (focus s o) LUnblock = Some (d, [DRet c]) /\ d = returns_to c (ds_held None (set_chan k (chan_of (focus s o) k ++ [x]) (focus s o)))) as (d & Hd & Ed).
        { unfold dstep. change (d_crashed (focus s o)) with (d_crashed (focus s r)). change (d_held (focus s o)) with (d_held (focus s r)).
          rewrite Hcr, Ehd. change (roomy (focus s o) k) with (roomy (focus s r) k). rewrite Er. by eexists. }
        destruct (mstep_intro _ _ _ _ _ Hd ltac:(done)) as (s' & Hs & E). destruct (mstep_inv _ _ _ _ _ Hs) as (e' & _ & _ & Ef & Hoth & _).
        exists (o, LUnblock), s', [(o, DRet c)]. split; [right; right; done|]. split; [done|].
        set (s1 := ds_held None (set_chan k (chan_of (focus s o) k ++ [x]) (focus s o))) in *.
        destruct (returns_core c s1) as [[E1 E2 E3 E4] [_ [E5 _]]]. rewrite <- Ed in E1, E2, E3, E4, E5.
        assert (d_hand (focus s' r) = HSelect \/ exists y, d_hand (focus s' r) = HRunning (fst y) (snd y) /\ False) as [Eh'|(? & _ & [])].
        { left. destruct (decide (r = o)) as [Eo|Hne].
          - rewrite Eo, Ef, E, Ed. destruct (unblock_ctl c k x (focus s o)) as (E6 & _). cbv zeta in E6. fold s1 in E6. rewrite E6, <- Eo, Eh. by destruct c.
          - change (rc_hand (ctl_at s' r) = HSelect). rewrite Hoth by done. exact Eh. }
        split; [unfold at_work; change (rc_hand (ctl_at s' r)) with (d_hand (focus s' r)); by rewrite Eh'|].
        split; [rewrite E, E5; destruct k; exact Hcr|]. split.
        -- unfold load. rewrite Eh', Eh, Ehd.
           change (d_disc (focus s' r)) with (d_disc (ms_core s')). change (d_forg (focus s' r)) with (d_forg (ms_core s')). change (d_held (focus s' r)) with (d_held (ms_core s')).
           rewrite E, E2, E3, E4. assert (d_held s1 = None) as -> by (by destruct k).
           assert (length (d_disc s1) + length (d_forg s1) = S (length (d_disc (focus s r)) + length (d_forg (focus s r)))) as E7 by (destruct k; cbn; rewrite app_length; cbn; lia).
           rewrite E7. lia.
        -- intros q j y Hin. apply elem_of_list_singleton in Hin. congruence.
      * destruct (chan_of (focus s r) k) as [|y q] eqn:Ec; [by unfold roomy in Er; rewrite Ec in Er|].
        eapply (Hgo (LTake k)); [done|unfold dstep; rewrite Hcr, Eh, Ec; reflexivity|right; left; by eexists|done|by destruct k|].
        unfold load. rewrite Eh, Ehd. destruct k; cbn [chan_of] in Ec; cbn [set_chan ds_hand ds_chans d_disc d_forg d_held d_hand]; rewrite Ec, Ehd; cbn [length]; lia.
    + destruct (d_disc (focus s r)) as [|y q] eqn:Ed.
      * destruct (d_forg (focus s r)) as [|y q] eqn:Ef; [unfold load in Hl; rewrite Ed, Ef, Ehd, Eh in Hl; cbn in Hl; lia|].
        eapply (Hgo (LTake Forg)); [done|unfold dstep; cbn [chan_of]; rewrite Hcr, Eh, Ef; reflexivity|right; left; by eexists|done|done|].
        unfold load. cbn [set_chan ds_hand ds_chans d_disc d_forg d_held d_hand]. rewrite Ed, Ef, Ehd, Eh. cbn [length]. lia.
      * eapply (Hgo (LTake Disc)); [done|unfold dstep; cbn [chan_of]; rewrite Hcr, Eh, Ed; reflexivity|right; left; by eexists|done|done|].
        unfold load. cbn [set_chan ds_hand ds_chans d_disc d_forg d_held d_hand]. rewrite Ed, Ehd, Eh. cbn [length]. lia.
  - eapply (Hgo LHandlerRet); [done|unfold dstep; rewrite Hcr, Eh; reflexivity|by left|done|done|].
    unfold load. cbn [ds_hand d_disc d_forg d_held d_hand]. rewrite Eh. lia.
Qed.

Lemma free_all s r : at_work s r -> d_crashed (ms_core s) = false ->
  exists ls s' evs, Forall (freeing r) ls /\ mrun s ls = Some (s', evs) /\ d_held (ms_core s') = None /\ (forall k, chan_of (ms_core s') k = []) /\
    (forall q k x, (q, DHandle k x) ∈ evs -> q = r).
Proof.
  remember (load (focus s r)) as n eqn:En. revert s En. induction (lt_wf n) as [n _ IH]. intros s -> Hw Hcr.
  destruct (decide (load (focus s r) = 0)) as [E0|Hne].
  - exists [], s, []. split; [constructor|]. split; [done|]. unfold load in E0. change (d_held (focus s r)) with (d_held (ms_core s)) in E0.
    destruct (d_held (ms_core s)); [lia|]. split; [done|]. split; [|by intros q k x ?%elem_of_nil].
    change (d_disc (focus s r)) with (d_disc (ms_core s)) in E0. change (d_forg (focus s r)) with (d_forg (ms_core s)) in E0.
    intros [|]; cbn [chan_of]; [destruct (d_disc (ms_core s))|destruct (d_forg (ms_core s))]; cbn [length] in E0; try done; lia.
  - destruct (free_one s r Hw Hcr Hne) as (l & s1 & ev & Hf & Hs & Hw1 & Hc1 & Hlt & Hev).
    destruct (IH _ Hlt s1 eq_refl Hw1 Hc1) as (ls & s2 & evs & HF & Hr & Hh & Hch & Hevs).
    exists (l :: ls), s2, (ev ++ evs). split; [by constructor|]. split; [unfold mrun in *; cbn [run]; by rewrite Hs, Hr|]. split; [done|]. split; [done|].
    intros q k x Hin. apply elem_of_app in Hin as [Hin|Hin]; eauto.
Qed.

Lemma progress_runs now ls s evs r : mrun (m_init now) ls = Some (s, evs) -> d_crashed (ms_core s) = false -> at_work s r ->
  exists ls' s' evs', Forall (freeing r) ls' /\ mrun s ls' = Some (s', evs') /\ d_held (ms_core s') = None /\
    (forall k, delivered k (whole (evs ++ evs')) = issued k (whole (evs ++ evs'))) /\ (forall q k x, (q, DHandle k x) ∈ evs' -> q = r).
Proof.
  intros Hr Hc Hw. destruct (free_all s r Hw Hc) as (ls' & s' & evs' & HF & Hr' & Hh & Hch & Hev). exists ls', s', evs'.
  split; [done|]. split; [done|]. split; [done|]. split; [|done]. intros k.
  assert (mrun (m_init now) (ls ++ ls') = Some (s', evs ++ evs')) as Hall by (unfold mrun in *; by rewrite run_app, Hr, Hr').
  destruct (m_run _ _ _ _ Hall) as ((_ & _ & _ & Hi) & _). rewrite <- Hi. unfold waiting. by rewrite Hh, Hch, app_nil_r.
Qed.

Lemma start_run s r : d_crashed (ms_core s) = false -> ctl_at s r = rc_none ->
  exists s', mstep s (r, LRun) = Some (s', []) /\ same_core (ms_core s) (ms_core s') /\ d_crashed (ms_core s') = false /\ at_work s' r.
Proof.
  intros Hc Hn. destruct (mstep_intro s r LRun (ds_run RNext (ds_hand HSelect (focus s r))) []) as (s' & Hs & E).
  - unfold dstep. change (d_crashed (focus s r)) with (d_crashed (ms_core s)). rewrite Hc. change (d_run (focus s r)) with (rc_run (ctl_at s r)). by rewrite Hn.
  - done.
  - exists s'. split; [done|]. destruct (mstep_inv _ _ _ _ _ Hs) as (e & _ & _ & Ef & _).
    split; [by rewrite E|]. split; [by rewrite E|]. unfold at_work. change (rc_hand (ctl_at s' r)) with (d_hand (focus s' r)). by rewrite Ef, E.
Qed.

(** ** No new call: for ever *)

(** A call waits for room and no handler goroutine is in its select or runs a
    handler that has not called back. *)
Definition all_stuck (s : mstate) : Prop :=
  (exists c k x, d_held (ms_core s) = Some (c, k, x) /\ roomy (ms_core s) k = false) /\
  forall r, match rc_hand (ctl_at s r) with HSelect | HRunning _ _ => False | _ => True end.

Lemma stuck_step s l s' ev : all_stuck s -> snd l <> LRun -> mstep s l = Some (s', ev) ->
  all_stuck s' /\ same_core (ms_core s) (ms_core s') /\ Forall plain (whole ev).
Proof.
  intros ((c & k & x & Hh & Hr) & Hall) Hl Hs. destruct l as [r lb]. destruct (mstep_inv _ _ _ _ _ Hs) as (e & Hd & -> & Ef & Ho & _). rewrite whole_pair.
  pose proof (Hall r) as Hw. change (rc_hand (ctl_at s r)) with (d_hand (focus s r)) in Hw.
  change (d_held (ms_core s)) with (d_held (focus s r)) in Hh. change (roomy (ms_core s) k) with (roomy (focus s r) k) in Hr.
  assert (same_core (focus s r) (ms_core s') /\ Forall plain e) as [Hc HF].
  { destruct (core_cases _ _ _ _ Hd) as [c' o Hc|c' k' x' _ Hh' Hr'|k' x' q _ Hh'|Hc HF]; [| | |done].
    - unfold call in Hc. by rewrite Hh in Hc.
    - assert (k' = k) as -> by congruence. congruence.
    - by rewrite Hh' in Hw. }
  split; [|split; [destruct Hc; by split|exact HF]]. split.
  - exists c, k, x. rewrite (sc_held _ _ Hc). split; [exact Hh|]. unfold roomy. rewrite (core_chan _ _ k Hc). exact Hr.
  - intros q. destruct (decide (q = r)) as [->|Hne]; [|rewrite Ho by done; apply Hall].
    change (rc_hand (ctl_at s' r)) with (d_hand (focus s' r)). rewrite Ef.
    destruct (ctl_cases _ _ _ _ Hd) as [c' o ev' Hcc|c' k' x' _ Hh' Hr'|Elb| E1 E2| E1 E2|k' x' E1 E2|k' x' E1 E2|k' x' o E1 E2|E1 E2 E3 E4|b E1 E2|E1].
    + unfold call in Hcc. by rewrite Hh in Hcc.
    + assert (k' = k) as -> by congruence. congruence.
    + done.
    + by rewrite E2.
    + by rewrite E2.
    + by rewrite E2 in Hw.
    + by rewrite E2 in Hw.
    + by rewrite E2 in Hw.
    + by rewrite E4.
    + by rewrite E2.
    + by rewrite E1.
Qed.

Lemma stuck_forever s ls s' evs : all_stuck s -> (forall r, (r, LRun) ∉ ls) -> mrun s ls = Some (s', evs) ->
  all_stuck s' /\ same_core (ms_core s) (ms_core s') /\ Forall plain (whole evs).
Proof.
  intros Hd Hn Hr. assert (Forall (fun l : nat * dlabel => snd l <> LRun) ls) as HF.
  { apply Forall_forall. intros [q lb] Hin E. cbn in E. subst lb. by apply (Hn q). }
  apply (run_inv mstep (fun s' evs => all_stuck s' /\ same_core (ms_core s) (ms_core s') /\ Forall plain (whole evs))
    (fun l => snd l <> LRun) s [] ls s' evs) with (4 := Hr); [split; [done|]; split; [by split|constructor]| |done].
  intros s1 evs1 l s2 ev (H1 & H2 & H3) Hl Hs. destruct (stuck_step _ _ _ _ H1 Hl Hs) as (G1 & G2 & G3). split; [done|].
  split; [|rewrite whole_app; by apply Forall_app]. destruct H2 as [A1 A2 A3 A4], G2 as [B1 B2 B3 B4]. split; congruence.
Qed.

(** ** The end of a handler goroutine *)

Lemma ended_step s r l s' ev : rc_hand (ctl_at s r) = HEnded -> rc_run (ctl_at s r) <> RIdle -> mstep s l = Some (s', ev) ->
  rc_hand (ctl_at s' r) = HEnded /\ rc_run (ctl_at s' r) <> RIdle /\ forall k x, (r, DHandle k x) ∉ ev.
Proof.
  intros He Hi Hs. destruct l as [q lb]. destruct (mstep_inv _ _ _ _ _ Hs) as (e & Hd & -> & Ef & Ho & _).
  destruct (decide (q = r)) as [->|Hne].
  - change (rc_hand (ctl_at s' r)) with (d_hand (focus s' r)). change (rc_run (ctl_at s' r)) with (d_run (focus s' r)). rewrite Ef.
    change (rc_hand (ctl_at s r)) with (d_hand (focus s r)) in He. change (rc_run (ctl_at s r)) with (d_run (focus s r)) in Hi.
    assert (d_hand (ms_core s') = HEnded /\ d_run (ms_core s') <> RIdle) as [H1 H2].
    { destruct (ctl_cases _ _ _ _ Hd) as [c' o ev' Hcc|c' k' x' _ Hh' Hr' Er|Elb E2| E1 E2| E1 E2 E3|k' x' E1 E2|k' x' E1 E2|k' x' o E1 E2|E1 E2 E3 E4|b E1 E2 E3|E1 E2].
      - destruct (call_hand _ _ _ _ _ Hcc) as (Eh & _). rewrite (call_run _ _ _ _ _ Hcc), Eh, He. split; [by destruct c'|]. destruct c'; try done. by destruct (d_held _).
      - rewrite Er. destruct (unblock_ctl c' k' x' (focus s r)) as (G1 & G2 & _). cbv zeta in G1, G2. rewrite G1, G2, He. split; [by destruct c'|]. by destruct c'.
      - by rewrite E2 in Hi.
      - rewrite E2. split; [done|]. subst lb. unfold dstep in Hd. destruct (d_crashed _); [done|]. destruct (d_run (focus s r)); try done. by injection Hd as <- _.
      - by rewrite E2, E3.
      - by rewrite E2 in He.
      - by rewrite E2 in He.
      - by rewrite E2 in He.
      - by rewrite E2 in He.
      - by rewrite E2, E3.
      - by rewrite E1, E2. }
    split; [done|]. split; [done|]. intros k x Hin. apply elem_of_list_fmap in Hin as (y & Ey & Hin). injection Ey as <-.
    destruct (core_cases _ _ _ _ Hd) as [c' o Hc|c' k' x' _ Hh' Hr' _ _ _ ->|k' x' q _ Hh'|Hc HF].
    + destruct (call_called _ _ _ _ _ Hc) as [m r' n _ _ _ Hn].
      destruct n as [[j y]|]; [destruct Hn as [(_ & _ & _ & ->)|(_ & _ & _ & ->)]|destruct Hn as (_ & _ & ->)];
        repeat (apply elem_of_cons in Hin as [Hin|Hin]; [discriminate Hin|]); by apply elem_of_nil in Hin.
    + apply elem_of_list_singleton in Hin. discriminate Hin.
    + by rewrite Hh' in He.
    + by apply (proj1 (Forall_forall _ _) HF) in Hin.
  - rewrite Ho by done. split; [done|]. split; [done|]. intros k x Hin. apply elem_of_list_fmap in Hin as (y & Ey & _). congruence.
Qed.

Lemma ended_run s r ls s' evs : rc_hand (ctl_at s r) = HEnded -> rc_run (ctl_at s r) <> RIdle -> mrun s ls = Some (s', evs) -> forall k x, (r, DHandle k x) ∉ evs.
Proof.
  intros He Hi Hr.
  apply (run_inv mstep (fun s' evs => (rc_hand (ctl_at s' r) = HEnded /\ rc_run (ctl_at s' r) <> RIdle) /\ forall k x, (r, DHandle k x) ∉ evs)
    (fun _ => True) s [] ls s' evs) with (4 := Hr); [split; [done|]; by intros k x ?%elem_of_nil| |by apply Forall_true].
  intros s1 evs1 l s2 ev [[H1 H2] H3] _ Hs. destruct (ended_step _ _ _ _ _ H1 H2 Hs) as (G1 & G2 & G3). split; [done|].
  intros k x Hin. apply elem_of_app in Hin as [Hin|Hin]; [by eapply H3|by eapply G3].
Qed.

(** A handler goroutine that is there was started by Run. *)
Definition begun (c : rctl) : Prop := rc_hand c = HNone \/ rc_run c <> RIdle.

Lemma begun_step s lb s' ev : d_hand s = HNone \/ d_run s <> RIdle -> dstep s lb = Some (s', ev) -> d_hand s' = HNone \/ d_run s' <> RIdle.
Proof.
  intros Hb Hd.
  destruct (ctl_cases _ _ _ _ Hd) as [c' o ev' Hcc|c' k' x' _ Hh' Hr' Er|Elb E2 E3 E4| E1 E2| E1 E2 E3|k' x' E1 E2 E3 E4|k' x' E1 E2 E3 E4|k' x' o E1 E2 E3 E4|E1 E2 E3 E4 E5|b E1 E2 E3|E1 E2].
  - destruct (call_hand _ _ _ _ _ Hcc) as (Eh & _). rewrite (call_run _ _ _ _ _ Hcc), Eh.
    destruct Hb as [Hb|Hb]; [left; rewrite Hb; by destruct c'|right]. destruct c'; try done. by destruct (d_held _).
  - rewrite Er. destruct (unblock_ctl c' k' x' s) as (G1 & G2 & _). cbv zeta in G1, G2. rewrite G1, G2.
    destruct Hb as [Hb|Hb]; [left; rewrite Hb; by destruct c'|right]. by destruct c'.
  - right. by rewrite E4.
  - right. subst lb. unfold dstep in Hd. destruct (d_crashed _); [done|]. destruct (d_run s); try done. by injection Hd as <- _.
  - by rewrite E2, E3.
  - right. rewrite E4. destruct Hb; [congruence|done].
  - right. rewrite E4. destruct Hb; [congruence|done].
  - right. rewrite E4. destruct Hb; [congruence|done].
  - right. rewrite E5. destruct Hb; [congruence|done].
  - right. by rewrite E3.
  - by rewrite E1, E2.
Qed.

Lemma begun_run now ls s evs r : mrun (m_init now) ls = Some (s, evs) -> begun (ctl_at s r).
Proof.
  intros Hr. apply (run_inv mstep (fun s _ => begun (ctl_at s r)) (fun _ => True) (m_init now) [] ls s evs) with (4 := Hr); [by left| |by apply Forall_true].
  intros s1 evs1 [q lb] s2 ev Hi _ Hs. destruct (mstep_inv _ _ _ _ _ Hs) as (e & Hd & _ & Ef & Ho & _).
  destruct (decide (r = q)) as [->|Hne]; [|by rewrite Ho].
  change (d_hand (focus s2 q) = HNone \/ d_run (focus s2 q) <> RIdle). rewrite Ef. apply (begun_step (focus s1 q) lb _ e); [exact Hi|exact Hd].
Qed.

Lemma ended_never now ls1 ls2 r s evs1 s' evs2 : mrun (m_init now) (ls1 ++ [(r, LHandlerEnd)]) = Some (s, evs1) -> mrun s ls2 = Some (s', evs2) ->
  forall k x, (r, DHandle k x) ∉ evs2.
Proof.
  intros H1 H2. pose proof (begun_run _ _ _ _ r H1) as Hb. apply run_snoc in H1 as (s0 & e0 & e1 & H0 & Hs & ->).
  destruct (mstep_inv _ _ _ _ _ Hs) as (e & Hd & _ & Ef & _).
  assert (rc_hand (ctl_at s r) = HEnded) as He.
  { change (d_hand (focus s r) = HEnded). rewrite Ef. unfold dstep in Hd. destruct (d_crashed _); [done|]. destruct (d_hand (focus s0 r)); try done.
    destruct (d_run (focus s0 r)); try (destruct (d_cancelled (focus s0 r)); [|done]); by injection Hd as <- _. }
  apply (ended_run s r ls2 s' evs2); [done| |done]. destruct Hb as [Hb|Hb]; [congruence|done].
Qed.
