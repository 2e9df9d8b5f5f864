(** Discovery: deadlock and progress, bad messages. *)
From Coq Require Import ZArith NArith Ascii String Lia.
From stdpp Require Import base gmap strings list sorting.
From Verif Require Import GoBase Encoding Records Messages Run Keepalive Discovery DiscoveryFacts DiscoveryLive.

Local Open Scope list_scope.

(** ** Run and the handler goroutine *)

Lemma call_run c o s s' ev : call c o s = Some (s', ev) ->
  d_run s' = match c with ByRun => if d_held s' then RBlocked else RNext | _ => d_run s end.
Proof.
  unfold call. destruct (d_held s) eqn:Eh; [done|]. destruct (effect _ _ _) as [[[m r] [[k x]|]]|] eqn:Ee; [| |done].
  - destruct (roomy s k) eqn:Er; intros H; injection H as <- <-.
    + set (s1 := set_chan k _ _). destruct (returns_core c s1) as [[_ _ _ Hh] _]. rewrite Hh.
      assert (d_held s1 = None) as -> by (by destruct k). assert (d_run s1 = d_run s) as E1 by (by destruct k).
      destruct c; cbn [returns_to]; try done. by destruct (d_hand s1).
    + set (s1 := ds_held _ _). destruct (blocks_core c s1) as [[_ _ _ Hh] _]. rewrite Hh. destruct c; cbn [blocks_in]; try done. by destruct (d_hand s1).
  - intros H; injection H as <- <-.
    set (s1 := ds_map _ _). destruct (returns_core c s1) as [[_ _ _ Hh] _]. rewrite Hh.
    assert (d_held s1 = None) as -> by done. destruct c; cbn [returns_to]; try done. by destruct (d_hand s1).
Qed.

Inductive ctl (s s' : dstate) (lb : dlabel) : Prop :=
  | c_call c o ev : call c o s = Some (s', ev) -> ctl s s' lb
  | c_unblock c k x : lb = LUnblock -> d_held s = Some (c, k, x) -> roomy s k = true ->
      s' = returns_to c (ds_held None (set_chan k (chan_of s k ++ [x]) s)) -> ctl s s' lb
  | c_run : lb = LRun -> d_run s = RIdle -> d_hand s' = HSelect -> d_run s' = RNext -> d_cancelled s' = d_cancelled s -> ctl s s' lb
  | c_runerr : lb = LRunErr -> d_hand s' = d_hand s -> ctl s s' lb
  | c_cancel : lb = LDCancel -> d_hand s' = d_hand s -> d_run s' = d_run s -> ctl s s' lb
  | c_take k x : lb = LTake k -> d_hand s = HSelect -> d_hand s' = HRunning k x -> d_run s' = d_run s -> d_cancelled s' = d_cancelled s -> ctl s s' lb
  | c_ret k x : lb = LHandlerRet -> d_hand s = HRunning k x -> d_hand s' = HSelect -> d_run s' = d_run s -> d_cancelled s' = d_cancelled s -> ctl s s' lb
  | c_hcall k x o : lb = LHandlerCall o -> d_hand s = HRunning k x -> d_hand s' = HWants k x o -> d_run s' = d_run s -> d_cancelled s' = d_cancelled s -> ctl s s' lb
  | c_hend : lb = LHandlerEnd -> d_hand s = HSelect -> d_run s = RDoneRun \/ d_cancelled s = true -> d_hand s' = HEnded -> d_run s' = d_run s ->
      d_cancelled s' = d_cancelled s -> ctl s s' lb
  | c_msg b : d_run s = RNext -> d_hand s' = d_hand s -> d_run s' = RObserve b -> d_cancelled s' = d_cancelled s -> ctl s s' lb
  | c_same : d_hand s' = d_hand s -> d_run s' = d_run s -> d_cancelled s' = d_cancelled s -> ctl s s' lb.

Lemma ctl_cases s lb s' ev : dstep s lb = Some (s', ev) -> ctl s s' lb.
Proof.
  unfold dstep. destruct (d_crashed s); [done|]. intros H.
  assert (forall w, label_of lb = Some w -> match d_watches s !! w with Some x => watch_step s w x lb | None => None end = Some (s', ev) -> ctl s s' lb) as Hw.
  { intros w Hl Hx. destruct (d_watches s !! w) as [x|] eqn:Ex; [|done].
    destruct (watch_own _ _ _ _ _ _ Hx Hl) as [(y & Ho & ->)|[(t & n & -> & Ep & Hc)|(-> & Ep & Hc)]]; try (by eapply c_call); by apply c_same. }
  destruct lb; try (eapply Hw; [reflexivity|exact H]); clear Hw.
  - destruct (0 <=? dt)%Z; [|done]. injection H as <- <-. by apply c_same.
  - eapply c_call. destruct o; try done; exact H.
  - destruct (d_held s) as [[[c k] x]|] eqn:Eh; [|done]. destruct (roomy s k) eqn:Er; [|done]. injection H as <- <-. by eapply c_unblock.
  - destruct (d_run s) eqn:E; try done. injection H as <- <-. by apply c_run.
  - destruct (d_run s) eqn:E; try done. injection H as H. unfold run_msg in H. open_step H; injection H as <- <-; try (by apply c_same).
    by eapply c_msg.
  - destruct (d_run s); try done. injection H as <- <-. by apply c_runerr.
  - destruct (d_run s) eqn:Er; try done. by eapply c_call.
  - injection H as <- <-. by apply c_cancel.
  - destruct (d_hand s) eqn:Eh; try done. destruct (chan_of s k) as [|x q] eqn:Ec; [done|]. injection H as <- <-. eapply c_take; try done; by destruct k.
  - destruct (d_hand s) eqn:Eh; try done. injection H as <- <-. by eapply c_ret.
  - destruct (d_hand s) eqn:Eh; try done. destruct o; try done; injection H as <- <-; by eapply c_hcall.
  - destruct (d_hand s) eqn:Eh; try done. by eapply c_call.
  - destruct (d_hand s) eqn:Eh; try done.
    destruct (d_run s) eqn:E; try (destruct (d_cancelled s) eqn:E2; [|done]); injection H as <- <-; apply c_hend; auto.
  - destruct (d_held s) eqn:Eh; [done|]. destruct (d_map s !! w_id c) eqn:Em; injection H as <- <-; by apply c_same.
Qed.

Lemma unblock_ctl c k x s : let s' := returns_to c (ds_held None (set_chan k (chan_of s k ++ [x]) s)) in
  d_hand s' = match c, d_hand s with ByHandler, (HWants k x _ | HBlocked k x) => HRunning k x | _, h => h end /\
  d_run s' = match c with ByRun => RNext | _ => d_run s end /\ d_cancelled s' = d_cancelled s.
Proof.
  assert (d_hand (ds_held None (set_chan k (chan_of s k ++ [x]) s)) = d_hand s) as E by (by destruct k).
  destruct c; cbn [returns_to]; rewrite ?E; destruct k; try done; by destruct (d_hand s).
Qed.

(** ** Deadlock *)

(** A call holds the lock, waiting for room, and the goroutine that should make
    room waits for the lock, or has ended. *)
Definition deadlocked (s : dstate) : Prop :=
  (exists c k x, d_held s = Some (c, k, x) /\ roomy s k = false) /\ d_run s <> RIdle /\
  match d_hand s with HWants _ _ _ | HBlocked _ _ | HEnded => True | _ => False end.

Lemma deadlock_step s lb s' ev : deadlocked s -> dstep s lb = Some (s', ev) ->
  deadlocked s' /\ d_held s' = d_held s /\ d_map s' = d_map s /\ d_hand s' = d_hand s /\ Forall plain ev.
Proof.
  intros ((c & k & x & Hh & Hr) & Hrun & Hd) Hs.
  destruct (core_cases _ _ _ _ Hs) as [c' o Hc|c' k' x' _ Hh' Hr'|k' x' q _ Hh'|Hc HF].
  - unfold call in Hc. by rewrite Hh in Hc.
  - assert (k' = k) as -> by congruence. congruence.
  - by rewrite Hh' in Hd.
  - destruct Hc as [Em Ed Ef Eh].
    assert (d_hand s' = d_hand s /\ d_run s' <> RIdle) as [E1 E2].
    { destruct (ctl_cases _ _ _ _ Hs) as [c' o ev' Hc|c' k' x' _ Hh' Hr'| | | | | | | | |]; try congruence.
      all: try (by repeat match goal with H : d_hand _ = _ |- _ => rewrite H in Hd end).
      all: try (split; [done|congruence]).
      - unfold call in Hc. by rewrite Hh in Hc.
      - subst lb. split; [done|]. unfold dstep in Hs. destruct (d_crashed s); [done|]. destruct (d_run s); try done. by injection Hs as <- _.
 }
    split; [|by rewrite Eh, Em].
    split; [exists c, k, x; rewrite Eh; split; [done|]|split; [done|by rewrite E1]].
    unfold roomy, chan_of in *. by rewrite Ed, Ef.
Qed.

Lemma deadlock_forever s ls s' evs : deadlocked s -> drun s ls = Some (s', evs) ->
  deadlocked s' /\ d_held s' = d_held s /\ d_map s' = d_map s /\ d_hand s' = d_hand s /\ Forall plain evs.
Proof.
  intros Hd Hr.
  apply (run_inv dstep (fun s' evs => deadlocked s' /\ d_held s' = d_held s /\ d_map s' = d_map s /\ d_hand s' = d_hand s /\ Forall plain evs)
    (fun _ => True) s [] ls s' evs) with (4 := Hr); [done| |by apply Forall_true].
  intros s1 evs1 l s2 ev (H1 & H2 & H3 & H4 & H5) _ Hs. destruct (deadlock_step _ _ _ _ H1 Hs) as (G1 & G2 & G3 & G4 & G5).
  split; [done|]. split; [congruence|]. split; [congruence|]. split; [congruence|]. by apply Forall_app.
Qed.

(** ** Progress *)

(** The handlers do not call back, and Run goes on. *)
Definition calm (lb : dlabel) : Prop := match lb with LHandlerCall _ | LDCancel | LRunErr => False | _ => True end.

Definition calm_inv (s : dstate) : Prop :=
  d_cancelled s = false /\ d_run s <> RDoneRun /\ match d_hand s with HNone | HSelect | HRunning _ _ => True | _ => False end.

Lemma calm_step s lb s' ev : calm_inv s -> calm lb -> dstep s lb = Some (s', ev) -> calm_inv s' /\ (d_hand s <> HNone \/ lb = LRun -> d_hand s' <> HNone).
Proof.
  intros (H1 & H2 & H3) Hlb Hs. unfold calm_inv.
  assert (lb = LRun -> d_hand s' = HSelect) as Hlr.
  { intros ->. unfold dstep in Hs. destruct (d_crashed s); [done|]. destruct (d_run s); try done. by injection Hs as <- <-. }
  destruct (ctl_cases _ _ _ _ Hs) as [c o ev' Hc|c k x -> Hh Hr ->| -> E0 E1 E2 E3| | |k x -> E0 E1 E2 E3|k x -> E0 E1 E2 E3|k x o -> _ _ _ _| |b E0 E1 E2 E3|E1 E2 E3]; try (by subst lb); try (exfalso; exact Hlb).
  - destruct (call_hand _ _ _ _ _ Hc) as (Eh & _ & Ec). rewrite (call_run _ _ _ _ _ Hc), Ec, Eh.
    split.
    + split; [done|]. split; [destruct c; try done; by destruct (d_held s')|]. destruct c; try done. by destruct (d_hand s).
    + intros [Hn|Hn].
      * destruct c; try done. destruct (d_hand s); try done; by destruct (d_held s').
      * rewrite <- Eh. by rewrite (Hlr Hn).
  - destruct (unblock_ctl c k x s) as (Eh & Er & Ec). cbv zeta in *. rewrite Eh, Er, Ec. split.
    + split; [done|]. split; [by destruct c|]. destruct c; try done. by destruct (d_hand s).
    + intros [Hn|]; [|done]. destruct c; try done. by destruct (d_hand s).
  - rewrite E1, E2, E3. done.
  - rewrite E1, E2, E3. done.
  - rewrite E1, E2, E3. done.
  - match goal with H : _ \/ _ |- _ => destruct H; congruence end.
  - rewrite E1, E2, E3. split; [done|]. intros [|Hn]; [done|]. by rewrite <- E1, (Hlr Hn).
  - rewrite E1, E2, E3. split; [done|]. intros [|Hn]; [done|]. by rewrite <- E1, (Hlr Hn).
Qed.

Lemma calm_run now ls s evs : drun (d_init now) ls = Some (s, evs) -> Forall calm ls -> calm_inv s /\ (LRun ∈ ls -> d_hand s <> HNone).
Proof.
  intros Hr HF. revert evs s Hr. induction ls as [|l ls IH] using rev_ind; intros evs s Hr.
  - cbn [run] in Hr. assert (s = d_init now) as -> by congruence. split; [by split|]. by intros ?%elem_of_nil.
  - apply run_snoc in Hr as (s1 & ev1 & ev2 & H1 & H2 & ->). apply Forall_app in HF as [HF Hl]. apply Forall_cons in Hl as [Hl _].
    destruct (IH HF _ _ H1) as [Hi Hn]. destruct (calm_step _ _ _ _ Hi Hl H2) as [Hi' Hn']. split; [done|].
    rewrite elem_of_app, elem_of_list_singleton. intros [Hin|Heq]; apply Hn'; [left; by apply Hn|by right].
Qed.

Definition cap_inv (s : dstate) : Prop := length (d_disc s) <= chan_cap /\ length (d_forg s) <= chan_cap.

Lemma cap_chan s k : cap_inv s -> length (chan_of s k) <= chan_cap.
Proof. intros []. by destruct k. Qed.
Lemma cap_of s : (forall k, length (chan_of s k) <= chan_cap) -> cap_inv s.
Proof. intros H. split; [exact (H Disc)|exact (H Forg)]. Qed.

Lemma cap_step s lb s' ev : cap_inv s -> dstep s lb = Some (s', ev) -> cap_inv s'.
Proof.
  intros Hi Hs. apply cap_of. intros j. pose proof (cap_chan _ j Hi) as Hj.
  destruct (core_cases _ _ _ _ Hs) as [c o Hc|c k x -> Hh Hr Em Hch Eh ->|k x q -> _ _ Eq Em Hch Eh ->|Hc HF].
  - destruct (call_called _ _ _ _ _ Hc) as [m r n Hh He Em Hn]. destruct n as [[k x]|].
    + destruct Hn as [(Hr & -> & _)|(_ & -> & _)]; [|done]. destruct (bool_decide (j = k)) eqn:E; [|done]. apply bool_decide_eq_true in E as ->.
      apply Nat.ltb_lt in Hr. rewrite app_length. cbn. lia.
    + by destruct Hn as (-> & _).
  - rewrite Hch. destruct (bool_decide (j = k)) eqn:E; [|done]. apply bool_decide_eq_true in E as ->. apply Nat.ltb_lt in Hr. rewrite app_length. cbn. lia.
  - rewrite Hch. destruct (bool_decide (j = k)) eqn:E; [|done]. apply bool_decide_eq_true in E as ->. rewrite Eq in Hj. cbn in Hj. lia.
  - by rewrite (core_chan _ _ j Hc).
Qed.
Lemma cap_run now ls s evs : drun (d_init now) ls = Some (s, evs) -> cap_inv s.
Proof.
  intros Hr. apply (run_inv dstep (fun s _ => cap_inv s) (fun _ => True) (d_init now) [] ls s evs) with (4 := Hr); [split; cbn; lia| |by apply Forall_true].
  intros s1 evs1 l s2 ev Hi _ Hs. by eapply cap_step.
Qed.

(** The steps of the handler goroutine, and the send of a blocked call. *)
Definition draining (lb : dlabel) : Prop := match lb with LTake _ | LHandlerRet | LUnblock => True | _ => False end.

Definition load (s : dstate) : nat := 3 * (length (d_disc s) + length (d_forg s)) + (if d_held s then 4 else 0) +
  match d_hand s with HRunning _ _ => 1 | _ => 0 end.

Lemma drain_one s : calm_inv s -> d_hand s <> HNone -> d_crashed s = false -> cap_inv s -> load s <> 0 ->
  exists lb s' ev, draining lb /\ dstep s lb = Some (s', ev) /\ d_crashed s' = false /\ load s' < load s.
Proof.
  intros (H1 & H2 & H3) Hn Hcr Hcap Hl.
  destruct (d_hand s) as [| |k x| | |] eqn:Eh; try done.
  - (* the select *)
    destruct (d_held s) as [[[c k] x]|] eqn:Ehd.
    + destruct (roomy s k) eqn:Er.
      * exists LUnblock. unfold dstep. rewrite Hcr, Ehd, Er. eexists _, _. split; [done|]. split; [reflexivity|].
        set (s1 := ds_held _ _). destruct (returns_core c s1) as [[E1 E2 E3 E4] [_ [E5 _]]]. split; [rewrite E5; by destruct k|].
        unfold load. destruct (unblock_ctl c k x s) as (E6 & _ & _). cbv zeta in E6. fold s1 in E6. rewrite E2, E3, E4, E6, Eh, Ehd.
        assert (d_held s1 = None) as -> by (by destruct k).
        assert (length (d_disc s1) + length (d_forg s1) = S (length (d_disc s) + length (d_forg s))) as E7 by (destruct k; cbn; rewrite app_length; cbn; lia).
        rewrite E7. destruct c; lia.
      * exists (LTake k). unfold dstep. rewrite Hcr, Eh. destruct (chan_of s k) as [|y q] eqn:Ec; [by unfold roomy in Er; rewrite Ec in Er|].
        eexists _, _. split; [done|]. split; [reflexivity|]. unfold load. rewrite Eh. destruct k; cbn in *; rewrite Ec, Ehd, ?Hcr; cbn; (split; [done|lia]).
    + destruct (d_disc s) as [|y q] eqn:Ed.
      * destruct (d_forg s) as [|y q] eqn:Ef; [unfold load in Hl; rewrite Ed, Ef, Ehd, Eh in Hl; cbn in Hl; lia|].
        exists (LTake Forg). unfold dstep. cbn [chan_of]. rewrite Hcr, Eh, Ef. eexists _, _. split; [done|]. split; [reflexivity|]. unfold load. cbn.
        rewrite Ed, Ef, Ehd, Eh. cbn. split; [done|lia].
      * exists (LTake Disc). unfold dstep. cbn [chan_of]. rewrite Hcr, Eh, Ed. eexists _, _. split; [done|]. split; [reflexivity|]. unfold load. cbn.
        rewrite Ed, Ehd, Eh. cbn. split; [done|lia].
  - exists LHandlerRet. unfold dstep. rewrite Hcr, Eh. eexists _, _. split; [done|]. split; [reflexivity|]. unfold load. cbn. rewrite Eh. split; [done|lia].
Qed.

Lemma drain s : calm_inv s -> d_hand s <> HNone -> d_crashed s = false -> cap_inv s ->
  exists ls s' evs, Forall draining ls /\ drun s ls = Some (s', evs) /\ d_held s' = None /\ d_disc s' = [] /\ d_forg s' = [] /\ d_hand s' = HSelect.
Proof.
  remember (load s) as n eqn:En. revert s En. induction (lt_wf n) as [n _ IH]. intros s -> Hc Hn Hcr Hcap.
  destruct (decide (load s = 0)) as [E0|Hne].
  - exists [], s, []. split; [constructor|]. split; [done|]. unfold load in E0. destruct (d_held s); [lia|].
    destruct (d_disc s); [|cbn in E0; lia]. destruct (d_forg s); [|cbn in E0; lia]. destruct Hc as (_ & _ & Hc). destruct (d_hand s); try done.
  - destruct (drain_one s Hc Hn Hcr Hcap Hne) as (lb & s1 & ev & Hlb & Hs & Hcr1 & Hlt).
    assert (calm lb) as Hcalm by (by destruct lb). destruct (calm_step _ _ _ _ Hc Hcalm Hs) as [Hc1 Hn1].
    destruct (IH (load s1) Hlt s1 eq_refl Hc1 (Hn1 (or_introl Hn)) Hcr1 (cap_step _ _ _ _ Hcap Hs)) as (ls & s2 & evs & HF & Hr & Hend).
    exists (lb :: ls), s2, (ev ++ evs). split; [by constructor|]. split; [|done]. cbn [run]. by rewrite Hs, Hr.
Qed.

Lemma progress now ls s evs : drun (d_init now) ls = Some (s, evs) -> Forall calm ls -> LRun ∈ ls -> d_crashed s = false ->
  exists ls' s' evs', Forall draining ls' /\ drun s ls' = Some (s', evs') /\ d_held s' = None /\
    forall k, delivered k (evs ++ evs') = issued k (evs ++ evs').
Proof.
  intros Hr HF Hin Hcr. destruct (calm_run _ _ _ _ Hr HF) as [Hc Hn].
  destruct (drain s Hc (Hn Hin) Hcr (cap_run _ _ _ _ Hr)) as (ls' & s' & evs' & HF' & Hr' & Eh & Ed & Ef & _).
  exists ls', s', evs'. split; [done|]. split; [done|]. split; [done|]. intros k.
  assert (drun (d_init now) (ls ++ ls') = Some (s', evs ++ evs')) as Hall by (by rewrite run_app, Hr, Hr').
  destruct (map_run _ _ _ _ Hall) as (_ & _ & _ & Hd). specialize (Hd k). unfold waiting in Hd. rewrite Eh in Hd.
  assert (chan_of s' k = []) as E by (by destruct k). rewrite E in Hd. cbn in Hd. by rewrite app_nil_r in Hd.
Qed.

(** ** Bad messages *)

Lemma crash_only s lb s' ev : d_crashed s = false -> dstep s lb = Some (s', ev) -> d_crashed s' = true ->
  exists m, lb = LRunMsg m /\ d_run s = RNext /\ ev = [DPanic] /\ (am_props m = None \/ exists p, am_props m = Some p /\ ap_subject p = None).
Proof.
  intros Hc Hs Hc'. pose proof Hs as H. unfold dstep in H. rewrite Hc in H.
  assert (forall c o, call c o s = Some (s', ev) -> False) as Hcall.
  { intros c o Hx. destruct (call_hand _ _ _ _ _ Hx) as (_ & E & _). congruence. }
  assert (forall w, label_of lb = Some w -> match d_watches s !! w with Some x => watch_step s w x lb | None => None end = Some (s', ev) -> False) as Hw.
  { intros w Hl Hx. destruct (d_watches s !! w) as [x|] eqn:Ex; [|done].
    destruct (watch_own _ _ _ _ _ _ Hx Hl) as [(y & Ho & ->)|[(t & n & -> & Ep & Hcc)|(-> & Ep & Hcc)]]; try (by eapply Hcall). cbn in Hc'. congruence. }
  destruct lb; try (exfalso; eapply Hw; [reflexivity|exact H]); clear Hw.
  - destruct (0 <=? dt)%Z; [|done]. by injection H as <- <-.
  - exfalso. destruct o; try done; by eapply Hcall.
  - destruct (d_held s) as [[[c k] x]|] eqn:Eh; [|done]. destruct (roomy s k) eqn:Er; [|done]. injection H as <- <-.
    match type of Hc' with d_crashed (returns_to c ?s1) = _ => destruct (returns_core c s1) as (_ & _ & E & _) end. rewrite E in Hc'. destruct k; cbn in Hc'; congruence.
  - destruct (d_run s); try done. injection H as <- <-. cbn in Hc'. congruence.
  - destruct (d_run s) eqn:Er; try done. injection H as H. unfold run_msg in H. exists m. split; [done|]. split; [done|].
    destruct (am_props m) as [p|] eqn:Ep; [|injection H as <- <-; auto].
    destruct (ap_subject p) as [sub|] eqn:Es; [|injection H as <- <-; eauto 6].
    unfold decode_beacon in H. rewrite Ep in H. destruct (bool_decide _); injection H as <- <-; cbn in Hc'; congruence.
  - destruct (d_run s); try done. injection H as <- <-. cbn in Hc'. congruence.
  - destruct (d_run s); try done. exfalso. by eapply Hcall.
  - injection H as <- <-. done.
  - destruct (d_hand s) eqn:Eh; try done. destruct (chan_of s k) as [|x q] eqn:Ec; [done|]. injection H as <- <-. destruct k; cbn in Hc'; congruence.
  - destruct (d_hand s) eqn:Eh; try done. injection H as <- <-. cbn in Hc'. congruence.
  - destruct (d_hand s) eqn:Eh; try done. destruct o; try done; injection H as <- <-; cbn in Hc'; congruence.
  - destruct (d_hand s) eqn:Eh; try done. exfalso. by eapply Hcall.
  - destruct (d_hand s) eqn:Eh; try done. destruct (d_run s); try (destruct (d_cancelled s); [|done]); injection H as <- <-; cbn in Hc'; congruence.
  - destruct (d_held s) eqn:Eh; [done|]. destruct (d_map s !! w_id c) eqn:Em; injection H as <- <-; cbn in Hc'; congruence.
Qed.

(** A message with a subject: skipped, or observed. *)
Lemma msg_step s m p sub : d_crashed s = false -> d_run s = RNext -> am_props m = Some p -> ap_subject p = Some sub ->
  (sub <> beacon_subject -> dstep s (LRunMsg m) = Some (s, [DSkip])) /\
  (sub = beacon_subject -> d_held s = None -> exists s1 s2 ev, dstep s (LRunMsg m) = Some (s1, []) /\ dstep s1 LObserve = Some (s2, ev) /\ d_crashed s2 = false /\
     (forall id, id <> app_string m "id" -> d_map s2 !! id = d_map s !! id) /\
     exists x, d_map s2 !! app_string m "id" = Some x /\ ds_seen x = d_now s /\
       ds_info x = match d_map s !! app_string m "id" with
         | Some y => ds_info y
         | None => Info (app_string m "id") (Z.of_N (app_u32 m "v")) (app_string m "sourceType") (app_string m "address") (app_string m "direct")
         end).
Proof.
  intros Hc Hr Hp Hs. split.
  - intros Hne. unfold dstep. rewrite Hc, Hr. unfold run_msg. rewrite Hp, Hs, bool_decide_eq_false_2 by done. done.
  - intros -> Hh. eexists. unfold dstep at 1. rewrite Hc, Hr. unfold run_msg. rewrite Hp, Hs, bool_decide_eq_true_2 by done.
    unfold decode_beacon. rewrite Hp.
    set (b := Beacon _ _ _ _ _ _). set (s1 := ds_run _ _).
    assert (exists s2 ev, call ByRun (OObserve b) s1 = Some (s2, ev)) as (s2 & ev & Hcall).
    { unfold call. cbn [d_held s1 ds_run]. rewrite Hh. cbn [effect]. destruct (d_map s1 !! bc_identity b); [by eexists _, _|]. destruct (roomy s1 Disc); by eexists _, _. }
    exists s2, ev. split; [reflexivity|]. split.
    { unfold dstep. cbn [d_crashed s1 ds_run d_run]. rewrite Hc. exact Hcall. }
    split. { destruct (call_hand _ _ _ _ _ Hcall) as (_ & E & _). rewrite E. exact Hc. }
    destruct (call_called _ _ _ _ _ Hcall) as [m' r n _ He Em _]. rewrite Em. cbn [effect d_map s1 ds_run d_now] in He.
    change (bc_identity b) with (app_string m "id") in He.
    destruct (d_map s !! app_string m "id") as [y|] eqn:Ey; injection He as <- _ _.
    + split; [intros id Hne; by rewrite lookup_insert_ne|]. rewrite lookup_insert. eexists. done.
    + split; [intros id Hne; by rewrite lookup_insert_ne|]. rewrite lookup_insert. eexists. done.
Qed.
