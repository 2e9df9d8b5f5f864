(** Watches and the clients they watch: C113.  The vocabulary is at the top of
    WatchClientLive.v ([seen], [stuck_close], [ending]) and of WatchFacts.v
    ([starts], [looks], [acts], [resets]); events are those of Discovery.v,
    Client.v and WatchClient.v. *)
From Coq Require Import ZArith NArith String Lia.
From stdpp Require Import base gmap strings list sorting.
From Verif Require Import GoBase Encoding Records Messages Run Keepalive Client ClientFacts ClientClose Discovery WatchClient.
From Verif Require WatchClientFacts WatchClientInv WatchClientLive WatchFacts.
Import WatchClientLive (seen, stuck_close, ending).
Import WatchFacts (acts, starts, looks, resets).

Local Open Scope list_scope.

(** ** C113 *)

(** What happens to the discovery and its watches could happen to them with any
    other source of activity, and what happens to a client could happen to it
    with any other users: what is proved of either holds of both together. *)
Theorem C113_project infos n now ls s tr : jrun infos (j_init n now) ls = Some (s, tr) ->
  (exists ds, drun (d_init now) ds = Some (j_d s, devs tr)) /\
  length (j_cl s) = n /\ forall j c, j_cl s !! j = Some c -> exists cs, crun (infos j) c_init cs = Some (c, cevs j tr).
Proof.
  intros Hr. destruct (WatchClientFacts.project _ _ _ _ _ _ Hr) as (H1 & H2 & H3). split; [exact H1|]. split; [exact H2|]. exact H3.
Qed.

(** A watch runs only when both its handlers are registered with its client. *)
Theorem C113_registered infos n now ls s tr w t a b : jrun infos (j_init n now) ls = Some (s, tr) -> tr = a ++ JED (DStart w t) :: b ->
  exists j, j_of s !! w = Some j /\ JEC j (CReg OnHb (User (2 * w))) ∈ a /\ JEC j (CReg OnRec (User (2 * w))) ∈ a.
Proof. exact (WatchClientLive.starts_registered infos n now ls s tr w t a b). Qed.

(** A call of a watch's handler looks at the clock, at once, and nothing else
    does; it is its own client that calls. *)
Theorem C113_calls infos n now ls s tr : jrun infos (j_init n now) ls = Some (s, tr) ->
  (forall w j i x a b, tr = a ++ JEC j (CCall i (User (2 * w)) x) :: b -> exists t b', b = JNow w j i t x :: b') /\
  (forall w j i x t a b, tr = a ++ JNow w j i t x :: b -> j_of s !! w = Some j /\ exists a', a = a' ++ [JEC j (CCall i (User (2 * w)) x)]).
Proof.
  intros Hr. split.
  - intros w j i x a b E. destruct (WatchClientLive.split_step _ _ _ _ _ _ _ _ _ Hr E) as (ls1 & l & ls2 & s1 & tr1 & s2 & ev & tr2 & e1 & e2 & -> & H1 & H2 & H3 & H4 & -> & ->).
    assert (JEC j (CCall i (User (2 * w)) x) ∈ ev) as Hin by (rewrite H4; apply elem_of_app; right; left).
    rewrite (WatchClientLive.call_step _ _ _ _ _ _ _ _ _ H2 Hin) in H4. destruct e1 as [|y [|z [|]]]; [|by injection H4|by injection H4|by injection H4].
    injection H4 as <-. eauto.
  - intros w j i x t a b E. destruct (WatchClientLive.split_step _ _ _ _ _ _ _ _ _ Hr E) as (ls1 & l & ls2 & s1 & tr1 & s2 & ev & tr2 & e1 & e2 & -> & H1 & H2 & H3 & H4 & -> & ->).
    assert (JNow w j i t x ∈ ev) as Hin by (rewrite H4; apply elem_of_app; right; left).
    destruct (WatchClientLive.now_step _ _ _ _ _ _ _ _ _ _ H2 Hin) as (E1 & E2 & _). split.
    + assert (jrun infos (j_init n now) (ls1 ++ [l]) = Some (s2, tr1 ++ ev)) as H5 by (by rewrite run_app, H1, run_one, H2).
      destruct (WatchClientInv.a_in _ (WatchClientInv.jinv_run _ _ _ _ _ _ H5) _ _ _ _ E2) as (Ho & _). by eapply WatchClientInv.of_keeps.
    + rewrite E1 in H4. destruct e1 as [|y [|z [|]]]; [by injection H4| |by injection H4|by injection H4]. injection H4 as <- _. eauto.
Qed.

(** The activity recorded for a watch is that its handlers were called for: no
    more, and no less once they have returned. *)
Theorem C113_activity infos n now ls s tr w : jrun infos (j_init n now) ls = Some (s, tr) ->
  acts w (devs tr) ⊆+ seen w tr /\ ((forall j i t, j_in s !! (j, i) <> Some (w, t)) -> acts w (devs tr) ≡ₚ seen w tr).
Proof.
  intros Hr. pose proof (WatchClientLive.acts_seen _ _ _ _ _ _ w Hr) as H. split.
  - rewrite <- H. by apply submseteq_inserts_r.
  - intros Hno. rewrite <- H. assert (WatchClientInv.under w (map_to_list (j_in s)) = []) as ->; [|by rewrite app_nil_r].
    destruct (WatchClientInv.under w (map_to_list (j_in s))) as [|t l] eqn:E; [done|]. exfalso.
    assert (t ∈ WatchClientInv.under w (map_to_list (j_in s))) as Hin by (rewrite E; left). unfold WatchClientInv.under in Hin.
    apply elem_of_list_omap in Hin as ([[j i] [v u]] & Hin & Et). apply elem_of_map_to_list in Hin. cbn in Et. destruct (bool_decide_reflect (v = w)) as [->|]; [|done].
    by apply (Hno j i u).
Qed.

(** A handler records what it saw before its listener does anything else. *)
Theorem C113_stored infos n now ls s tr w j i t x a b : jrun infos (j_init n now) ls = Some (s, tr) -> tr = a ++ JNow w j i t x :: b ->
  (forall b1 e b2, b = b1 ++ JEC j e :: b2 -> of_listener i e = true -> JED (DAct w t) ∈ b1) /\
  (JED (DAct w t) ∈ b \/ j_in s !! (j, i) = Some (w, t)).
Proof. exact (WatchClientLive.stored_first infos n now ls s tr w j i t x a b). Qed.
(** And it can at any time. *)
Theorem C113_can_store infos n now ls s tr w j i t : jrun infos (j_init n now) ls = Some (s, tr) -> j_crashed s = false -> j_in s !! (j, i) = Some (w, t) ->
  exists s', jstep infos s (JStore j i) = Some (s', [JED (DAct w t)]) /\ j_in s' !! (j, i) = None.
Proof.
  intros Hr Hc Hin. destruct (WatchClientLive.store_enabled _ _ _ _ _ _ _ _ _ _ Hr Hc Hin) as (s' & H1 & H2 & _). exists s'. split; [done|]. rewrite H2. apply lookup_delete.
Qed.

(** If the client of a watch has at most one listener, activity is recorded in
    the order of its times, *)
Theorem C113_in_order infos n now ls s tr w j : jrun infos (j_init n now) ls = Some (s, tr) -> j_of s !! w = Some j ->
  (forall i ad cr, JEC j (CListening i ad cr) ∈ tr -> i = 0) -> Sorted Z.le (acts w (devs tr)).
Proof. intros Hr Ho H1. eapply WatchClientLive.one_listener; [exact Hr| |exact H1]. intros k Hk. congruence. Qed.

(** so that such a watch forgets its source only when it has been silent for the
    timeout, or since the first look of the watch (C59). *)
Theorem C113_silence infos n now ls s tr w j y a t b : jrun infos (j_init n now) ls = Some (s, tr) -> j_of s !! w = Some j ->
  (forall i ad cr, JEC j (CListening i ad cr) ∈ tr -> i = 0) -> d_watches (j_d s) !! w = Some y -> tr = a ++ JED (DDecide w t) :: b ->
  exists t0 tl, starts w (devs a) = [t0] /\ looks w (devs a) = [tl] /\
    match last (resets w (devs a)) with
    | None => (t0 + (w_grace (wt_cfg y) + w_timeout (wt_cfg y)) <= t)%Z /\ Forall (fun ts => (ts <= tl)%Z) (acts w (devs a))
    | Some r => Forall (fun ts => (ts + w_timeout (wt_cfg y) <= t)%Z) (acts w (devs a))
    end.
Proof.
  intros Hr Ho Hone Hy E. pose proof (C113_in_order _ _ _ _ _ _ _ _ Hr Ho Hone) as Hs.
  assert (Sorted Z.le (acts w (devs a))) as Hsort.
  { rewrite E, WatchClientFacts.devs_app, WatchFacts.acts_app in Hs. apply Sorted_StronglySorted in Hs; [|intros x1 x2 x3; lia].
    apply StronglySorted_Sorted. by eapply StronglySorted_app_inv_l. }
  destruct (C113_project _ _ _ _ _ _ Hr) as [[ds Hd] _].
  destruct (WatchFacts.decision _ _ _ _ w y (devs a) t (devs b) Hd Hy) as (t0 & tl & H1 & H2 & H3 & H4).
  { rewrite E, WatchClientFacts.devs_app. done. }
  exists t0, tl. split; [done|]. split; [done|]. destruct (last (resets w (devs a))) as [r|].
  - destruct H4 as [H4 H5]. specialize (H5 Hsort). eapply Forall_impl; [exact H5|]. cbn. intros; lia.
  - destruct H4 as [H4 H5]. split; [exact H4|]. by apply H5.
Qed.

(** A watch ends only after a Close of its client that it called returned; then
    the listeners from before are silent for good. *)
Theorem C113_end_after_close infos n now ls s tr w a b : jrun infos (j_init n now) ls = Some (s, tr) -> tr = a ++ JED (DWatchEnd w) :: b ->
  exists j, j_of s !! w = Some j /\ JClose w ∈ ls /\ exists a1 a2, a = a1 ++ JEC j CClosed :: a2 /\ forall i ad cr, JEC j (CListening i ad cr) ∈ a1 -> forall e, JEC j e ∈ a2 ++ b -> of_listener i e = false.
Proof.
  intros Hr E. destruct (WatchClientLive.end_closed _ _ _ _ _ _ _ _ _ Hr E) as (j & H1 & H2 & _ & H3). exists j. done.
Qed.

(** Of two watches of one client at most one ends, *)
Theorem C113_one_ends infos n now ls s tr w w' j : jrun infos (j_init n now) ls = Some (s, tr) -> w <> w' -> j_of s !! w = Some j -> j_of s !! w' = Some j ->
  JED (DWatchEnd w) ∈ tr -> JED (DWatchEnd w') ∉ tr.
Proof.
  intros Hr Hne Ho Ho' Hin Hin'. apply elem_of_list_split in Hin as (a & b & E). apply elem_of_list_split in Hin' as (a' & b' & E').
  destruct (WatchClientLive.end_closed _ _ _ _ _ _ _ _ _ Hr E) as (k & _ & _ & Hc & _). destruct (WatchClientLive.end_closed _ _ _ _ _ _ _ _ _ Hr E') as (k' & _ & _ & Hc' & _).
  destruct (WatchClientLive.two_closers _ _ _ _ _ _ _ _ _ _ _ Hr Hne Ho Ho' Hc Hc') as [_ [?|?]]; done.
Qed.

(** and the process crashes when the other, or a watch of a client its user
    closed, or a user of a client its watch closed, calls Close. *)
Theorem C113_close_twice infos n now ls s tr j w l s' ev : jrun infos (j_init n now) ls = Some (s, tr) -> JEC j CCloseCall ∈ tr ->
  j_of s !! w = Some j -> l = JC j LCloseBegin \/ l = JClose w -> jstep infos s l = Some (s', ev) ->
  ev = [JEC j CCloseCall; JEC j CPanic] /\ j_crashed s' = true.
Proof.
  intros Hr Hin Ho Hl Hs. eapply WatchClientLive.second_closes; [exact Hr|exact Hin| |exact Hs]. destruct Hl as [->| ->]; [by left|right; eauto].
Qed.

(** Nothing prevents it: a watch whose context is cancelled, or that has forgotten
    its source, calls Close. *)
Theorem C113_crashes infos n now ls s tr w j c y : jrun infos (j_init n now) ls = Some (s, tr) -> j_crashed s = false -> j_of s !! w = Some j ->
  j_cl s !! j = Some c -> c_close c = ClNone -> JEC j CClosed ∈ tr -> d_watches (j_d s) !! w = Some y -> wt_pc y = WClosing -> JClose w ∉ ls ->
  exists s', jstep infos s (JClose w) = Some (s', [JEC j CCloseCall; JEC j CPanic]) /\ j_crashed s' = true.
Proof.
  intros Hr Hnc Ho Hc Hcl Hin Hy Hp Hno. destruct (C113_project _ _ _ _ _ _ Hr) as (_ & _ & Hpr). destruct (Hpr _ _ Hc) as [cs Hrc].
  assert (c_crashed c = false) as Hcr. { destruct (c_crashed c) eqn:Ec; [|done]. pose proof (WatchClientLive.crashed_at _ _ _ Hc Ec). congruence. }
  destruct (second_close _ _ _ _ Hrc) as (c' & Hst & Hcr'); [by apply WatchClientInv.cevs_elem|done|done|].
  assert (j_close s !! w = None) as Hjc.
  { destruct (j_close s !! w) as [b|] eqn:E; [|done]. by destruct (WatchClientLive.close_events _ _ _ _ _ _ _ _ Hr E) as (k & _ & ? & _). }
  eexists. split; [unfold jstep; rewrite Hnc, Hy, Hjc, Ho, Hp; unfold lift_c; rewrite Hc, Hst; reflexivity|].
  eapply (WatchClientLive.crashed_at _ j c'); [|exact Hcr']. cbn [j_cl after_c]. apply list_lookup_insert. by eapply lookup_lt_Some.
Qed.

(** No run in which a user and a watch close the same client goes on after it. *)
Theorem C113_user_close infos n now ls s tr w j : jrun infos (j_init n now) ls = Some (s, tr) -> JC j LCloseBegin ∈ ls -> JClose w ∈ ls -> j_of s !! w = Some j ->
  j_crashed s = true.
Proof. exact (WatchClientLive.user_close infos n now ls s tr w j). Qed.

(** A watch never ends if a listener of its client has a message to deliver, or a
    call of Listen is under way, once its Close has begun. *)
Theorem C113_hangs infos n now ls0 s tr0 w ls s' tr : jrun infos (j_init n now) ls0 = Some (s, tr0) -> stuck_close s w -> jrun infos s ls = Some (s', tr) ->
  JED (DWatchEnd w) ∉ tr.
Proof. intros H1 H2 H3. by destruct (WatchClientLive.never_ends _ _ _ _ _ _ _ _ _ _ H1 H2 H3). Qed.

(** Otherwise it can end by itself: all that is needed are steps of its client's
    listeners, handlers and Close. *)
Theorem C113_can_end infos n now ls s tr j w c y : jrun infos (j_init n now) ls = Some (s, tr) -> j_crashed s = false -> j_of s !! w = Some j -> j_cl s !! j = Some c ->
  d_watches (j_d s) !! w = Some y -> wt_pc y = WClosing -> JEC j CCloseCall ∉ tr -> c_adding c = 0 ->
  (forall i p, pc_of c i = Some p -> match p with LAccept _ | LGet _ => False | _ => True end) ->
  exists ls' s' tr', jrun infos s ls' = Some (s', tr') /\ Forall (ending j w) ls' /\ j_crashed s' = false /\ JED (DWatchEnd w) ∈ tr'.
Proof. exact (WatchClientLive.can_end infos n now ls s tr j w c y). Qed.

(** A watch and its client, with two listeners.  A heartbeat is heard at 3 and
    shows at 4; silence from then on: forgotten at 14, the client closed, the end. *)
Definition ex_me : info := Info "a" 1 "CONTROLLER" "mc/sfe.a" "sfe.a".
Definition ex_infos (_ : nat) : info := ex_me.
Definition ex_tick : amqp_msg := encode_heartbeat (Heartbeat (MsgProps "" "" "") "a" 1 5).
Definition ex_src : dsource := DSource ex_me 0.
Definition glance (e : jev) : string * Z * Z :=
  match e with
  | JED (DWatch w _) => ("watch", Z.of_nat w, 0)
  | JED (DStart w t) => ("start", Z.of_nat w, t)
  | JED (DAct w t) => ("activity", Z.of_nat w, t)
  | JED (DReset w t) => ("reset", Z.of_nat w, t)
  | JED (DDecide w t) => ("decide", Z.of_nat w, t)
  | JED (DWatchEnd w) => ("end", Z.of_nat w, 0)
  | JEC j (CReg OnRec (User n)) => ("rec", Z.of_nat j, Z.of_nat n) | JEC j (CReg OnHb (User n)) => ("hb", Z.of_nat j, Z.of_nat n)
  | JEC j (CListening i _ _) => ("listening", Z.of_nat j, Z.of_nat i)
  | JEC j (CCall i (User n) _) => ("call", Z.of_nat j, Z.of_nat i)
  | JEC j CCloseCall => ("close", Z.of_nat j, 0) | JEC j CClosed => ("closed", Z.of_nat j, 0) | JEC j CPanic => ("panic", Z.of_nat j, 0)
  | JNow w j i t _ => ("now", Z.of_nat w, t)
  | _ => ("", 0, 0)
  end%Z.
Definition look (n : nat) (ls : list jlabel) : option (bool * list (string * Z * Z)) :=
  match jrun ex_infos (j_init n 0) ls with
  | Some (s, tr) => Some (j_crashed s, List.filter (fun x => negb (String.eqb (fst (fst x)) "")) (glance <$> tr))
  | None => None
  end.
Definition ex_start : list jlabel :=
  [JD (LUser (OAdd ex_src)); JNew 0 (WCfg "a" 10 5 2); JReg 0; JReg 0; JD (LWStart 0); JD (LWLook 0); JC 0 LListenAdd; JC 0 (LListen FromAddress)].
Definition ex_hear (i : nat) : list jlabel := [JC 0 (LLNext i (NMsg ex_tick)); JC 0 (LLAccept i AccOk); JC 0 (LLGet i)].
Definition ex_silent : list jlabel := ex_start ++ [JD (LDTime 3)] ++ ex_hear 0 ++ [JC 0 (LLRun 0); JStore 0 0; JC 0 (LLRun 0);
  JD (LDTime 1); JD (LWTick 0); JD (LWTakeTick 0); JD (LWSeen 0); JD (LWReset 0); JD (LDTime 10); JD (LWFire 0); JD (LWTakeTimer 0); JD (LWForget 0)].
Definition ex_ends : list jlabel := [JClose 0; JC 0 LCloseWait; JC 0 (LLNext 0 (NErr true)); JC 0 (LLClose 0); JC 0 LCloseWake; JD (LWEnd 0)].
Example C113_example : look 1 (ex_silent ++ ex_ends) = Some (false,
  [("watch", 0, 0); ("hb", 0, 0); ("rec", 0, 0); ("start", 0, 0); ("listening", 0, 0); ("call", 0, 0); ("now", 0, 3); ("activity", 0, 3);
   ("reset", 0, 4); ("decide", 0, 14); ("close", 0, 0); ("closed", 0, 0); ("end", 0, 0)])%string%Z.
Proof. vm_compute. reflexivity. Qed.

(** The hypotheses of C113_can_end are met when the source has been forgotten,
    also while a handler runs. *)
Definition at_end (ls : list jlabel) : bool :=
  match jrun ex_infos (j_init 1 0) ls with
  | Some (s, tr) => negb (j_crashed s) && match j_cl s !! 0 with
      | Some c => (c_adding c =? 0) && match c_listeners c with [Listener LNext _] | [Listener (Client.LRun _ _) _] => true | _ => false end
      | None => false end &&
      match d_watches (j_d s) !! 0 with Some y => match wt_pc y with WClosing => true | _ => false end | None => false end &&
      match j_of s with [0] => true | _ => false end && forallb (fun e => match e with JEC _ CCloseCall => false | _ => true end) tr
  | None => false
  end.
Definition ex_busy : list jlabel := ex_start ++ [JD (LDTime 3)] ++ ex_hear 0 ++ [JC 0 (LLRun 0); JD (LWCancel 0); JD (LWCtx 0)].
Example C113_example_can_end : at_end ex_silent = true /\ at_end ex_busy = true.
Proof. split; vm_compute; reflexivity. Qed.

(** A watch whose context is cancelled while a message is being received hangs, and
    with it its client. *)
Definition ex_stuck : list jlabel := ex_start ++ [JC 0 (LLNext 0 (NMsg ex_tick)); JD (LWCancel 0); JD (LWCtx 0); JC 0 (LLAccept 0 AccOk); JClose 0].
Theorem C113_hangs_refuted : exists ls s tr, jrun ex_infos (j_init 1 0) ls = Some (s, tr) /\ LWCancel 0 ∈ omap (fun l => match l with JD d => Some d | _ => None end) ls /\
  j_crashed s = false /\ forall ls' s' tr', jrun ex_infos s ls' = Some (s', tr') -> JED (DWatchEnd 0) ∉ tr'.
Proof.
  exists ex_stuck. destruct (jrun ex_infos (j_init 1 0) ex_stuck) as [[s tr]|] eqn:Hr; [|vm_compute in Hr; discriminate]. exists s, tr. split; [reflexivity|].
  assert (match jrun ex_infos (j_init 1 0) ex_stuck with Some (s, _) => j_crashed s = false /\ j_of s !! 0 = Some 0 /\ j_close s !! 0 = Some false /\
    match j_cl s !! 0 with Some c => c_crashed c = false /\ exists x, pc_of c 0 = Some (LGet x) | None => False end | None => False end) as H.
  { vm_compute. repeat split. eexists. reflexivity. }
  rewrite Hr in H. destruct H as (H1 & H2 & H3 & H4). destruct (j_cl s !! 0) as [c|] eqn:Ec; [|contradiction]. destruct H4 as (H4 & x & H5).
  split; [vm_compute; right; right; right; left|]. split; [exact H1|].
  intros ls' s' tr' Hr'. eapply C113_hangs; [exact Hr| |exact Hr']. exists 0, c. split; [exact H2|]. split; [exact Ec|]. split; [exact H3|]. split; [exact H4|]. left. exists 0, x. exact H5.
Qed.

(** Two watches of one client: when the first has ended, the end of the second is
    the end of the process.  And so it is if the user closed the client. *)
Definition ex_two : list jlabel := [JD (LUser (OAdd ex_src)); JNew 0 (WCfg "a" 10 5 2); JReg 0; JReg 0; JNew 0 (WCfg "a" 0 0 0); JReg 1; JReg 1;
  JD (LWStart 0); JD (LWLook 0); JD (LWStart 1); JD (LWLook 1); JD (LWCancel 0); JD (LWCtx 0); JClose 0; JC 0 LCloseWait; JD (LWEnd 0); JD (LWCancel 1); JD (LWCtx 1)].
Example C113_example_two : look 1 (ex_two ++ [JClose 1]) = Some (true,
  [("watch", 0, 0); ("hb", 0, 0); ("rec", 0, 0); ("watch", 1, 0); ("hb", 0, 2); ("rec", 0, 2); ("start", 0, 0); ("start", 1, 0);
   ("close", 0, 0); ("closed", 0, 0); ("end", 0, 0); ("close", 0, 0); ("panic", 0, 0)])%string%Z.
Proof. vm_compute. reflexivity. Qed.
Definition ex_user : list jlabel := ex_start ++ [JC 0 LCloseBegin; JC 0 LCloseWait; JC 0 (LLNext 0 (NErr true)); JC 0 (LLClose 0); JC 0 LCloseWake; JD (LWCancel 0); JD (LWCtx 0)].
Theorem C113_crash_refuted : exists s tr, jrun ex_infos (j_init 1 0) (ex_user ++ [JClose 0]) = Some (s, tr) /\ j_crashed s = true /\
  exists a, tr = a ++ [JEC 0 CCloseCall; JEC 0 CPanic].
Proof.
  destruct (jrun ex_infos (j_init 1 0) (ex_user ++ [JClose 0])) as [[s tr]|] eqn:Hr; [|vm_compute in Hr; discriminate].
  exists s, tr. split; [reflexivity|].
  assert (match jrun ex_infos (j_init 1 0) (ex_user ++ [JClose 0]) with Some (s, tr) => j_crashed s = true /\ tr = take (length tr - 2) tr ++ [JEC 0 CCloseCall; JEC 0 CPanic] | None => False end) as H
    by (vm_compute; split; reflexivity).
  rewrite Hr in H. destruct H as [H1 H2]. split; [exact H1|]. eexists. exact H2.
Qed.

(** With two listeners the watch may forget a source it heard of within the
    timeout: a handler is called at 0 by one listener and stores that only after
    one called by the other at 9 has stored 9. *)
Definition ex_two_start : list jlabel :=
  [JD (LUser (OAdd ex_src)); JNew 0 (WCfg "a" 10 0 2); JReg 0; JReg 0; JD (LWStart 0); JC 0 LListenAdd; JC 0 (LListen FromAddress); JC 0 LListenAdd; JC 0 (LListen FromHeartbeats)].
Definition ex_race : list jlabel := ex_two_start ++ ex_hear 0 ++ [JC 0 (LLRun 0); JD (LWLook 0); JD (LDTime 1)] ++ ex_hear 1 ++ [JC 0 (LLRun 1); JStore 0 1; JC 0 (LLRun 1);
  JD (LDTime 1); JD (LWTick 0); JD (LWTakeTick 0); JD (LWSeen 0); JD (LWReset 0); JD (LDTime 7)] ++ ex_hear 1 ++ [JC 0 (LLRun 1); JStore 0 1; JStore 0 0;
  JD (LDTime 3); JD (LWFire 0); JD (LWTakeTimer 0)].
Theorem C113_race_refuted : exists s tr y a t ts, jrun ex_infos (j_init 1 0) ex_race = Some (s, tr) /\ d_watches (j_d s) !! 0 = Some y /\ tr = a ++ [JED (DDecide 0 t)] /\
  resets 0 (devs a) <> [] /\ ts ∈ acts 0 (devs a) /\ (t < ts + w_timeout (wt_cfg y))%Z.
Proof.
  destruct (jrun ex_infos (j_init 1 0) ex_race) as [[s tr]|] eqn:Hr; [|vm_compute in Hr; discriminate].
  assert (match jrun ex_infos (j_init 1 0) ex_race with Some (s, tr) => (exists y, d_watches (j_d s) !! 0 = Some y /\ w_timeout (wt_cfg y) = 10%Z) /\
    tr = take (length tr - 1) tr ++ [JED (DDecide 0 12)] /\ resets 0 (devs (take (length tr - 1) tr)) <> [] /\ acts 0 (devs (take (length tr - 1) tr)) = [1; 9; 0]%Z | None => False end) as H.
  { vm_compute. split; [eexists; split; reflexivity|]. split; [reflexivity|]. split; [discriminate|reflexivity]. }
  rewrite Hr in H. destruct H as ((y & H1 & H2) & H3 & H4 & H5). exists s, tr, y, (take (length tr - 1) tr), 12%Z, 9%Z.
  split; [reflexivity|]. split; [exact H1|]. split; [exact H3|]. split; [exact H4|]. rewrite H5. split; [right; left|]. rewrite H2. lia.
Qed.
(** The one-listener hypothesis is met, with a reset before the decision. *)
Example C113_example_one : match jrun ex_infos (j_init 1 0) ex_silent with
  | Some (s, tr) => forallb (fun e => match e with JEC _ (CListening i _ _) => i =? 0 | _ => true end) tr = true /\ resets 0 (devs tr) = [4%Z] /\ acts 0 (devs tr) = [3%Z]
  | None => False end.
Proof. vm_compute. repeat split. Qed.

Print Assumptions C113_project.
Print Assumptions C113_registered.
Print Assumptions C113_calls.
Print Assumptions C113_activity.
Print Assumptions C113_stored.
Print Assumptions C113_can_store.
Print Assumptions C113_in_order.
Print Assumptions C113_silence.
Print Assumptions C113_end_after_close.
Print Assumptions C113_one_ends.
Print Assumptions C113_close_twice.
Print Assumptions C113_crashes.
Print Assumptions C113_user_close.
Print Assumptions C113_hangs.
Print Assumptions C113_can_end.
Print Assumptions C113_hangs_refuted.
Print Assumptions C113_crash_refuted.
Print Assumptions C113_race_refuted.
