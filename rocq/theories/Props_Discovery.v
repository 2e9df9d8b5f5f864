(** Discovery: C53-C60.  The vocabulary is at the top of DiscoveryFacts.v and
    WatchFacts.v. *)
From Coq Require Import ZArith NArith Ascii String Lia.
From stdpp Require Import base gmap strings list sorting.
From Verif Require Import GoBase Encoding Records Messages Run Keepalive Discovery DiscoveryFacts DiscoveryLive DiscoveryProgress WatchFacts WatchLive WatchMore.

Local Open Scope list_scope.

(** For examples: what happened, in short. *)
Definition glimpse (e : dev) : string * string * Z :=
  match e with
  | DOp _ (OAdd x) (RBool b) => ("add", i_id (ds_info x), if b then 1 else 0)%Z
  | DOp _ (OForget id) (RBool b) => ("forget", id, if b then 1 else 0)%Z
  | DOp _ (OGet id) (RGot g) => ("get", id, match g with Some x => ds_seen x | None => -1 end)%Z
  | DOp _ (OList _) (RListed l) => ("list", "", Z.of_nat (length l))
  | DOp _ (OObserve b) _ => ("observe", bc_identity b, 0%Z)
  | DOp _ (OSeen id t) _ => ("seen", id, t)
  | DOp _ _ _ => ("?", "", 0%Z)
  | DRet _ => ("ret", "", 0%Z)
  | DHandle Disc x => ("discovered", i_id (ds_info x), 0%Z)
  | DHandle Forg x => ("forgotten", i_id (ds_info x), 0%Z)
  | DHandled => ("handled", "", 0%Z)
  | DSkip => ("skip", "", 0%Z)
  | DRunRet => ("run ends", "", 0%Z)
  | DWatch w id => ("watch", id, Z.of_nat w)
  | DNoWatch id => ("unknown", id, 0%Z)
  | DStart w t => ("start", "", t)
  | DLook w t => ("look", "", t)
  | DAct w t => ("activity", "", t)
  | DReset w t => ("reset", "", t)
  | DDecide w t => ("decide", "", t)
  | DWatchEnd w => ("end", "", 0%Z)
  | DPanic => ("panic", "", 0%Z)
  end%string.
Definition glimpses (ls : list dlabel) : option (bool * list (string * string * Z)) :=
  match drun (d_init 0) ls with Some (s, evs) => Some (d_crashed s, glimpse <$> evs) | None => None end.

Definition src (id : string) : dsource := DSource (Info id 1 "ROUTER" "mc/sfe.x" "sfe.x") 0.
Definition ex_bcn : amqp_msg := encode_beacon (Beacon (MsgProps "" "" "") 1 "ROUTER" "mc/sfe.a" "sfe.a" "a").

(** ** C53: a map *)

Theorem C53_map now ls s evs : drun (d_init now) ls = Some (s, evs) -> forall id, ds_info <$> d_map s !! id = known evs id.
Proof. intros Hr. apply (map_run now ls s evs Hr). Qed.
Theorem C53_answers now ls s evs a c o r b : drun (d_init now) ls = Some (s, evs) -> evs = a ++ DOp c o r :: b -> answers a o r.
Proof. intros Hr. apply (map_run now ls s evs Hr). Qed.

Example C53_example : glimpses [LRun; LUser (OAdd (src "a")); LUser (OAdd (src "a")); LDTime 3; LRunMsg ex_bcn; LObserve; LUser (OGet "a");
    LUser (OForget "b"); LUser (OForget "a"); LUser (OGet "a"); LRunMsg ex_bcn; LObserve; LUser (OList [DSource (ds_info (of_beacon (Beacon (MsgProps "" "" "") 1 "ROUTER" "mc/sfe.a" "sfe.a" "a") 3)) 3])] =
  Some (false, [("add", "a", 1); ("ret", "", 0); ("add", "a", 0); ("ret", "", 0); ("observe", "a", 0); ("ret", "", 0); ("get", "a", 3); ("ret", "", 0);
    ("forget", "b", 0); ("ret", "", 0); ("forget", "a", 1); ("ret", "", 0); ("get", "a", -1); ("ret", "", 0);
    ("observe", "a", 0); ("ret", "", 0); ("list", "", 1); ("ret", "", 0)])%string%Z.
Proof. vm_compute. reflexivity. Qed.

(** ** C54: notifications balance *)

Theorem C54_balance now ls s evs id : drun (d_init now) ls = Some (s, evs) ->
  count_id id (issued Disc evs) = count_id id (issued Forg evs) + (match d_map s !! id with Some _ => 1 | None => 0 end).
Proof.
  intros Hr. rewrite (balance evs id). destruct (map_run now ls s evs Hr) as (_ & Hm & _). rewrite <- Hm. by destruct (d_map s !! id).
Qed.
(** What was taken by the handler goroutine, followed by what waits, is what was
    issued. *)
Theorem C54_fifo now ls s evs k : drun (d_init now) ls = Some (s, evs) -> delivered k evs ++ waiting k s = issued k evs.
Proof. intros Hr. apply (map_run now ls s evs Hr). Qed.

Example C54_example : glimpses [LRun; LUser (OAdd (src "a")); LUser (OAdd (src "b")); LUser (OForget "a"); LTake Disc; LHandlerRet; LTake Disc; LHandlerRet; LTake Forg; LHandlerRet] =
  Some (false, [("add", "a", 1); ("ret", "", 0); ("add", "b", 1); ("ret", "", 0); ("forget", "a", 1); ("ret", "", 0);
    ("discovered", "a", 0); ("handled", "", 0); ("discovered", "b", 0); ("handled", "", 0); ("forgotten", "a", 0); ("handled", "", 0)])%string%Z.
Proof. vm_compute. reflexivity. Qed.

(** ** C55: order of the two kinds *)

(** False of the code: a forgetting overtakes the discovery. *)
Definition ex_overtake : list dlabel := [LRun; LUser (OAdd (src "a")); LUser (OForget "a"); LTake Forg; LHandlerRet; LTake Disc].
Theorem C55_refuted : exists ls s evs, drun (d_init 0) ls = Some (s, evs) /\ ~ ordered "a" evs.
Proof.
  destruct (drun (d_init 0) ex_overtake) as [[s evs]|] eqn:E; [|by vm_compute in E].
  exists ex_overtake, s, evs. split; [done|]. intros Ho.
  assert (match drun (d_init 0) ex_overtake with Some (_, evs) => count_id "a" (delivered Forg (take 5 evs)) = 1 /\ count_id "a" (delivered Disc (take 5 evs)) = 0 | None => False end) as H.
  { vm_compute. done. }
  rewrite E in H. destruct H as [H1 H2]. pose proof (Ho (take 5 evs) (drop 5 evs) (eq_sym (take_drop 5 evs))). lia.
Qed.
(** It does not if no forgetting is taken while a discovery of the same source
    is still in its channel. *)
Theorem C55_in_order id now ls s evs : drun (d_init now) ls = Some (s, evs) ->
  (forall s1 s2, transition dstep (d_init now) ls s1 (LTake Forg) s2 -> count_id id (ds_info <$> d_disc s1) = 0) ->
  forall a b, evs = a ++ b -> count_id id (delivered Forg a) <= count_id id (delivered Disc a).
Proof. exact (order_run id now ls s evs). Qed.

Example C55_example : glimpses ex_overtake =
  Some (false, [("add", "a", 1); ("ret", "", 0); ("forget", "a", 1); ("ret", "", 0); ("forgotten", "a", 0); ("handled", "", 0); ("discovered", "a", 0)])%string%Z.
Proof. vm_compute. reflexivity. Qed.
Definition ex_orderly : list dlabel := [LRun; LUser (OAdd (src "a")); LUser (OForget "a"); LTake Disc; LHandlerRet; LTake Forg].
Example C55_example_in_order s1 s2 : transition dstep (d_init 0) ex_orderly s1 (LTake Forg) s2 -> count_id "a" (ds_info <$> d_disc s1) = 0.
Proof.
  intros Ht. apply (transitions_check dstep (fun s1 l _ => match l with LTake Forg => Nat.eqb (count_id "a" (ds_info <$> d_disc s1)) 0 | _ => true end)) in Ht; [by apply Nat.eqb_eq|].
  vm_compute. reflexivity.
Qed.

(** ** C56: details are stable *)

Theorem C56_details now ls s evs lb s' ev id x y : drun (d_init now) ls = Some (s, evs) -> dstep s lb = Some (s', ev) ->
  d_map s !! id = Some x -> d_map s' !! id = Some y ->
  ds_info y = ds_info x /\
  (y = x \/ (lb = LObserve /\ (exists b, d_run s = RObserve b /\ bc_identity b = id) /\ ds_seen y = d_now s) \/
   (exists w v t n, lb = LWSeen w /\ d_watches s !! w = Some v /\ w_id (wt_cfg v) = id /\ wt_pc v = WSeen t n /\ ds_seen y = n /\ (ds_seen x < n)%Z)).
Proof. exact (stable_step now ls s evs lb s' ev id x y). Qed.

(** Last-seen never moves back, if no source was added with a time of the
    future. *)
Theorem C56_last_seen now ls s evs lb s' ev id x y : drun (d_init now) ls = Some (s, evs) -> honest (d_init now) ls -> dstep s lb = Some (s', ev) ->
  d_map s !! id = Some x -> d_map s' !! id = Some y -> (ds_seen x <= ds_seen y <= d_now s')%Z.
Proof.
  intros Hr Hh Hs Hx Hy. split; [by eapply seen_mono|].
  destruct (past_run _ _ _ _ Hr) as [Hb Hp]. destruct (step_moves _ _ _ _ Hb Hs) as (Hn & _).
  pose proof (seen_past _ _ _ _ Hr Hh _ _ Hx) as Hle.
  destruct (stable_step _ _ _ _ _ _ _ _ _ _ Hr Hs Hx Hy) as [_ [->|[(_ & _ & ->)|(w & v & t & n & _ & Hv & _ & Ep & -> & _)]]]; [lia|lia|].
  pose proof (pa_pc _ _ (Hp _ _ Hv)) as H. rewrite Ep in H. lia.
Qed.
(** That condition is needed. *)
Definition ex_future : list dlabel := [LRun; LUser (OAdd (DSource (ds_info (src "a")) 100)); LRunMsg ex_bcn].
Theorem C56_future_refuted : exists ls s evs s' ev x y, drun (d_init 0) ls = Some (s, evs) /\ dstep s LObserve = Some (s', ev) /\
  d_map s !! "a" = Some x /\ d_map s' !! "a" = Some y /\ (ds_seen y < ds_seen x)%Z.
Proof.
  destruct (drun (d_init 0) ex_future) as [[s evs]|] eqn:E; [|by vm_compute in E].
  assert (match drun (d_init 0) ex_future with
    | Some (s, _) => match dstep s LObserve with
        | Some (s', _) => match d_map s !! "a", d_map s' !! "a" with Some x, Some y => (ds_seen y <? ds_seen x)%Z | _, _ => false end
        | None => false end
    | None => false end = true) as H by (vm_compute; reflexivity).
  rewrite E in H. destruct (dstep s LObserve) as [[s' ev]|] eqn:E2; [|done]. destruct (d_map s !! "a") as [x|] eqn:E3; [|done].
  destruct (d_map s' !! "a") as [y|] eqn:E4; [|done]. apply Z.ltb_lt in H. exists ex_future, s, evs, s', ev, x, y. done.
Qed.

(** Another beacon, with other details. *)
Definition ex_bcn2 : amqp_msg := encode_beacon (Beacon (MsgProps "" "" "") 2 "OTHER" "mc/sfe.z" "sfe.z" "a").
Definition ex_again : list dlabel := [LRun; LUser (OAdd (src "a")); LDTime 7; LRunMsg ex_bcn2; LObserve].
Example C56_example : (match drun (d_init 0) ex_again with
  | Some (s, _) => match d_map s !! "a" with Some x => Some (i_type (ds_info x), i_version (ds_info x), ds_seen x) | None => None end
  | None => None end) = Some ("ROUTER", 1, 7)%string%Z.
Proof. vm_compute. reflexivity. Qed.
Example C56_example_honest : honest (d_init 0) ex_again.
Proof.
  intros s l s' id y Ht Hn Hy.
  assert (forall s1 s2 l, transition dstep (d_init 0) ex_again s1 l s2 -> forallb (fun p => (ds_seen p.2 <=? d_now s2)%Z) (map_to_list (d_map s2)) = true) as H.
  { intros s1 s2 m Htr. apply (transitions_check dstep (fun _ _ s2 => forallb (fun p => (ds_seen p.2 <=? d_now s2)%Z) (map_to_list (d_map s2)))) in Htr; [done|].
    vm_compute. reflexivity. }
  specialize (H _ _ _ Ht). rewrite forallb_forall in H. apply elem_of_map_to_list, elem_of_list_In in Hy. apply H in Hy. cbn in Hy. by apply Z.leb_le.
Qed.

(** ** C57: deadlock *)

(** Once a call waits for room in a channel while the handler goroutine wants
    the lock, or has ended, nothing returns and no handler runs any more. *)
Theorem C57_forever s ls s' evs : deadlocked s -> drun s ls = Some (s', evs) ->
  d_held s' = d_held s /\ d_map s' = d_map s /\ d_hand s' = d_hand s /\ forall e, e ∈ evs -> match e with DOp _ _ _ | DRet _ | DHandle _ _ => False | _ => True end.
Proof.
  intros Hd Hr. destruct (deadlock_forever _ _ _ _ Hd Hr) as (_ & H1 & H2 & H3 & HF). split; [done|]. split; [done|]. split; [done|].
  intros e He. exact (proj1 (Forall_forall _ _) HF e He).
Qed.

Definition nth_src (i : nat) : dsource := src (String (ascii_of_nat (40 + i)) "").
Definition ex_full : list dlabel := [LRun; LUser (OAdd (nth_src 0)); LTake Disc] ++ ((fun i => LUser (OAdd (nth_src i))) <$> seq 1 33) ++ [LHandlerCall (OGet "x")].
Definition ex_late : list dlabel := [LRun; LDCancel; LHandlerEnd] ++ ((fun i => LUser (OAdd (nth_src i))) <$> seq 0 33).
Definition deadlockedb (s : dstate) : bool :=
  match d_held s, d_run s, d_hand s with
  | Some (ByUser, k, _), (RNext | RObserve _ | RBlocked | RDoneRun), (HWants _ _ _ | HBlocked _ _ | HEnded) => negb (roomy s k)
  | _, _, _ => false
  end.
Lemma not_elem_of_labels (ls : list dlabel) l : forallb (fun m => match m, l with LDCancel, LDCancel | LRunErr, LRunErr | LHandlerCall _, LHandlerCall _ => false | _, _ => true end) ls = true ->
  match l with LDCancel | LRunErr | LHandlerCall _ => True | _ => False end -> l ∉ ls.
Proof.
  intros H Hl Hin. rewrite forallb_forall in H. apply elem_of_list_In in Hin. specialize (H _ Hin). by destruct l.
Qed.
Lemma deadlockedb_spec s : deadlockedb s = true -> deadlocked s /\ exists k x, d_held s = Some (ByUser, k, x).
Proof.
  unfold deadlockedb, deadlocked. destruct (d_held s) as [[[[] k] x]|]; try done.
  intros H. assert (roomy s k = false) as Hr by (destruct (d_run s), (d_hand s); try done; by destruct (roomy s k)).
  split; [|eauto]. split; [eauto 6|]. destruct (d_run s), (d_hand s); done.
Qed.

(** False of the code: with 34 sources a handler that calls Get and a call of Add
    wait for each other. *)
Theorem C57_refuted : exists ls s evs, drun (d_init 0) ls = Some (s, evs) /\ LDCancel ∉ ls /\ LRunErr ∉ ls /\ deadlocked s /\ (exists k x, d_held s = Some (ByUser, k, x)) /\
  exists k x, d_hand s = HWants k x (OGet "x").
Proof.
  assert (match drun (d_init 0) ex_full with
    | Some (s, _) => deadlockedb s && match d_hand s with HWants _ _ (OGet id) => String.eqb id "x" | _ => false end | None => false end = true) as H
    by (vm_compute; reflexivity).
  destruct (drun (d_init 0) ex_full) as [[s evs]|] eqn:E; [|done].
  apply andb_true_iff in H as [H1 H2]. destruct (deadlockedb_spec s H1) as [Hd Hh]. exists ex_full, s, evs. split; [exact E|]. clear E.
  split; [refine (not_elem_of_labels ex_full LDCancel _ I); vm_compute; reflexivity|]. split; [refine (not_elem_of_labels ex_full LRunErr _ I); vm_compute; reflexivity|]. split; [done|]. split; [done|].
  destruct (d_hand s) as [| | |k x o| |]; try done. destruct o as [| |id| | |]; try done. apply String.eqb_eq in H2 as ->. eauto.
Qed.
(** And when the context of Run ended, the 33rd Add never returns. *)
Theorem C57_after_cancel_refuted : exists ls s evs, drun (d_init 0) ls = Some (s, evs) /\ (forall o, LHandlerCall o ∉ ls) /\ deadlocked s /\ (exists k x, d_held s = Some (ByUser, k, x)).
Proof.
  assert (match drun (d_init 0) ex_late with Some (s, _) => deadlockedb s | None => false end = true) as H by (vm_compute; reflexivity).
  destruct (drun (d_init 0) ex_late) as [[s evs]|] eqn:E; [|done].
  destruct (deadlockedb_spec s H) as [Hd Hh]. exists ex_late, s, evs. split; [exact E|]. clear E. split; [|done].
  intros o. refine (not_elem_of_labels ex_late (LHandlerCall o) _ I). vm_compute. reflexivity.
Qed.
(** Otherwise, with handlers that do not call back, the handler goroutine can
    always free the lock and deliver everything that was issued. *)
Theorem C57_progress now ls s evs : drun (d_init now) ls = Some (s, evs) -> Forall calm ls -> LRun ∈ ls -> d_crashed s = false ->
  exists ls' s' evs', Forall draining ls' /\ drun s ls' = Some (s', evs') /\ d_held s' = None /\
    forall k, delivered k (evs ++ evs') = issued k (evs ++ evs').
Proof. exact (progress now ls s evs). Qed.

(** 34 sources, without the call of Get. *)
Definition ex_calm : list dlabel := [LRun; LUser (OAdd (nth_src 0)); LTake Disc] ++ ((fun i => LUser (OAdd (nth_src i))) <$> seq 1 33).
Example C57_example : Forall calm ex_calm /\ LRun ∈ ex_calm /\
  (match drun (d_init 0) ex_calm with Some (s, _) => Some (d_crashed s, length (d_disc s), match d_held s with Some _ => true | None => false end) | None => None end) = Some (false, 32, true).
Proof. split; [repeat constructor|]. split; [left|]. vm_compute. reflexivity. Qed.

(** ** C58: bad messages *)

(** False of the code: a message without properties or subject stops everything. *)
Theorem C58_refuted s m : d_crashed s = false -> d_run s = RNext -> (am_props m = None \/ exists p, am_props m = Some p /\ ap_subject p = None) ->
  exists s', dstep s (LRunMsg m) = Some (s', [DPanic]) /\ d_crashed s' = true /\ forall lb, dstep s' lb = None.
Proof.
  intros Hc Hr Hm. exists (ds_crash s). unfold dstep at 1. rewrite Hc, Hr. unfold run_msg. destruct Hm as [->|(p & -> & ->)]; done.
Qed.
(** Nothing else does. *)
Theorem C58_only s lb s' ev : d_crashed s = false -> dstep s lb = Some (s', ev) -> d_crashed s' = true ->
  exists m, lb = LRunMsg m /\ d_run s = RNext /\ ev = [DPanic] /\ (am_props m = None \/ exists p, am_props m = Some p /\ ap_subject p = None).
Proof. exact (crash_only s lb s' ev). Qed.
(** Messages with another subject are skipped, beacons are observed. *)
Theorem C58_others s m p sub : d_crashed s = false -> d_run s = RNext -> am_props m = Some p -> ap_subject p = Some sub ->
  (sub <> "BEACON"%string -> dstep s (LRunMsg m) = Some (s, [DSkip])) /\
  (sub = "BEACON"%string -> d_held s = None -> exists s1 s2 ev, dstep s (LRunMsg m) = Some (s1, []) /\ dstep s1 LObserve = Some (s2, ev) /\ d_crashed s2 = false /\
     (forall id, id <> app_string m "id" -> d_map s2 !! id = d_map s !! id) /\
     exists x, d_map s2 !! app_string m "id" = Some x /\ ds_seen x = d_now s /\
       ds_info x = match d_map s !! app_string m "id" with
         | Some y => ds_info y
         | None => Info (app_string m "id") (Z.of_N (app_u32 m "v")) (app_string m "sourceType") (app_string m "address") (app_string m "direct")
         end).
Proof. exact (msg_step s m p sub). Qed.

Example C58_example : glimpses [LRun; LRunMsg (encode_heartbeat (Heartbeat (MsgProps "" "" "") "a" 1 5)); LRunMsg ex_bcn; LObserve; LRunMsg (AmqpMsg None ∅ no_value)] =
  Some (true, [("skip", "", 0); ("observe", "a", 0); ("ret", "", 0); ("panic", "", 0)])%string%Z.
Proof. vm_compute. reflexivity. Qed.

(** ** C59: when a watch forgets *)

(** A decision to forget at [t], after history [a], if activity is recorded in
    the order of its times.  The timer was never reset: the grace period and the
    timeout have passed since the start, and all activity is from before the first
    look.  Otherwise a timeout has passed since the last reset and all activity is
    from before it. *)
Theorem C59_silence now ls s evs w y a t b : drun (d_init now) ls = Some (s, evs) -> d_watches s !! w = Some y -> evs = a ++ DDecide w t :: b ->
  let c := wt_cfg y in
  exists t0 tl, starts w a = [t0] /\ looks w a = [tl] /\ (0 < w_timeout c)%Z /\
    match last (resets w a) with
    | None => (t0 + (w_grace c + w_timeout c) <= t)%Z /\ (Sorted Z.le (acts w a) -> Forall (fun ts => (ts <= tl)%Z) (acts w a))
    | Some r => (r + w_timeout c <= t)%Z /\ (Sorted Z.le (acts w a) -> Forall (fun ts => (ts <= r)%Z) (acts w a))
    end.
Proof. exact (decision now ls s evs w y a t b). Qed.
(** In particular no activity in the timeout before. *)
Theorem C59_timeout now ls s evs w y a t b ts : drun (d_init now) ls = Some (s, evs) -> d_watches s !! w = Some y -> evs = a ++ DDecide w t :: b ->
  Sorted Z.le (acts w a) -> resets w a <> [] -> ts ∈ acts w a -> (ts + w_timeout (wt_cfg y) <= t)%Z.
Proof.
  intros Hr Hy E Hso Hne Hin. destruct (decision now ls s evs w y a t b Hr Hy E) as (t0 & tl & _ & _ & _ & H).
  destruct (last (resets w a)) as [r|] eqn:El; [|by apply last_None in El]. destruct H as [H1 H2]. specialize (H2 Hso).
  pose proof (proj1 (Forall_forall _ _) H2 ts Hin). cbn in *. lia.
Qed.
(** Only after such a decision does a watch forget, and only its own source. *)
Theorem C59_decides_first now ls s evs a w id r b : drun (d_init now) ls = Some (s, evs) -> evs = a ++ DOp (ByWatch w) (OForget id) r :: b ->
  exists t, t ∈ decides w a.
Proof.
  intros Hr E. destruct (calls_run _ _ _ _ Hr _ _ _ _ _ E) as (y & _ & _ & Hne). destruct (decides w a) as [|t l]; [done|]. exists t. left.
Qed.
(** If no activity was recorded, then when the first timer is due the watch can
    forget, and does so at its next step that takes the timer. *)
Theorem C59_silent_forgets now ls s evs w y t0 : drun (d_init now) ls = Some (s, evs) -> d_watches s !! w = Some y -> (0 < w_timeout (wt_cfg y))%Z ->
  acts w evs = [] -> wt_pc y = WSelect -> starts w evs = [t0] -> (t0 + (w_grace (wt_cfg y) + w_timeout (wt_cfg y)) <= d_now s)%Z ->
  d_crashed s = false -> d_held s = None ->
  exists ls' s' evs', (ls' = [LWFire w; LWTakeTimer w; LWForget w] \/ ls' = [LWTakeTimer w; LWForget w]) /\
    drun s ls' = Some (s', evs') /\ DDecide w (d_now s) ∈ evs' /\ d_map s' !! w_id (wt_cfg y) = None.
Proof. exact (silent_forgets now ls s evs w y t0). Qed.
(** A zero timeout never forgets. *)
Theorem C59_zero now ls s evs w y : drun (d_init now) ls = Some (s, evs) -> d_watches s !! w = Some y -> (w_timeout (wt_cfg y) <= 0)%Z ->
  decides w evs = [] /\ forall id r, DOp (ByWatch w) (OForget id) r ∉ evs.
Proof. exact (zero_never now ls s evs w y). Qed.
(** Stopping and draining the timer never hangs. *)
Theorem C59_never_hangs now ls s evs w y : drun (d_init now) ls = Some (s, evs) -> d_watches s !! w = Some y -> wt_pc y <> WStuck.
Proof. exact (never_stuck now ls s evs w y). Qed.

(** A watch ends only if its context ends or it has forgotten its source. *)
Theorem C59_ends now ls s evs w : drun (d_init now) ls = Some (s, evs) -> DWatchEnd w ∈ evs ->
  LWCancel w ∈ ls \/ exists id r, DOp (ByWatch w) (OForget id) r ∈ evs.
Proof. exact (ends_because now ls s evs w). Qed.
(** Activity shows: if the newest activity is later than what the watch saw
    before, then within one update interval, a second if none is set, the watch
    can record it, and the source, if still known, was last seen then or later. *)
Theorem C59_updates now ls s evs w y n : drun (d_init now) ls = Some (s, evs) -> d_watches s !! w = Some y -> wt_pc y = WSelect ->
  last (acts w evs) = Some n -> (forall p, wt_prev y = Some p -> (p < n)%Z) -> d_crashed s = false -> d_held s = None ->
  exists dt ls' s' evs', (0 <= dt <= if (w_update (wt_cfg y) <=? 0)%Z then 1000000000 else w_update (wt_cfg y))%Z /\
    (ls' = [LDTime dt; LWTick w; LWTakeTick w; LWSeen w] \/ ls' = [LDTime dt; LWTakeTick w; LWSeen w]) /\
    drun s ls' = Some (s', evs') /\ d_now s' = (d_now s + dt)%Z /\
    forall x, d_map s !! w_id (wt_cfg y) = Some x -> exists x', d_map s' !! w_id (wt_cfg y) = Some x' /\ ds_info x' = ds_info x /\ (n <= ds_seen x')%Z.
Proof. exact (activity_shows now ls s evs w y n). Qed.

(** Each reset is for activity of its own: recorded, from before the reset, and
    later than that of the resets before.  So activity delays the end only once. *)
Theorem C59_resets now ls s evs w : drun (d_init now) ls = Some (s, evs) ->
  exists seen, Forall2 Z.le seen (resets w evs) /\ StronglySorted Z.lt seen /\ Forall (fun n => n ∈ acts w evs) seen.
Proof. exact (each_reset_run now ls s evs w). Qed.
(** When the timer as last set is due and the newest activity is one the watch has
    seen, it can forget in three steps. *)
Theorem C59_forgets now ls s evs w y t0 : drun (d_init now) ls = Some (s, evs) -> d_watches s !! w = Some y -> (0 < w_timeout (wt_cfg y))%Z ->
  wt_pc y = WSelect -> (forall n, last (acts w evs) = Some n -> exists p, wt_prev y = Some p /\ (n <= p)%Z) -> starts w evs = [t0] ->
  match last (resets w evs) with None => (t0 + (w_grace (wt_cfg y) + w_timeout (wt_cfg y)) <= d_now s)%Z | Some r => (r + w_timeout (wt_cfg y) <= d_now s)%Z end ->
  d_crashed s = false -> d_held s = None ->
  exists ls' s' evs', (ls' = [LWFire w; LWTakeTimer w; LWForget w] \/ ls' = [LWTakeTimer w; LWForget w]) /\
    drun s ls' = Some (s', evs') /\ DDecide w (d_now s) ∈ evs' /\ d_map s' !! w_id (wt_cfg y) = None.
Proof. exact (due_forgets now ls s evs w y t0). Qed.

Definition ex_wcfg : wcfg := WCfg "a" 10 5 2.
Definition ex_watch : list dlabel := [LUser (OAdd (src "a")); LWatch ex_wcfg; LWStart 0; LWLook 0].
(** Activity at 3 is seen at 4; the timer, due at 15, is set to 14 and fires. *)
Definition ex_active : list dlabel := ex_watch ++ [LDTime 3; LActNow 0; LActStore 0 0; LDTime 1; LWTick 0; LWTakeTick 0; LWSeen 0; LWReset 0; LDTime 10; LWFire 0; LWTakeTimer 0; LWForget 0; LWEnd 0].
Example C59_example : glimpses ex_active =
  Some (false, [("add", "a", 1); ("ret", "", 0); ("watch", "a", 0); ("start", "", 0); ("look", "", 0); ("activity", "", 3); ("seen", "a", 3); ("ret", "", 0); ("reset", "", 4);
    ("decide", "", 14); ("forget", "a", 1); ("ret", "", 0); ("end", "", 0)])%string%Z.
Proof. vm_compute. reflexivity. Qed.
(** Nothing happens until 15. *)
Example C59_example_updates : (match drun (d_init 0) (ex_watch ++ [LDTime 3; LActNow 0; LActStore 0 0]) with
  | Some (s, evs) => last (acts 0 evs) = Some 3%Z /\ (match d_watches s !! 0 with Some y => wt_pc y = WSelect /\ wt_prev y = None /\ wt_cancelled y = false | None => False end) /\
      d_crashed s = false /\ d_held s = None /\ is_Some (d_map s !! "a"%string)
  | None => False end).
Proof. vm_compute. repeat split. by eexists. Qed.
Example C59_example_silent : (match drun (d_init 0) (ex_watch ++ [LDTime 15]) with
  | Some (s, evs) => match d_watches s !! 0 with
      | Some y => match wt_pc y with WSelect => Some (acts 0 evs, starts 0 evs, d_now s, d_crashed s, match d_held s with None => true | _ => false end) | _ => None end
      | None => None end
  | None => None end) = Some ([], [0], 15, false, true)%Z.
Proof. vm_compute. reflexivity. Qed.

(** Activity at 3, seen at 4: due at 14. *)
Example C59_example_forgets : (match drun (d_init 0) (take 12 ex_active ++ [LDTime 10]) with
  | Some (s, evs) => match d_watches s !! 0 with
      | Some y => match wt_pc y with WSelect => Some (acts 0 evs, wt_prev y, resets 0 evs, starts 0 evs, d_now s, d_crashed s, match d_held s with None => true | _ => false end) | _ => None end
      | None => None end
  | None => None end) = Some ([3], Some 3, [4], [0], 14, false, true)%Z.
Proof. vm_compute. reflexivity. Qed.

(** When two handlers record activity in the wrong order, the watch may forget a
    source heard of within the timeout. *)
Definition ex_race : list dlabel := [LUser (OAdd (src "a")); LWatch (WCfg "a" 10 0 2); LWStart 0; LActNow 0; LWLook 0; LDTime 1; LActNow 0; LActStore 0 1;
  LDTime 1; LWTick 0; LWTakeTick 0; LWSeen 0; LWReset 0; LDTime 7; LActNow 0; LActStore 0 1; LActStore 0 0; LDTime 3; LWFire 0; LWTakeTimer 0].
Theorem C59_race_refuted : exists ls s evs y a t ts, drun (d_init 0) ls = Some (s, evs) /\ d_watches s !! 0 = Some y /\ evs = a ++ [DDecide 0 t] /\
  resets 0 a <> [] /\ ts ∈ acts 0 a /\ (t < ts + w_timeout (wt_cfg y))%Z.
Proof.
  exists ex_race.
  assert (match drun (d_init 0) ex_race with Some (s, evs) => d_watches s !! 0 <> None /\ w_timeout (default (WCfg "" 0 0 0) (wt_cfg <$> d_watches s !! 0)) = 10%Z /\
     evs = take 11 evs ++ [DDecide 0 12] /\ resets 0 (take 11 evs) <> [] /\ acts 0 (take 11 evs) = [1; 9; 0]%Z | None => False end) as H.
  { vm_compute. split; [discriminate|]. split; [reflexivity|]. split; [reflexivity|]. split; [discriminate|reflexivity]. }
  destruct (drun (d_init 0) ex_race) as [[s evs]|]; [|done].
  destruct H as (H1 & H2 & H3 & H4 & H5). destruct (d_watches s !! 0) as [y|] eqn:Ey; [|done].
  exists s, evs, y, (take 11 evs), 12%Z, 9%Z. split; [done|]. split; [done|]. split; [done|]. split; [done|]. rewrite H5. split; [right; left|].
  cbn in H2. rewrite H2. lia.
Qed.

(** ** C60: whom a watch forgets *)

(** A watch changes nothing but the source with its identity. *)
Theorem C60_own_identity now ls s evs lb s' ev w y id : drun (d_init now) ls = Some (s, evs) -> label_of lb = Some w -> d_watches s !! w = Some y -> dstep s lb = Some (s', ev) ->
  id <> w_id (wt_cfg y) -> d_map s' !! id = d_map s !! id.
Proof.
  intros Hr Hl Hy Hs Hne. destruct (step_call _ _ _ _ Hs) as [(c & o & Hc & Hwho)|[-> _]]; [|done].
  destruct c as [| | |w']; [by destruct Hwho as [-> _]|by destruct Hwho as [-> _]|by destruct Hwho as [-> _]|].
  destruct Hwho as (x & Hx & Hlb). assert (w' = w) as -> by (destruct Hlb as [[-> _]|[-> _]]; by injection Hl). assert (x = y) as -> by congruence.
  destruct (call_called _ _ _ _ _ Hc) as [m r n _ He -> _]. destruct Hlb as [(_ & t & k & _ & ->)|(_ & _ & ->)]; cbn [effect] in He.
  - destruct (d_map s !! w_id (wt_cfg y)); injection He as <- _ _; [|done]. destruct (_ <? _)%Z; [by rewrite lookup_insert_ne|done].
  - destruct (d_map s !! w_id (wt_cfg y)); injection He as <- _ _; [|done]. by rewrite lookup_delete_ne.
Qed.
Theorem C60_calls now ls s evs a w o r b : drun (d_init now) ls = Some (s, evs) -> evs = a ++ DOp (ByWatch w) o r :: b ->
  exists y, d_watches s !! w = Some y /\ match o with OSeen id _ | OForget id => id = w_id (wt_cfg y) | _ => False end.
Proof.
  intros Hr E. destruct (calls_run _ _ _ _ Hr _ _ _ _ _ E) as (y & Hy & Ho). exists y. split; [done|]. destruct o; try done. by destruct Ho.
Qed.
(** Only a known source can be watched, and a known one always can. *)
Theorem C60_known now ls s evs a e b : drun (d_init now) ls = Some (s, evs) -> evs = a ++ e :: b ->
  match e with DWatch _ id => known a id <> None | DNoWatch id => known a id = None | _ => True end.
Proof. intros Hr E. exact (watch_known_run now ls s evs Hr a e b E). Qed.
Example C60_example_known : glimpses [LWatch ex_wcfg; LUser (OAdd (src "a")); LWatch ex_wcfg] =
  Some (false, [("unknown", "a", 0); ("add", "a", 1); ("ret", "", 0); ("watch", "a", 0)])%string%Z.
Proof. vm_compute. reflexivity. Qed.
(** But identity is all it knows: it forgets a source that was discovered anew
    after its own was forgotten. *)
Definition ex_anew : list dlabel := ex_watch ++ [LDTime 14; LUser (OForget "a"); LUser (OAdd (src "a")); LDTime 1; LWFire 0; LWTakeTimer 0; LWForget 0].
Theorem C60_refuted : exists ls s evs, drun (d_init 0) ls = Some (s, evs) /\ exists a b c d,
  evs = a ++ DWatch 0 "a" :: b ++ DOp ByUser (OForget "a") (RBool true) :: c ++ DOp ByUser (OAdd (src "a")) (RBool true) :: d ++
    [DDecide 0 15; DOp (ByWatch 0) (OForget "a") (RBool true); DRet (ByWatch 0)].
Proof.
  exists ex_anew.
  assert (option_map snd (drun (d_init 0) ex_anew) = Some ([DOp ByUser (OAdd (src "a")) (RBool true); DRet ByUser] ++ DWatch 0 "a" :: [DStart 0 0; DLook 0 0] ++
    DOp ByUser (OForget "a") (RBool true) :: [DRet ByUser] ++ DOp ByUser (OAdd (src "a")) (RBool true) :: [DRet ByUser] ++
    [DDecide 0 15; DOp (ByWatch 0) (OForget "a") (RBool true); DRet (ByWatch 0)])) as H by (vm_compute; reflexivity).
  destruct (drun (d_init 0) ex_anew) as [[s evs]|]; [|done]. exists s, evs. split; [done|].
  injection H as ->. exists [DOp ByUser (OAdd (src "a")) (RBool true); DRet ByUser], [DStart 0 0; DLook 0 0], [DRet ByUser], [DRet ByUser]. reflexivity.
Qed.
Example C60_example : glimpses ex_anew =
  Some (false, [("add", "a", 1); ("ret", "", 0); ("watch", "a", 0); ("start", "", 0); ("look", "", 0); ("forget", "a", 1); ("ret", "", 0); ("add", "a", 1); ("ret", "", 0);
    ("decide", "", 15); ("forget", "a", 1); ("ret", "", 0)])%string%Z.
Proof. vm_compute. reflexivity. Qed.

Print Assumptions C53_map.
Print Assumptions C53_answers.
Print Assumptions C54_balance.
Print Assumptions C54_fifo.
Print Assumptions C55_refuted.
Print Assumptions C55_in_order.
Print Assumptions C56_details.
Print Assumptions C56_last_seen.
Print Assumptions C56_future_refuted.
Print Assumptions C57_forever.
Print Assumptions C57_refuted.
Print Assumptions C57_after_cancel_refuted.
Print Assumptions C57_progress.
Print Assumptions C58_refuted.
Print Assumptions C58_only.
Print Assumptions C58_others.
Print Assumptions C59_silence.
Print Assumptions C59_timeout.
Print Assumptions C59_decides_first.
Print Assumptions C59_silent_forgets.
Print Assumptions C59_zero.
Print Assumptions C59_never_hangs.
Print Assumptions C59_ends.
Print Assumptions C59_updates.
Print Assumptions C59_resets.
Print Assumptions C59_forgets.
Print Assumptions C59_race_refuted.
Print Assumptions C60_known.
Print Assumptions C60_own_identity.
Print Assumptions C60_calls.
Print Assumptions C60_refuted.
