(** C109: what the loops that receive messages do with them and when they end.
    Vocabulary at the top of LoopsFacts.v (sess, gots, handed, last_use) and in
    LoopsLive.v (serviced, friendly) and LoopsEnd.v (unaided). *)
From Coq Require Import ZArith NArith Ascii String Lia.
From stdpp Require Import base gmap strings list.
From Verif Require Import GoBase Run Session SessionFacts SessionLive Loops LoopsFacts LoopsLive LoopsEnd.

Local Open Scope list_scope.

(** A loop returns, and closes its link, only when its context has ended. *)
Theorem C109_ends_only k ls s evs : wrun k w_init ls = Some (s, evs) -> WReturned ∈ evs \/ (exists i, WE (EvCall i (w_link s) KClose) ∈ evs /\ w_pc s <> WNew) -> exists c, WCancel c ∈ ls.
Proof. exact (ends_only k ls s evs). Qed.

(** Messages are handed on once and in the order received; the flush and beacon
    loops leave none out. *)
Theorem C109_order k ls s evs : wrun k w_init ls = Some (s, evs) -> NoDup (gots evs) /\ omap id (handed evs) `sublist_of` gots evs /\
  (k <> LpClient -> omap id (handed evs) `prefix_of` gots evs /\ length (gots evs) <= length (omap id (handed evs)) + 1).
Proof. exact (in_order k ls s evs). Qed.

(** What the loop takes for received is what its calls of Next returned. *)
Theorem C109_received k ls s evs i : wrun k w_init ls = Some (s, evs) ->
  (i ∈ gots evs -> WE (EvRet i (w_link s) KNext ROk) ∈ evs) /\ (w_pc s <> WNew -> WE (EvRet i (w_link s) KNext ROk) ∈ evs -> i ∈ gots evs \/ w_pc s = WNext i).
Proof. exact (received k ls s evs i). Qed.

(** The client's handlers only get messages whose acceptance succeeded. *)
Theorem C109_accepted ls s evs m : wrun LpClient w_init ls = Some (s, evs) -> WHanded (Some m) ∈ evs -> exists j, WCalls j (Some m) ∈ evs /\ WE (EvRet j (w_link s) KAccept ROk) ∈ evs.
Proof. exact (accepted ls s evs m). Qed.

(** A message is accepted on the session it came from. *)
Theorem C109_same_session k ls s evs j m l sid g : wrun k w_init ls = Some (s, evs) -> WCalls j (Some m) ∈ evs -> WE (EvUse j l sid g) ∈ evs -> last_use m (sess evs) = Some (sid, g).
Proof. exact (same_session k ls s evs j m l sid g). Qed.

(** While its context lives and the container is in service, a loop can receive
    another message and hand it on. *)
Theorem C109_goes_on k ls s evs : wrun k w_init ls = Some (s, evs) -> serviced ls -> (forall c, WCancel c ∉ ls) -> c_panic (w_s s) = false ->
  exists ls' s' ev m, Forall friendly ls' /\ wrun k s ls' = Some (s', ev) /\ WGot m ∈ ev /\ WHanded (Some m) ∈ ev.
Proof. exact (progress k ls s evs). Qed.

(** A nil message is only taken for a message by the flush loop, and only after
    its context ended. *)
Theorem C109_nil_only k ls s evs : wrun k w_init ls = Some (s, evs) -> WHanded None ∈ evs \/ WCrash ∈ evs -> k = LpFlush /\ exists c, WCancel c ∈ ls.
Proof. exact (nil_only k ls s evs). Qed.

(** It crashes only if a receiver was made for a call whose context had ended. *)
Theorem C109_crash_only k ls s evs : wrun k w_init ls = Some (s, evs) -> WCrash ∈ evs -> exists i l sid g, WCalls i None ∈ evs /\ WE (EvUse i l sid g) ∈ evs.
Proof. exact (crash_how k ls s evs). Qed.

Definition ex_start : list wlabel := [WSess LStart; WSess (LDial (Dialed 7)); WSess LPublish; WSess LTear; WGo; WGo].
Definition ex_crash : list wlabel := ex_start ++ (WSess <$> [LStep 0; LStep 0; LNet 0 NOk; LNet 0 (NErr None)]) ++ [WCancel Canceled] ++
  (WSess <$> [LStep 0; LStep 0; LStep 0]) ++ [WGo] ++ (WSess <$> [LTakeErr; LBackoff true; LNotified; LPauseEnd; LDial (Dialed 8); LPublish; LTear]) ++
  [WGo] ++ (WSess <$> [LStep 1; LStep 1; LStep 1; LStep 1; LNet 1 NOk]).

(** And then it can. *)
Theorem C109_never_crashes_refuted : ~ forall ls s evs, wrun LpFlush w_init ls = Some (s, evs) -> WCrash ∉ evs.
Proof.
  intros H. assert (exists s evs, wrun LpFlush w_init ex_crash = Some (s, evs) /\ existsb (fun e => match e with WCrash => true | _ => false end) evs = true) as (s & evs & Hr & Hc).
  { eexists _, _. split; vm_compute; reflexivity. }
  apply existsb_exists in Hc as (x & Hx & Hc). destruct x; try discriminate Hc. apply (H _ _ _ Hr). by apply elem_of_list_In.
Qed.

(** A loop that returned has called Close on its link, and that call returned. *)
Theorem C109_closes k ls s evs : wrun k w_init ls = Some (s, evs) -> WReturned ∈ evs ->
  exists i r, WE (EvCall i (w_link s) KClose) ∈ evs /\ WE (EvRet i (w_link s) KClose r) ∈ evs.
Proof. exact (closes k ls s evs). Qed.

(** Once its context has ended a loop can return by its own steps and answers of
    the network, whatever it was doing, provided the container runs no handlers
    and has room for an error. *)
Theorem C109_can_end k ls s evs c : wrun k w_init ls = Some (s, evs) -> WCancel c ∈ ls -> WCrash ∉ evs -> WReturned ∉ evs ->
  c_panic (w_s s) = false -> c_lock (w_s s) = false -> length (c_errs (w_s s)) < 32 ->
  exists ls' s' ev, Forall unaided ls' /\ wrun k s ls' = Some (s', ev) /\ WReturned ∈ ev.
Proof. exact (can_end k ls s evs c). Qed.

(** Without that room it may never return: the container has stopped with a full
    queue of errors while Next was about to report one more. *)
Definition ex_fill (j : nat) : list wlabel := WSess <$> [LLink; LOp j KSend; LStep j; LStep j; LNet j NOk; LNet j (NErr None); LStep j; LStep j].
Definition ex_full : list wlabel := ex_start ++ (WSess <$> [LStep 0; LStep 0; LNet 0 NOk]) ++ flat_map ex_fill (seq 1 32) ++ (WSess <$> [LNet 0 (NErr None); LStep 0]) ++ [WCancel Canceled] ++
  (WSess <$> [LCCancel Canceled; LLoopCtx; LBackoff true; LAfter; LFinalTear]).
Definition full_b (s : wstate) (evs : list wev) : bool :=
  existsb (fun e => match e with WE EvStopped => true | _ => false end) evs && (32 <=? length (c_errs (w_s s))) && negb (c_lock (w_s s)) && negb (c_panic (w_s s)) &&
  match w_pc s with WNext 0 => match c_ops (w_s s) !! 0 with Some o => match o_pc o with PReport _ _ => true | _ => false end | None => false end | _ => false end.
Lemma opt_true {A B} (x : option (A * B)) f : match x with Some (a, b) => f a b | None => false end = true -> exists a b, x = Some (a, b) /\ f a b = true.
Proof. destruct x as [[a b]|]; [|done]. eauto. Qed.
Theorem C109_can_end_refuted : exists ls s evs, wrun LpClient w_init ls = Some (s, evs) /\ WCancel Canceled ∈ ls /\ c_panic (w_s s) = false /\ c_lock (w_s s) = false /\
  forall ls' s' ev, wrun LpClient s ls' = Some (s', ev) -> WReturned ∉ ev.
Proof.
  assert (exists ls s evs, wrun LpClient w_init ls = Some (s, evs) /\ WCancel Canceled ∈ ls /\ full_b s evs = true) as (ls & s & evs & Er & Hin & H).
  { destruct (opt_true (wrun LpClient w_init ex_full) full_b) as (s & evs & Er & H); [vm_cast_no_check (eq_refl true)|]. exists ex_full, s, evs. split; [exact Er|]. split; [|exact H].
    unfold ex_full. rewrite !elem_of_app. do 4 right. left. left. }
  exists ls, s, evs. split; [done|]. split; [done|]. unfold full_b in H. apply andb_true_iff in H as [H Hpc]. apply andb_true_iff in H as [H Hp]. apply andb_true_iff in H as [H Hl]. apply andb_true_iff in H as [Hst Hq].
  split; [by destruct (c_panic (w_s s))|]. split; [by destruct (c_lock (w_s s))|].
  destruct (w_pc s) as [| |[|n]|m|i m|m| |i|] eqn:Ep; try discriminate Hpc. destruct (c_ops (w_s s) !! 0) as [o|] eqn:Ho; [|discriminate Hpc]. destruct (o_pc o) as [|g|g n|x g| | |ob g|e|g e|e| |r] eqn:Epc; try discriminate Hpc.
  eapply (stuck LpClient ls s evs 0 o g e); try done.
  - apply existsb_exists in Hst as (x & Hx & Hst). destruct x as [[]| | | | |]; try discriminate Hst. by apply elem_of_list_In.
  - by apply Nat.leb_le in Hq.
Qed.

(** Two messages: the first accepted and handed on, the second's acceptance fails. *)
Definition ex_two : list wlabel := ex_start ++ (WSess <$> [LStep 0; LStep 0; LNet 0 NOk; LNet 0 NOk]) ++ [WGo; WGo] ++ (WSess <$> [LStep 1; LStep 1; LNet 1 NOk]) ++ [WGo; WGo; WGo] ++
  (WSess <$> [LStep 2; LStep 2; LNet 2 NOk]) ++ [WGo; WGo] ++ (WSess <$> [LStep 3; LStep 3; LNet 3 (NErr None)]) ++ [WGo].

Example C109_example : exists s evs, wrun LpClient w_init ex_two = Some (s, evs) /\ serviced ex_two /\ (forall c, WCancel c ∉ ex_two) /\ c_panic (w_s s) = false /\
  gots evs = [0; 2] /\ handed evs = [Some 0] /\ WCalls 1 (Some 0) ∈ evs /\ WCalls 3 (Some 2) ∈ evs /\ WE (EvUse 3 0 7 1) ∈ evs /\ WE (EvRet 3 0 KAccept (RErr EOther)) ∈ evs /\ w_pc s = WTop.
Proof.
  eexists _, _. split; [vm_compute; reflexivity|]. split; [|split; [|split; [reflexivity|]]].
  - split; [left|]. unfold ex_two, ex_start. cbn. split; [intros c|split]; rewrite !not_elem_of_cons; repeat split; try done; apply not_elem_of_nil.
  - intros c. unfold ex_two, ex_start. cbn. rewrite !not_elem_of_cons; repeat split; try done; apply not_elem_of_nil.
  - split; [reflexivity|]. split; [reflexivity|]. repeat split; rewrite ?elem_of_list_In; cbn; repeat (first [left; reflexivity|right]).
Qed.

(** Cancelled while it waits for a message: it closes its link and returns. *)
Definition ex_cancel : list wlabel := ex_start ++ (WSess <$> [LStep 0; LStep 0; LNet 0 NOk]) ++ [WCancel Canceled].
Definition ex_leave : list wlabel := (WSess <$> [LNet 0 (NErr (Some Canceled)); LStep 0]) ++ [WGo; WGo] ++ (WSess <$> [LStep 1; LNet 1 NOk]) ++ [WGo].
Example C109_example_end : exists s evs s' ev, wrun LpFlush w_init ex_cancel = Some (s, evs) /\ WCancel Canceled ∈ ex_cancel /\ WCrash ∉ evs /\ WReturned ∉ evs /\
  c_panic (w_s s) = false /\ c_lock (w_s s) = false /\ c_errs (w_s s) = [] /\ wrun LpFlush s ex_leave = Some (s', ev) /\ WReturned ∈ ev.
Proof.
  eexists _, _, _, _. split; [vm_compute; reflexivity|]. split; [unfold ex_cancel; rewrite !elem_of_app; do 2 right; left|].
  split; [rewrite !not_elem_of_cons; repeat split; try done; apply not_elem_of_nil|]. split; [rewrite !not_elem_of_cons; repeat split; try done; apply not_elem_of_nil|].
  do 3 (split; [reflexivity|]). split; [vm_compute; reflexivity|]. rewrite elem_of_list_In. cbn. repeat (first [left; reflexivity|right]).
Qed.

Print Assumptions C109_closes.
Print Assumptions C109_can_end.
Print Assumptions C109_can_end_refuted.
Print Assumptions C109_example_end.
Print Assumptions C109_ends_only.
Print Assumptions C109_order.
Print Assumptions C109_received.
Print Assumptions C109_accepted.
Print Assumptions C109_same_session.
Print Assumptions C109_goes_on.
Print Assumptions C109_nil_only.
Print Assumptions C109_crash_only.
Print Assumptions C109_never_crashes_refuted.
