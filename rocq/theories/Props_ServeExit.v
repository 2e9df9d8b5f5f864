(** Property C108: how the commands that serve HTTP end.
    The vocabulary is in ServeExit.v (events) and at the top of ServeExitFacts.v. *)
From Coq Require Import ZArith Lia.
From stdpp Require Import base list.
From Verif Require Import Run ServeExit ServeExitFacts.

Local Open Scope list_scope.
Local Open Scope Z_scope.

(** ** C108: the serve and fixture commands end when told, and requests in progress get a second *)

(** It ends only after it was told to, by a signal or by the container's last
    error. *)
Theorem C108_only_told ls s evs t cut : xrun x_init ls = Some (s, evs) -> EExit t cut ∈ evs ->
  (exists t0, EStop t0 ∈ evs /\ t0 <= t) /\ (XSignal ∈ ls \/ XHandler ∈ ls).
Proof. intros Hr He. destruct (exit_told _ _ _ _ _ Hr He) as (t0 & Ht & Hle). split; [eauto|]. by apply (told _ _ _ _ Hr Ht). Qed.

(** A signal, or the container's last error, tells it to end. *)
Theorem C108_told ls s evs : xrun x_init ls = Some (s, evs) -> XSignal ∈ ls \/ XHandler ∈ ls -> exists t0, EStop t0 ∈ evs.
Proof. exact (stopped ls s evs). Qed.

(** Told, it can end within a second whatever its requests do, from every state. *)
Theorem C108_ends ls s evs t0 : xrun x_init ls = Some (s, evs) -> EStop t0 ∈ evs -> (forall t cut, EExit t cut ∉ evs) ->
  exists ls' s' evs' t cut, Forall unaided ls' /\ 0 <= xlapses ls' <= 1000000000 /\ xrun s ls' = Some (s', evs') /\ EExit t cut ∈ evs'.
Proof. intros Hr Ht Hn. destruct (ends _ _ _ _ Hr Ht Hn) as (ls' & s' & ev' & HF & Hl & Hrun & He). eexists ls', s', ev', _, _. split; [exact HF|]. split; [exact Hl|]. split; [exact Hrun|exact He]. Qed.

(** If it ends with requests unanswered, they had at least a second, provided
    the container did not give up. *)
Theorem C108_grace ls s evs t cut : xrun x_init ls = Some (s, evs) -> EExit t cut ∈ evs -> cut <> [] -> XGiveUp ∉ ls ->
  exists t0, EStop t0 ∈ evs /\ t0 + 1000000000 <= t.
Proof. exact (second_given ls s evs t cut). Qed.

(** Told by a signal while the container is giving up, it can end at once with a
    request unanswered: the handler of the last error then cancels the second. *)
Definition hasty : list xlabel := [XListen true; XServe; XAccept 1; XGiveUp; XSignal; XWake; XShutdown; XHandler; XExpired; XStopServing; XExit].
Theorem C108_grace_refuted : exists ls s evs t cut, xrun x_init ls = Some (s, evs) /\ EExit t cut ∈ evs /\ cut <> [] /\ forall t0, EStop t0 ∈ evs -> t0 = t.
Proof.
  exists hasty. eexists _, _, 0, [1%nat]. split; [vm_compute; reflexivity|]. split; [repeat (left || right)|]. split; [done|]. intros t0 Ht.
  repeat (apply elem_of_cons in Ht as [Ht|Ht]; [try discriminate Ht; by injection Ht as ->|]). by apply elem_of_nil in Ht.
Qed.

(** No request is taken once the server was told to shut down, and at the end
    every request taken was answered once or is among those cut. *)
Theorem C108_accounted ls s evs : xrun x_init ls = Some (s, evs) ->
  (forall e1 t e2 r, evs = e1 ++ EShut t :: e2 -> EAccept r ∉ e2) /\
  (forall t cut, EExit t cut ∈ evs -> NoDup cut /\ forall r, times (EAccept r) evs = (times (EAnswer r) evs + if bool_decide (r ∈ cut) then 1 else 0)%nat).
Proof.
  intros Hr. pose proof (xinv_run _ _ _ Hr) as Hi. split; [intros e1 t e2 r E; by apply (none_after _ _ _ _ _ _ r Hr E)|].
  intros t cut He. destruct (xi_exit _ _ Hi _ _ He) as (_ & _ & ->). split; [by apply (xi_open _ _ Hi)|]. by apply (xi_count _ _ Hi).
Qed.

(** A server that cannot listen, or that fails, takes no more requests; the
    command does not end for it ([C108_only_told]). *)
Theorem C108_unnoticed ls s evs : xrun x_init ls = Some (s, evs) ->
  (XListen false ∈ ls -> forall r, EAccept r ∉ evs) /\
  (forall s1 ev1 ls' s' evs' r, xstep s XAcceptFails = Some (s1, ev1) -> xrun s1 ls' = Some (s', evs') -> EAccept r ∉ evs').
Proof.
  intros Hr. split; [intros Hl; apply (unheard _ _ _ Hr), Hl|]. intros s1 ev1 ls' s' evs' r Hs Hr'.
  apply (failed_run ls' s1 s' evs' r); [|done]. unfold xstep in Hs. destruct (x_main s); try done; destruct (x_srv s); try done; destruct (x_flag s); try done; by injection Hs as <- _.
Qed.

Definition cut_off : list xlabel := [XListen true; XServe; XAccept 1; XAccept 2; XTime 5; XSignal; XWake; XShutdown; XAnswer 1; XStopServing; XTime 1000000000; XExpired; XEnd; XExit].
Example C108_example : (exists s, xrun x_init cut_off = Some (s, [EAccept 1; EAccept 2; EStop 5; EShut 5; EAnswer 1; EExit 1000000005 [2%nat]])) /\ XGiveUp ∉ cut_off /\
  (exists s evs, xrun x_init (take 6 cut_off) = Some (s, evs) /\ EStop 5 ∈ evs /\ forall t cut, EExit t cut ∉ evs) /\
  (exists s, xrun x_init [XListen false; XTime 100; XSignal; XWake; XShutdown; XIdle; XExit] = Some (s, [EStop 100; EShut 100; EExit 100 []])) /\
  (exists s s1 ev1, xrun x_init [XListen true; XServe; XAccept 1] = Some (s, [EAccept 1]) /\ xstep s XAcceptFails = Some (s1, ev1)).
Proof.
  split; [eexists; vm_compute; reflexivity|]. split; [unfold cut_off; rewrite !not_elem_of_cons; repeat split; try done; apply not_elem_of_nil|].
  split; [eexists _, _; split; [vm_compute; reflexivity|]; split; [repeat (left || right)|]; intros t cut; rewrite !not_elem_of_cons; repeat split; try done; apply not_elem_of_nil|].
  split; [eexists; vm_compute; reflexivity|]. eexists _, _, _. split; vm_compute; reflexivity.
Qed.

Print Assumptions C108_told.
Print Assumptions C108_only_told.
Print Assumptions C108_ends.
Print Assumptions C108_grace.
Print Assumptions C108_grace_refuted.
Print Assumptions C108_accounted.
Print Assumptions C108_unnoticed.
Print Assumptions C108_example.
