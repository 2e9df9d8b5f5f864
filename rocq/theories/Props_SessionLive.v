(** A failed session is replaced: C97; what methods return: C102.  The vocabulary
    is in SessionFacts.v (serial, ests), and at the top of SessionLive.v (healing,
    in_service) and SessionResults.v (pending). *)
From Coq Require Import ZArith NArith Ascii String Lia.
From stdpp Require Import base gmap strings list.
From Verif Require Import GoBase Run Session SessionFacts SessionCont SessionExamples SessionLink SessionEnd SessionLive SessionResults.

Local Open Scope list_scope.

(** ** C97 *)
(** From every state of a container in service: when connecting succeeds, its
    own steps lead to a session later than every session an error was reported
    for, with no report left. *)
Theorem C97_heals ls s evs : srun c_init ls = Some (s, evs) -> in_service ls -> c_panic s = false ->
  exists ls' s' ev g' sid', Forall healing ls' /\ length ls' <= length (c_errs s) + 12 /\ srun s ls' = Some (s', ev) /\
    c_errs s' = [] /\ last (ests (evs ++ ev)) = Some (g', sid') /\ forall i l h, EvReport i l h ∈ evs -> h < g'.
Proof. exact (heals_run ls s evs 0). Qed.
(** A Next whose receiver fails: it reports the session, a later one is
    established, and the same call returns a message from that one. *)
Theorem C97_next_resumes ls s evs i l g e s1 ev : srun c_init ls = Some (s, evs) -> in_service ls -> serial l evs -> (forall i', EvCall i' l KClose ∉ evs) ->
  EvCall i l KNext ∈ evs -> sstep s (LNet i (NErr e)) = Some (s1, ev) -> EvNetErr i l g ∈ ev -> (forall c, LCtx i c ∉ ls) ->
  exists ls' s' ev' g' sid', Forall (fun lb => healing lb \/ lb = LStep i \/ lb = LNet i NOk) ls' /\ length ls' <= 97 /\ srun s1 ls' = Some (s', ev') /\
    EvReport i l g ∈ ev' /\ g < g' /\ last (ests (evs ++ ev ++ ev')) = Some (g', sid') /\ EvUse i l sid' g' ∈ ev' /\ EvRet i l KNext ROk ∈ ev'.
Proof. exact (next_resumes ls s evs i l g e s1 ev 0). Qed.
(** A Send that fails returns the error, and the next Send of that link goes out
    on a later session. *)
Theorem C97_send_resumes ls s evs i l g e s1 ev : srun c_init ls = Some (s, evs) -> in_service ls -> serial l evs -> (forall i', EvCall i' l KClose ∉ evs) ->
  EvCall i l KSend ∈ evs -> sstep s (LNet i (NErr e)) = Some (s1, ev) -> EvNetErr i l g ∈ ev -> (forall c, LCtx i c ∉ ls) ->
  exists ls' s' ev', Forall (fun lb => healing lb \/ lb = LStep i) ls' /\ length ls' <= 91 /\ srun s1 ls' = Some (s', ev') /\
    EvReport i l g ∈ ev' /\ EvRet i l KSend (RErr (net_err e)) ∈ ev' /\
    exists n s2 g' sid', g < g' /\ last (ests (evs ++ ev ++ ev')) = Some (g', sid') /\
      srun s' (LOp l KSend :: goes_out n) = Some (s2, [EvCall n l KSend; EvNew n l sid' g'; EvUse n l sid' g'; EvRet n l KSend ROk]).
Proof. exact (send_resumes ls s evs i l g e s1 ev 0). Qed.

(** A failed Accept is not such an error: nothing is reported, no call is left
    to report it, and the container keeps the session. *)
Definition ex_accept : list clabel := [LStart; LDial (Dialed 11); LPublish; LTear; LLink; LOp 0 KAccept; LStep 0; LStep 0; LNet 0 NOk; LNet 0 (NErr None)].
Theorem C97_accept_refuted : exists s evs, srun c_init ex_accept = Some (s, evs) /\ in_service ex_accept /\ EvRet 0 0 KAccept (RErr EOther) ∈ evs /\
  reports 0 evs = [] /\ c_errs s = [] /\ c_pc s = CLoop /\ ests evs = [(1, 11)].
Proof.
  eexists _, _. split; [vm_compute; reflexivity|]. split.
  - split; [left|]. split; [intros c H|split; intros H]; unfold ex_accept in H; repeat (apply elem_of_cons in H as [H|H]; [discriminate H|]); by apply elem_of_nil in H.
  - split; [repeat (first [left|right])|]. split_and!; reflexivity.
Qed.

Definition ex_broken (k : kind) : list clabel := [LStart; LDial (Dialed 11); LPublish; LTear; LLink; LOp 0 k; LStep 0; LStep 0; LNet 0 NOk].
Example C97_example k : k = KNext \/ k = KSend -> exists s evs s1, srun c_init (ex_broken k) = Some (s, evs) /\ in_service (ex_broken k) /\ serial 0 evs /\ (forall i', EvCall i' 0 KClose ∉ evs) /\
  EvCall 0 0 k ∈ evs /\ sstep s (LNet 0 (NErr None)) = Some (s1, [EvNetErr 0 0 1]) /\ (forall c, LCtx 0 c ∉ ex_broken k) /\ c_panic s = false.
Proof.
  intros [-> | ->]; eexists _, _, _.
  all: split; [vm_compute; reflexivity|].
  all: split; [split; [left|]; split; [intros c H|split; intros H]; unfold ex_broken in H; repeat (apply elem_of_cons in H as [H|H]; [discriminate H|]); by apply elem_of_nil in H|].
  all: split; [apply serial_b; vm_compute; reflexivity|].
  all: split; [intros i' H; repeat (apply elem_of_cons in H as [H|H]; [discriminate H|]); by apply elem_of_nil in H|].
  all: split; [repeat (first [left|right])|].
  all: split; [vm_compute; reflexivity|].
  all: split; [intros c H; unfold ex_broken in H; repeat (apply elem_of_cons in H as [H|H]; [discriminate H|]); by apply elem_of_nil in H|reflexivity].
Qed.
Print Assumptions C97_heals.
Print Assumptions C97_next_resumes.
Print Assumptions C97_send_resumes.
Print Assumptions C97_accept_refuted.

(** ** C102: what methods return *)
(** Next, Accept and Send return nil only when their call of the network did. *)
Theorem C102_nil ls s evs lb s2 ev i l k : srun c_init ls = Some (s, evs) -> sstep s lb = Some (s2, ev) -> EvRet i l k ROk ∈ ev -> k <> KClose ->
  lb = LNet i NOk /\ exists sid g, pending ls i l sid g.
Proof. exact (ok_needs ls s evs lb s2 ev i l k). Qed.
(** An error returned is the call's context's, the network's, or says that Close
    was called. *)
Theorem C102_errors ls s evs i l k e : srun c_init ls = Some (s, evs) -> EvRet i l k (RErr e) ∈ evs ->
  match e with
  | ECtx c => LCtx i c ∈ ls \/ LNet i (NErr (Some c)) ∈ ls
  | EOther => LNet i (NErr None) ∈ ls
  | EClosed => exists j, EvCall j l KClose ∈ evs
  end.
Proof. exact (err_origin ls s evs i l k e). Qed.
(** Next gives up only once its own context has ended. *)
Theorem C102_next ls s evs i l e : srun c_init ls = Some (s, evs) -> EvRet i l KNext (RErr e) ∈ evs -> exists c, LCtx i c ∈ ls.
Proof.
  intros Hr Hin. destruct (ai_ret _ _ (ainv _ _ _ Hr) _ _ _ _ Hin) as (o & Ho & _ & Hk & Hp). exact (next_gives_up _ _ _ Hr _ _ _ Ho Hk Hp).
Qed.
(** And when the network returns, the method returns nil, or, for Accept, the
    network's error as it is; Next and Send handle errors (C63, C97). *)
Theorem C102_returns ls s evs i l sid g : srun c_init ls = Some (s, evs) -> c_panic s = false -> pending ls i l sid g ->
  exists k, EvCall i l k ∈ evs /\ k <> KClose /\
    (exists s2, sstep s (LNet i NOk) = Some (s2, [EvRet i l k ROk])) /\
    (forall c, exists s2, sstep s (LNet i (NErr c)) = Some (s2, [if decide (k = KAccept) then EvRet i l k (RErr (net_err c)) else EvNetErr i l g])).
Proof. exact (net_returns ls s evs i l sid g). Qed.
(** A Send that succeeds and an Accept that fails. *)
Definition ex_results : list clabel :=
  [LStart; LDial (Dialed 11); LPublish; LTear; LLink; LOp 0 KSend; LStep 0; LStep 0; LNet 0 NOk; LNet 0 NOk; LOp 0 KAccept; LStep 1; LStep 1; LNet 1 NOk].
Example C102_example : events ex_results = [EvConn 11; EvEst 1 11; EvLink 0; EvCall 0 0 KSend; EvNew 0 0 11 1; EvUse 0 0 11 1; EvRet 0 0 KSend ROk;
    EvCall 1 0 KAccept; EvNew 1 0 11 1; EvUse 1 0 11 1] /\ pending ex_results 1 0 11 1 /\
  events (ex_results ++ [LNet 1 (NErr None)]) = events ex_results ++ [EvRet 1 0 KAccept (RErr EOther)].
Proof.
  split; [by vm_compute|]. split; [|by vm_compute].
  exists (take 13 ex_results), (LNet 1 NOk), []. destruct (srun c_init (take 13 ex_results)) as [[s1 ev1]|] eqn:E1; [|vm_compute in E1; discriminate E1].
  destruct (sstep s1 (LNet 1 NOk)) as [[s2 ev2]|] eqn:E2; [|vm_compute in E1; injection E1 as <- <-; vm_compute in E2; discriminate E2].
  exists s1, ev1, s2, ev2. split; [reflexivity|]. split; [done|]. split; [exact E2|]. vm_compute in E1. injection E1 as <- <-. vm_compute in E2. injection E2 as <- <-.
  split; [left|]. intros r Hin. by apply elem_of_nil in Hin.
Qed.
Print Assumptions C102_nil.
Print Assumptions C102_errors.
Print Assumptions C102_next.
Print Assumptions C102_returns.

(** ** C78, continued: the pace *)
(** Between two attempts to connect, the pause has ended. *)
Theorem C78_paced ls s evs a d b d' c : srun c_init ls = Some (s, evs) -> ls = a ++ LDial d :: b ++ LDial d' :: c -> LPauseEnd ∈ b.
Proof. exact (dial_after_pause ls s evs a d b d' c). Qed.
Example C78_paced_example : events [LStart; LDial DialErr; LBackoff true; LNotified; LPauseEnd; LDial (Dialed 7); LPublish] = [EvNotify; EvConn 7; EvEst 1 7].
Proof. by vm_compute. Qed.
Print Assumptions C78_paced.
