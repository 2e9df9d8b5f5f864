(** Property C103: a discovered source is asked for its records. *)
From Coq Require Import ZArith Lia.
From stdpp Require Import base list.
From Verif Require Import Run FlushTool FlushToolFacts.

Local Open Scope list_scope.

(** ** C103: every discovered source is asked for its records *)

(** One or two flushes, in one of four courses; it returns what the last flush
    returned, when the course is complete. *)
Theorem C103_course now c0 ls s evs : frun (f_init now c0) ls = Some (s, evs) ->
  exists full, complete full /\ course evs `prefix_of` full /\ (forall r, FRet r ∈ evs <-> f_pc s = FReturned r) /\ forall r, FRet r ∈ evs -> course evs = full.
Proof. exact (course_of now c0 ls s evs). Qed.
(** At any time before the first flush: it can come at once if a message was
    handled since it began, and within five seconds if not. *)
Theorem C103_asks now c0 ls s evs : frun (f_init now c0) ls = Some (s, evs) -> course evs = [] ->
  exists l1 dt l2 s' evs', Forall its_own l1 /\ Forall its_own l2 /\ (0 <= dt <= 5000000000)%Z /\ ((exists t, FMessage t ∈ evs) -> dt = 0%Z) /\
    frun s (l1 ++ FTime dt :: l2) = Some (s', evs') /\ exists w t, FAttempt w t ∈ evs'.
Proof. exact (asks now c0 ls s evs). Qed.
(** From its fourth step on, where it waits, any record and any heartbeat is such
    a message. *)
Theorem C103_hears now c0 ls s evs l : frun (f_init now c0) ls = Some (s, evs) -> 3 <= went ls -> l = FRecord \/ l = FHeartbeat ->
  exists s', frun s [l] = Some (s', [FMessage (f_now s)]).
Proof.
  intros Hr Hn Hl. destruct (hears now c0 ls s evs Hr Hn) as [H1 H2]. destruct Hl as [-> | ->]; cbn [run fstep]; unfold handled; [rewrite H1|rewrite H2]; by eexists.
Qed.
(** The first flush follows a message, unless the five seconds are over or the
    tool is stopping. *)
Theorem C103_after_message now c0 ls s evs a t b : frun (f_init now c0) ls = Some (s, evs) -> evs = a ++ FAttempt Within t :: b -> exists t', FMessage t' ∈ a.
Proof. exact (asks_within now c0 ls s evs a t b). Qed.
Theorem C103_after_wait now c0 ls s evs a t b : frun (f_init now c0) ls = Some (s, evs) -> evs = a ++ FAttempt Outer t :: b ->
  exists c t', FCtx c t' ∈ a /\ forall e, FResult (Some e) ∈ a -> wraps e c.
Proof.
  intros Hr E. destruct (asks_outer now c0 ls s evs a t b Hr E) as (c & t' & Hc & H). exists c, t'. split; [done|]. intros e He. apply wraps_is. by apply H.
Qed.
Theorem C103_wait now c0 ls s evs a c t b : frun (f_init now c0) ls = Some (s, evs) -> evs = a ++ FCtx c t :: b ->
  exists t0, FBegan t0 ∈ a /\ match c with CDeadline => (t0 + 5000000000 <= t)%Z | CCanceled => c0 = true \/ FCancel ∈ ls end.
Proof. exact (ctx_ends now c0 ls s evs a c t b). Qed.
(** A flush that failed is tried again exactly if the five seconds ended it. *)
Theorem C103_again now c0 ls s evs t e : frun (f_init now c0) ls = Some (s, evs) -> course evs = [FAttempt Within t; FResult (Some e)] ->
  exists s' ev, frun s [FGo] = Some (s', [ev]) /\
    ((exists c t', FCtx c t' ∈ evs /\ wraps e c) /\ ev = FAttempt Outer (f_now s) \/
     (forall c t', FCtx c t' ∈ evs -> ~ wraps e c) /\ ev = FRet (Some e)).
Proof.
  intros Hr E. destruct (after_failure now c0 ls s evs t e Hr E) as (s' & ev & Hs & H). exists s', ev. split; [done|].
  destruct H as [[(c & t' & Hc & He) Hev]|[H Hev]]; [left|right]; (split; [|done]).
  - exists c, t'. split; [done|]. by apply wraps_is.
  - intros c t' Hc. apply wraps_not. by apply (H c t').
Qed.
(** So it gives up after one flush if that fails for another reason, such as a
    connection that breaks: the source is never asked, though the client's
    container reconnects. *)
Theorem C103_gives_up now c0 ls s evs a e b : frun (f_init now c0) ls = Some (s, evs) -> evs = a ++ FRet (Some e) :: b -> (forall t, FAttempt Outer t ∉ a) ->
  forall c t, FCtx c t ∈ a -> ~ wraps e c.
Proof. intros Hr E Ha c t Hc. apply wraps_not. exact (gives_up now c0 ls s evs a e b Hr E Ha c t Hc). Qed.
Definition ex_broken : list flabel := [FGo; FGo; FGo; FTime 1000; FHeartbeat; FSeeDone; FSent (Some (SErr false false)); FGo; FTime 5000000000; FExpire; FHeartbeat].
Theorem C103_refuted : exists ls s evs e, frun (f_init 0 false) ls = Some (s, evs) /\ FCancel ∉ ls /\ e_deadline e = false /\ e_canceled e = false /\
  course evs = [FAttempt Within 1000; FResult (Some e); FRet (Some e)] /\
  forall ls' s' evs', frun s ls' = Some (s', evs') -> course evs' = [].
Proof.
  assert (exists s evs, frun (f_init 0 false) ex_broken = Some (s, evs) /\ f_pc s = FReturned (Some (SErr false false)) /\
    course evs = [FAttempt Within 1000; FResult (Some (SErr false false)); FRet (Some (SErr false false))]) as (s & evs & Hr & Hp & Hc)
    by (eexists _, _; split; [vm_compute; reflexivity|split; reflexivity]).
  exists ex_broken, s, evs, (SErr false false). split; [done|]. split; [unfold ex_broken; rewrite !elem_of_cons, elem_of_nil; naive_solver|].
  split; [done|]. split; [done|]. split; [done|]. intros ls' s' evs' Hr'. clear Hr Hc.
  assert (f_pc s' = FReturned (Some (SErr false false)) /\ course ([] ++ evs') = []) as [_ H]; [|exact H].
  apply (run_inv fstep (fun s evs => f_pc s = FReturned (Some (SErr false false)) /\ course evs = []) (fun _ => True) s [] ls' s' evs') with (4 := Hr'); [done| |by apply Forall_true].
  intros s1 evs1 l s2 ev [Hp1 Hc1] _ Hs. rewrite course_app, Hc1. unfold fstep, handled in Hs. rewrite Hp1 in Hs.
  destruct l; try done; repeat case_match; try done; injection Hs as <- <-; done.
Qed.

(** A message at 1000; the first flush times out and is sent again. *)
Definition ex_again : list flabel := [FGo; FGo; FGo; FTime 1000; FRecord; FSeeDone; FTime 5000000000; FExpire; FSent (Some (SErr true false)); FGo; FSent None].
Example C103_example : option_map snd (frun (f_init 0 false) ex_again) =
  Some [FBegan 0; FMessage 1000; FAttempt Within 1000; FCtx CDeadline 5000001000; FResult (Some (SErr true false)); FAttempt Outer 5000001000; FResult None; FRet None].
Proof. vm_compute. reflexivity. Qed.
(** No message comes. *)
Example C103_example_late : option_map snd (frun (f_init 0 false) [FGo; FGo; FGo; FTime 5000000000; FExpire; FSeeCtx; FGo; FSent None]) =
  Some [FBegan 0; FCtx CDeadline 5000000000; FAttempt Outer 5000000000; FResult None; FRet None].
Proof. vm_compute. reflexivity. Qed.

Print Assumptions C103_course.
Print Assumptions C103_asks.
Print Assumptions C103_hears.
Print Assumptions C103_after_message.
Print Assumptions C103_after_wait.
Print Assumptions C103_wait.
Print Assumptions C103_again.
Print Assumptions C103_gives_up.
Print Assumptions C103_refuted.
