(** Runs of the session model used as examples and witnesses. *)
From Coq Require Import ZArith NArith Ascii String Lia Sorted.
From stdpp Require Import base gmap strings list sorting.
From Verif Require Import GoBase Run Session SessionFacts SessionCont SessionLink SessionEnd.

Local Open Scope list_scope.

Definition events (ls : list clabel) : list cev := match srun c_init ls with Some (_, evs) => evs | None => [] end.
Definition runs (ls : list clabel) : bool := match srun c_init ls with Some _ => true | None => false end.

Lemma events_run ls : runs ls = true -> exists s, srun c_init ls = Some (s, events ls).
Proof. unfold runs, events. destruct (srun c_init ls) as [[s evs]|]; [|done]. eauto. Qed.

(** Checking [serial] and [alone]. *)
Definition counts (close : bool) (l l' : nat) (k : kind) : bool := (l' =? l) && (close || bool_decide (k <> KClose)).
Definition returned (i l : nat) (k : kind) (e : cev) : bool :=
  match e with EvRet i' l' k' _ => (i' =? i) && (l' =? l) && bool_decide (k' = k) | _ => false end.
Fixpoint one_by_one (close : bool) (l : nat) (pre evs : list cev) : bool :=
  match evs with
  | [] => true
  | e :: q =>
      match e with
      | EvCall _ l' k => negb (counts close l l' k) ||
          forallb (fun x => match x with EvCall i' l'' k' => negb (counts close l l'' k') || existsb (returned i' l k') pre | _ => true end) pre
      | _ => true
      end && one_by_one close l (pre ++ [e]) q
  end.

Lemma one_by_one_sound close l evs : forall pre, one_by_one close l pre evs = true -> forall a i k b, evs = a ++ EvCall i l k :: b -> (close = true \/ k <> KClose) ->
  forall i' k', EvCall i' l k' ∈ pre ++ a -> (close = true \/ k' <> KClose) -> exists r, EvRet i' l k' r ∈ pre ++ a.
Proof.
  assert (Hc : forall l k, close = true \/ k <> KClose -> counts close l l k = true).
  { intros l0 k H. unfold counts. rewrite Nat.eqb_refl. destruct H as [->|H]; [done|]. rewrite bool_decide_eq_true_2 by done. by destruct close. }
  induction evs as [|e evs IH]; intros pre H a i k b E Hk i' k' Hin Hk'; [by destruct a|].
  cbn in H. apply andb_true_iff in H as [H1 H2]. destruct a as [|x a].
  - injection E as -> ->. rewrite app_nil_r in *. rewrite (Hc _ _ Hk) in H1. cbn in H1. rewrite forallb_forall in H1.
    apply elem_of_list_In in Hin. specialize (H1 _ Hin). cbn in H1. rewrite (Hc _ _ Hk') in H1. cbn in H1. apply existsb_exists in H1 as (y & Hy & Hr).
    destruct y; try done. cbn in Hr. apply andb_true_iff in Hr as [Hr Hr3]. apply andb_true_iff in Hr as [Hr1 Hr2]. apply Nat.eqb_eq in Hr1 as ->. apply Nat.eqb_eq in Hr2 as ->.
    apply bool_decide_eq_true in Hr3 as ->. exists r. by apply elem_of_list_In.
  - injection E as -> ->. rewrite (cons_middle x pre a), app_assoc in *. by eapply (IH _ H2 a i k b).
Qed.
Lemma serial_b l evs : one_by_one false l [] evs = true -> serial l evs.
Proof. intros H a i k b E Hk i' k' Hin Hk'. eapply (one_by_one_sound _ _ _ _ H a i k b E); eauto. Qed.
Lemma alone_b l evs : one_by_one true l [] evs = true -> alone l evs.
Proof. intros H a i k b E i' k' Hin. eapply (one_by_one_sound _ _ _ _ H a i k b E); eauto. Qed.

(** A session, the next one after a failure. *)
Definition ex_up (sid : nat) : list clabel := [LDial (Dialed sid); LPublish; LTear].
Definition ex_again : list clabel := [LTakeErr; LBackoff true; LNotified; LPauseEnd].
Definition ex_stop : list clabel := [LCCancel Canceled; LLoopCtx; LBackoff true; LAfter; LFinalTear].
(** Steps of a call. *)
Definition ex_steps (i n : nat) : list clabel := repeat (LStep i) n.

(** One goroutine: the first Send fails on session 11, the second, on session 22,
    succeeds; the third reuses the sender and fails; the fourth is on session 33. *)
Definition ex_serial : list clabel :=
  LStart :: ex_up 11 ++ [LLink; LOp 0 KSend] ++ ex_steps 0 2 ++ [LNet 0 NOk; LNet 0 (NErr None)] ++ ex_steps 0 3 ++
  [LOp 0 KSend] ++ ex_steps 1 2 ++ ex_again ++ ex_up 22 ++ ex_steps 1 4 ++ [LNet 1 NOk; LNet 1 NOk; LTakeOk] ++
  [LOp 0 KSend] ++ ex_steps 2 2 ++ [LNet 2 (NErr None)] ++ ex_steps 2 3 ++ ex_again ++ ex_up 33 ++
  [LOp 0 KSend] ++ ex_steps 3 4 ++ [LNet 3 NOk; LNet 3 NOk].

Lemma ex_serial_ok : runs ex_serial = true /\ one_by_one true 0 [] (events ex_serial) = true /\ reports 0 (events ex_serial) = [1; 2] /\
  uses 0 (events ex_serial) = [1; 1; 2; 2; 2; 3; 3] /\ ests (events ex_serial) = [(1, 11); (2, 22); (3, 33)] /\ tears (events ex_serial) = [11; 22].
Proof. vm_compute. done. Qed.

(** Two goroutines: both use session 11.  The first fails, a third call of the
    link gets session 22, then the second call's failure on session 11 arrives. *)
Definition ex_late_error : list clabel :=
  LStart :: ex_up 11 ++ [LLink; LOp 0 KSend; LOp 0 KSend] ++ ex_steps 0 2 ++ [LNet 0 NOk] ++ ex_steps 1 2 ++
  [LNet 0 (NErr None)] ++ ex_steps 0 3 ++ ex_again ++ ex_up 22 ++ [LOp 0 KSend] ++ ex_steps 2 3 ++
  [LNet 1 (NErr None)] ++ ex_steps 1 2 ++ [LTakeErr].
Definition net_errs (evs : list cev) : list nat := omap (fun e => match e with EvNetErr _ _ g => Some g | _ => None end) evs.
Definition ends (evs : list cev) : list (nat * option nat) := omap (fun e => match e with EvEnd g r => Some (g, r) | _ => None end) evs.
Lemma elem_of_ends evs g r : (g, r) ∈ ends evs -> EvEnd g r ∈ evs.
Proof. intros (e & He & Hx)%elem_of_list_omap. by destruct e; simplify_eq. Qed.
Lemma elem_of_net_errs evs i l g : EvNetErr i l g ∈ evs -> g ∈ net_errs evs.
Proof. intros H. apply elem_of_list_omap. by exists (EvNetErr i l g). Qed.
Lemma ex_late_error_ok : runs ex_late_error = true /\ net_errs (events ex_late_error) = [1; 1] /\ ends (events ex_late_error) = [(1, Some 1); (2, Some 2)].
Proof. vm_compute. done. Qed.

(** Two goroutines: the first waits with session 11 in hand while the second
    fails with it and a third call uses session 22; then it goes back to 11. *)
Definition ex_back : list clabel :=
  [LStart; LLink; LOp 0 KSend; LOp 0 KSend] ++ ex_up 11 ++ ex_steps 0 2 ++ ex_steps 1 4 ++ [LNet 1 NOk; LNet 1 (NErr None)] ++ ex_steps 1 3 ++ ex_again ++ ex_up 22 ++
  [LOp 0 KSend] ++ ex_steps 2 4 ++ [LNet 2 NOk] ++ ex_steps 0 2.
Lemma ex_back_ok : runs ex_back = true /\ uses 0 (events ex_back) = [1; 1; 2; 2; 1] /\ tears (events ex_back) = [11].
Proof. vm_compute. done. Qed.

(** Two goroutines fail on the same session. *)
Definition ex_twice : list clabel :=
  LStart :: ex_up 11 ++ [LLink; LOp 0 KSend; LOp 0 KSend] ++ ex_steps 0 2 ++ [LNet 0 NOk] ++ ex_steps 1 2 ++
  [LNet 0 (NErr None); LNet 1 (NErr None)] ++ ex_steps 0 2 ++ ex_steps 1 2.
Lemma ex_twice_ok : runs ex_twice = true /\ reports 0 (events ex_twice) = [1; 1].
Proof. vm_compute. done. Qed.

(** Send and Next on a closed link. *)
Definition ex_closed (k : kind) : list clabel := LStart :: ex_up 11 ++ [LLink; LOp 0 KClose; LStep 0; LOp 0 k].
Lemma ex_closed_ok k : events (ex_closed k) = [EvConn 11; EvEst 1 11; EvLink 0; EvCall 0 0 KClose; EvRet 0 0 KClose ROk; EvCall 1 0 k] /\ runs (ex_closed k) = true.
Proof. by vm_compute. Qed.
Lemma ex_closed_late k : late 1 (events (ex_closed k)).
Proof.
  exists [EvConn 11; EvEst 1 11; EvLink 0; EvCall 0 0 KClose; EvRet 0 0 KClose ROk], 0, k, [], 0, ROk. split; [by rewrite (proj1 (ex_closed_ok k))|].
  do 4 right. left.
Qed.
(** However often Next looks again, it finds the same state. *)
Lemma ex_next_loops n : exists s, srun c_init (ex_closed KNext) = Some (s, events (ex_closed KNext)) /\ srun s (concat (repeat [LStep 1; LStep 1] n)) = Some (s, []).
Proof.
  assert (H : exists s, srun c_init (ex_closed KNext) = Some (s, events (ex_closed KNext)) /\ srun s [LStep 1; LStep 1] = Some (s, [])).
  { eexists. split; [vm_compute; reflexivity|]. vm_compute. reflexivity. }
  destruct H as (s & H1 & H2). exists s. split; [exact H1|]. clear H1. induction n as [|n IH]; [done|]. cbn [repeat concat]. rewrite run_app, H2, IH. done.
Qed.

(** Close between the session check and the use of the session. *)
Definition ex_nil : list clabel := LStart :: ex_up 11 ++ [LLink; LOp 0 KSend; LStep 0; LOp 0 KClose; LStep 1; LStep 0].
Lemma ex_nil_ok : runs ex_nil = true /\ events ex_nil = [EvConn 11; EvEst 1 11; EvLink 0; EvCall 0 0 KSend; EvCall 1 0 KClose; EvRet 1 0 KClose ROk; EvPanic 0 0].
Proof. vm_compute. done. Qed.

(** A call that waits while the link is closed goes on and uses it. *)
Definition ex_revived : list clabel :=
  [LStart; LLink; LOp 0 KSend] ++ ex_steps 0 2 ++ [LOp 0 KClose; LStep 1] ++ ex_up 11 ++ ex_steps 0 4 ++ [LNet 0 NOk; LNet 0 NOk].
Lemma ex_revived_ok : runs ex_revived = true /\ serial 0 (events ex_revived) /\
  exists b, events ex_revived = [EvLink 0; EvCall 0 0 KSend; EvCall 1 0 KClose] ++ EvRet 1 0 KClose ROk :: b /\ EvUse 0 0 11 1 ∈ b /\ EvRet 0 0 KSend ROk ∈ b.
Proof.
  split; [by vm_compute|]. split; [apply serial_b; by vm_compute|]. eexists. split; [vm_compute; reflexivity|]. split; [do 3 right; left|do 4 right; left].
Qed.

(** 33 calls fail when the container has stopped. *)
Definition ex_full : list clabel :=
  LStart :: ex_up 11 ++ [LLink] ++ repeat (LOp 0 KSend) 33 ++ ex_steps 0 2 ++ [LNet 0 NOk] ++ concat ((fun i => ex_steps i 2) <$> seq 1 32) ++ ex_stop ++
  concat ((fun i => [LNet i (NErr None); LStep i; LStep i]) <$> seq 0 32) ++ [LNet 32 (NErr None); LStep 32; LCtx 32 Canceled].
Definition is_stopped (e : cev) : bool := match e with EvStopped => true | _ => false end.
Definition at_report (i : nat) (s : cstate) : bool :=
  match c_ops s !! i with Some (Op _ KSend (Some Canceled) (PReport 1 EOther)) => true | _ => false end.
Lemma at_report_op i s : at_report i s = true -> exists o, c_ops s !! i = Some o /\ o_pc o = PReport 1 EOther.
Proof.
  unfold at_report. intros H. destruct (c_ops s !! i) as [[j k c p]|]; [|done]. destruct k; try done. destruct c as [[]|]; try done.
  destruct p as [| | | | | | | |g e| | |]; try done. destruct g as [|[|]]; try done. destruct e; try done. by eexists.
Qed.
Lemma ex_full_ok : match srun c_init ex_full with Some (s, evs) => existsb is_stopped evs && at_report 32 s && (errs_cap <=? length (c_errs s)) | None => false end = true.
Proof. vm_compute. done. Qed.

(** A call waits, then a session comes. *)
Definition ex_wait : list clabel := [LStart; LLink; LOp 0 KNext] ++ ex_steps 0 2 ++ ex_up 11.
Definition waits (i : nat) (s : cstate) : bool := match c_ops s !! i with Some (Op 0 KNext None (PWait 0 0)) => negb (c_panic s) && negb (c_lock s) | _ => false end.
Lemma waits_op i s : waits i s = true -> exists o, c_panic s = false /\ c_lock s = false /\ c_ops s !! i = Some o /\ o_pc o = PWait 0 0.
Proof.
  unfold waits. intros H. destruct (c_ops s !! i) as [[j k c p]|]; [|done]. destruct j; [|done]. destruct k; try done. destruct c as [[]|]; try done.
  destruct p as [| |g n| | | | | | | | |]; try done. destruct g, n; try done. apply andb_true_iff in H as [H1 H2]. eexists. split; [by destruct (c_panic s)|]. split; [by destruct (c_lock s)|]. done.
Qed.
Lemma ex_wait_ok : match srun c_init ex_wait with Some (s, evs) => waits 0 s && (latest evs =? 1) | None => false end = true.
Proof. vm_compute. done. Qed.

(** Without a session a connection stays open; then all is well, then it stops. *)
Definition ex_leak : list clabel := LStart :: [LDial (SessErr 10); LBackoff true; LNotified; LPauseEnd] ++ ex_up 11 ++ ex_stop.
Lemma ex_leak_ok : runs ex_leak = true /\ conns (events ex_leak) = [10; 11] /\ tears (events ex_leak) = [11] /\ sess_errs (events ex_leak) = [10] /\ EvStopped ∈ events ex_leak.
Proof. split_and!; try (by vm_compute). vm_compute. do 8 right. left. Qed.

(** A handler that calls the container. *)
Definition ex_handler' : list clabel := [LStart; LLink; LDial DialErr; LBackoff true] ++ LHandlerCalls :: [LOp 0 KSend; LStep 0; LCCancel Canceled].
Lemma ex_handler_ok : runs ex_handler' = true /\ events ex_handler' = [EvLink 0; EvNotify; EvCall 0 0 KSend; EvCancel].
Proof. vm_compute. done. Qed.
