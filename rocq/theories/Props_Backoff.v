(** Properties C85 and C86: how containers pace reconnection and when they
    give up.  The vocabulary is at the top of BackoffFacts.v: [clock ls] is the
    time a history takes, [last_reset own i ls t] says that the last start or
    success of a container sharing the strategy of [i] was at [t]. *)
From Coq Require Import ZArith Lia.
From stdpp Require Import base list functions.
From Verif Require Import Run Backoff BackoffFacts.

Local Open Scope Z_scope.
Local Open Scope list_scope.

Definition seconds (n : Z) : Z := n * 1000000000.

(** All containers of a factory share one strategy. *)
Definition shared (i : nat) : nat := 0.
(** Each container has its own. *)
Definition separate (i : nat) : nat := i.

(** ** C85: a container keeps trying to reconnect *)

(** When a container fails it gives up exactly when the time since the last
    success plus the next pause exceeds the limit. *)
Theorem C85_gives_up_iff c own i d ls s evs s' ev :
  run (step c own) (init c) ls = Some (s, evs) -> step c own s (Failure i d) = Some (s', ev) ->
  exists t, last_reset own i ls t /\
    ((s_phase s' i = PGaveUp /\ ev = [GivesUp i] /\ b_limit c <> 0 /\ b_limit c < clock ls - t + d) \/
     (s_phase s' i = PWaiting (clock ls + d) /\ ev = [Delay i d] /\ (b_limit c = 0 \/ clock ls - t + d <= b_limit c))).
Proof. exact (failure_outcome c own i d ls s evs s' ev). Qed.

(** With the package's default strategy it never gives up. *)
Theorem C85_default_never_gives_up own ls s evs :
  run (step default_cfg own) (init default_cfg) ls = Some (s, evs) ->
  (forall i, s_phase s i <> PGaveUp) /\ forall i, GivesUp i ∉ evs.
Proof. exact (no_limit_no_giving_up default_cfg own ls s evs eq_refl). Qed.

(** Pauses stay within bounds. *)
Theorem C85_pauses c own ls s evs i d :
  sane c -> run (step c own) (init c) ls = Some (s, evs) -> Delay i d ∈ evs ->
  0 <= d /\ b_init c <= 2 * d + 2 /\ 2 * d <= 3 * b_max c + 2.
Proof. exact (delay_bounds c own ls s evs i d). Qed.

(** They are kept: the next thing it does is to try again, not before the pause
    is over, and from then on at any time. *)
Theorem C85_waits c own i d a s1 ev1 s2 b s3 ev3 :
  run (step c own) (init c) a = Some (s1, ev1) -> step c own s1 (Failure i d) = Some (s2, [Delay i d]) ->
  run (step c own) s2 b = Some (s3, ev3) -> Forall (fun l => ~ does i l) b ->
  (forall l s4 ev4, step c own s3 l = Some (s4, ev4) -> does i l -> l = Retry i /\ d <= clock b) /\
  (d <= clock b -> exists s4, step c own s3 (Retry i) = Some (s4, []) /\ s_phase s4 i = PTrying).
Proof.
  intros H1 H2 H3 HF. split; [intros l s4 ev4 H4 Hd; exact (first_after c own i d a s1 ev1 s2 b s3 ev3 l s4 ev4 H1 H2 H3 HF H4 Hd)|].
  exact (tries_again c own i d a s1 ev1 s2 b s3 ev3 H1 H2 H3 HF).
Qed.

(** Refuted for the tool: the first failure after a minute without traffic
    makes it give up at once, without a single attempt to reconnect. *)
Theorem C85_refuted_quiet_minute own i d ls s evs t s' ev :
  run (step tool_cfg own) (init tool_cfg) ls = Some (s, evs) ->
  last_reset own i ls t -> seconds 60 < clock ls - t ->
  step tool_cfg own s (Failure i d) = Some (s', ev) -> s_phase s' i = PGaveUp /\ ev = [GivesUp i].
Proof.
  intros Hr Hl Hlong Hs.
  destruct (failure_outcome tool_cfg own i d ls s evs s' ev Hr Hs) as (t' & Hl' & H).
  assert (t' = t) as ->.
  { rewrite <- (start_is_last_reset _ _ _ _ _ _ _ Hr Hl'). exact (start_is_last_reset _ _ _ _ _ _ _ Hr Hl). }
  assert (0 <= d) as Hd.
  { cbn [step] in Hs. destruct (drawn (bo_cur (strategy own s i)) d) eqn:Ed; [|by rewrite andb_false_r in Hs].
    unfold drawn in Ed. apply andb_true_iff in Ed as [_ Ed]. by apply Z.leb_le in Ed. }
  unfold seconds in Hlong. destruct H as [(H1 & H2 & _)|(_ & _ & [H|H])]; [done|discriminate H|].
  exfalso. change (b_limit tool_cfg) with 60000000000 in H. lia.
Qed.

Definition quiet : list label := [Start 0; Connected 0; Success 0; Tick (seconds 61)].

Definition phase_is (p : phase) (i : nat) (r : option (st * list event)) : bool :=
  match r with
  | Some (s, _) => match s_phase s i, p with
                   | PGaveUp, PGaveUp | PUp, PUp | PTrying, PTrying | PNew, PNew => true
                   | PWaiting a, PWaiting b => a =? b
                   | _, _ => false
                   end
  | None => false
  end.

Example C85_example :
  phase_is PUp 0 (run (step tool_cfg shared) (init tool_cfg) quiet) = true /\
  phase_is PGaveUp 0 (run (step tool_cfg shared) (init tool_cfg) (quiet ++ [Failure 0 (seconds 0 + 500000000)])) = true /\
  phase_is (PWaiting (seconds 61 + 250000000)) 0
    (run (step default_cfg separate) (init default_cfg) (quiet ++ [Failure 0 250000000])) = true /\
  last_reset shared 0 quiet 0 /\ seconds 60 < clock quiet - 0 /\ sane tool_cfg /\ sane default_cfg.
Proof.
  split; [vm_compute; reflexivity|]. split; [vm_compute; reflexivity|]. split; [vm_compute; reflexivity|].
  split; [|split; [vm_compute; reflexivity|unfold sane; simpl; lia]].
  exists [Start 0; Connected 0], (Success 0), [Tick (seconds 61)]. split; [reflexivity|]. split; [reflexivity|].
  split; [reflexivity|]. constructor; [intros []|constructor].
Qed.

(** ** C86: containers do not disturb each other *)

(** With strategies of their own they do not: what happens to one is what
    happens when the others do nothing. *)
Theorem C86_own_strategy c own i ls s evs :
  (forall j, own j = own i -> j = i) -> run (step c own) (init c) ls = Some (s, evs) ->
  exists s', run (step c own) (init c) (filter (fun l => concerns i l = true) ls) =
      Some (s', filter (fun e => of_event e = i) evs) /\
    s_now s' = s_now s /\ s_phase s' i = s_phase s i /\ strategy own s' i = strategy own s i.
Proof. exact (own_object c own i ls s evs). Qed.

(** The first failure after a success then only pauses, shortly, as long as
    the limit has not nearly run out. *)
Theorem C86_first_failure c own i d ls s evs t s' ev :
  run (step c own) (init c) ls = Some (s, evs) -> unfailed own i ls t ->
  2 * (clock ls - t) + 3 * b_init c + 2 <= 2 * b_limit c ->
  step c own s (Failure i d) = Some (s', ev) ->
  s_phase s' i = PWaiting (clock ls + d) /\ ev = [Delay i d] /\ 2 * d <= 3 * b_init c + 2.
Proof. exact (first_failure c own i d ls s evs t s' ev). Qed.

(** Refuted for the tool, whose factory gives all containers one strategy.
    Thirteen connected containers, all just successful, lose their connections
    together: the last one gives up at its first failure. *)
Definition storm_setup : list label :=
  flat_map (fun i => [Start i; Connected i; Success i]) (seq 0 13).
Definition storm : list label :=
  storm_setup ++ (Failure 0 250000000 :: Failure 1 375000000 :: Failure 2 562500000 :: Failure 3 (seconds 1) ::
    Failure 4 (seconds 2) :: Failure 5 (seconds 2) :: Failure 6 (seconds 3) :: Failure 7 (seconds 5) ::
    Failure 8 (seconds 8) :: Failure 9 (seconds 12) :: Failure 10 (seconds 18) :: Failure 11 (seconds 25) :: []).

Theorem C86_refuted_storm :
  phase_is PUp 12 (run (step tool_cfg shared) (init tool_cfg) storm) = true /\
  clock storm = 0 /\
  phase_is PGaveUp 12 (run (step tool_cfg shared) (init tool_cfg) (storm ++ [Failure 12 (seconds 61)])) = true /\
  unfailed separate 12 storm 0 /\
  (forall s evs d s' ev, run (step tool_cfg separate) (init tool_cfg) (filter (fun l => concerns 12 l = true) storm) = Some (s, evs) ->
     step tool_cfg separate s (Failure 12 d) = Some (s', ev) -> s_phase s' 12%nat <> PGaveUp).
Proof.
  split; [vm_compute; reflexivity|]. split; [vm_compute; reflexivity|]. split; [vm_compute; reflexivity|]. split.
  { exists (flat_map (fun i => [Start i; Connected i; Success i]) (seq 0 12) ++ [Start 12; Connected 12]), (Success 12),
      (drop (length storm_setup) storm).
    split; [vm_compute; reflexivity|]. split; [vm_compute; reflexivity|]. split; [vm_compute; reflexivity|].
    unfold storm. rewrite drop_app. repeat (constructor; [split; [intros []|discriminate]|]). constructor. }
  intros s evs d s' ev Hr Hs.
  assert (unfailed separate 12 (filter (fun l => concerns 12 l = true) storm) 0) as Hf.
  { exists [Start 12; Connected 12], (Success 12), []. split; [vm_compute; reflexivity|]. split; [reflexivity|].
    split; [reflexivity|constructor]. }
  destruct (first_failure tool_cfg separate 12 d _ s evs 0 s' ev Hr Hf) as (H & _).
  - vm_compute. discriminate.
  - exact Hs.
  - rewrite H. discriminate.
Qed.

(** Nor does the limit count a container's own failures: another container's
    traffic keeps it trying for ever. *)
Definition kept_alive : list label :=
  [Start 0; Start 1; Connected 1; Tick (seconds 50); Success 1; Tick (seconds 50); Success 1].

Theorem C86_refuted_kept_alive :
  phase_is (PWaiting (seconds 100 + 500000000)) 0
    (run (step tool_cfg shared) (init tool_cfg) (kept_alive ++ [Failure 0 500000000])) = true /\
  phase_is PGaveUp 0
    (run (step tool_cfg separate) (init tool_cfg) (kept_alive ++ [Failure 0 500000000])) = true.
Proof. split; vm_compute; reflexivity. Qed.

Example C86_example :
  (forall j, separate j = separate 12 -> j = 12%nat) /\
  phase_is PUp 12 (run (step tool_cfg separate) (init tool_cfg) storm_setup) = true.
Proof. split; [done|vm_compute; reflexivity]. Qed.

Print Assumptions C85_gives_up_iff.
Print Assumptions C85_default_never_gives_up.
Print Assumptions C85_pauses.
Print Assumptions C85_waits.
Print Assumptions C85_refuted_quiet_minute.
Print Assumptions C86_own_strategy.
Print Assumptions C86_first_failure.
Print Assumptions C86_refuted_storm.
Print Assumptions C86_refuted_kept_alive.
