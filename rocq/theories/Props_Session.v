(** Sessions and links: C61-C67, C75-C78.  The vocabulary is in SessionFacts.v
    (serial, alone, ests, tears, conns, reports, uses) and at the top of
    SessionCont.v (latest, reason). *)
From Coq Require Import ZArith NArith Ascii String Lia Sorted.
From stdpp Require Import base gmap strings list sorting.
From Verif Require Import GoBase Run Session SessionFacts SessionCont SessionLink SessionSerial SessionEnd SessionAlone SessionExamples.

Local Open Scope list_scope.

(** ** C61 *)
Theorem C61_generations ls s evs : srun c_init ls = Some (s, evs) -> fst <$> ests evs = seq 1 (length (ests evs)).
Proof. exact (generations_count ls s evs). Qed.
Theorem C61_ended_for_its_own_report ls s evs a g r b : srun c_init ls = Some (s, evs) -> evs = a ++ EvEnd g r :: b ->
  g = length (ests a) /\ match r with Some h => h = g /\ exists i l, EvReport i l g ∈ a | None => EvCancel ∈ a end.
Proof. intros Hr E. destruct (lawful_container _ _ _ _ _ _ Hr E) as (_ & H). exact H. Qed.
Theorem C61_older_reports_ignored ls s evs a g h b : srun c_init ls = Some (s, evs) -> evs = a ++ EvIgnored g h :: b ->
  g = length (ests a) /\ h < g /\ exists i l, EvReport i l h ∈ a.
Proof. intros Hr E. exact (lawful_container _ _ _ _ _ _ Hr E). Qed.
Theorem C61_closed_after_its_end ls s evs a sid b : srun c_init ls = Some (s, evs) -> evs = a ++ EvTear sid :: b ->
  exists g r c d, EvEst g sid ∈ a /\ a = c ++ EvEnd g r :: d /\ reason c g r.
Proof. exact (torn_reason ls s evs a sid b). Qed.
(** A new session only after the last one ended. *)
Theorem C61_new_after_end ls s evs a g sid b : srun c_init ls = Some (s, evs) -> evs = a ++ EvEst g sid :: b ->
  g = S (length (ests a)) /\ (1 < g -> exists r, EvEnd (g - 1) r ∈ a).
Proof. intros Hr E. exact (lawful_container _ _ _ _ _ _ Hr E). Qed.
(** With links used by one goroutine each, a session ends only for a network
    error that happened on that session. *)
Theorem C61_ended_for_its_own_error ls s evs a g h b : srun c_init ls = Some (s, evs) -> (forall l, serial l evs) -> evs = a ++ EvEnd g (Some h) :: b ->
  exists i l, EvNetErr i l g ∈ a.
Proof.
  intros Hr Hs E. destruct (lawful_container _ _ _ _ _ _ Hr E) as (_ & _ & _ & i & l & Hin). apply elem_of_list_split in Hin as (c & d & ->).
  rewrite <-app_assoc in E. destruct (forward_link l _ _ _ _ _ _ Hr (Hs l) E eq_refl) as [_ Hin]. exists i, l. apply elem_of_app. by left.
Qed.
(** With two goroutines on a link, an error of the old session ends the new one. *)
Theorem C61_refuted : exists ls s evs, srun c_init ls = Some (s, evs) /\ EvEnd 2 (Some 2) ∈ evs /\ forall i l, EvNetErr i l 2 ∉ evs.
Proof.
  destruct ex_late_error_ok as (H1 & H2 & H3). destruct (events_run _ H1) as [s Hr]. exists ex_late_error, s, (events ex_late_error). split; [exact Hr|]. split.
  - apply elem_of_ends. rewrite H3. right. left.
  - clear Hr. intros i l Hin%elem_of_net_errs. rewrite H2 in Hin. rewrite !elem_of_cons, elem_of_nil in Hin. destruct Hin as [Hin|[Hin|[]]]; discriminate Hin.
Qed.
Example C61_example : exists ls s evs, srun c_init ls = Some (s, evs) /\ serial 0 evs /\ ests evs = [(1, 11); (2, 22); (3, 33)] /\ tears evs = [11; 22] /\ ends evs = [(1, Some 1); (2, Some 2)].
Proof.
  destruct ex_serial_ok as (H1 & H2 & _ & _ & H3 & H4). destruct (events_run _ H1) as [s Hr]. exists ex_serial, s, (events ex_serial).
  split; [exact Hr|]. split; [apply serial_b; vm_compute; reflexivity|]. split; [exact H3|]. split; [exact H4|]. vm_compute; reflexivity.
Qed.
Print Assumptions C61_generations.
Print Assumptions C61_ended_for_its_own_report.
Print Assumptions C61_older_reports_ignored.
Print Assumptions C61_closed_after_its_end.
Print Assumptions C61_new_after_end.
Print Assumptions C61_ended_for_its_own_error.
Print Assumptions C61_refuted.

(** ** C62 *)
(** For every schedule: what is used for a generation was made on its session. *)
Theorem C62_on_its_session ls s evs a e b : srun c_init ls = Some (s, evs) -> evs = a ++ e :: b ->
  match e with EvUse _ _ sid g | EvNew _ _ sid g => EvEst g sid ∈ a | _ => True end.
Proof. intros Hr E. exact (on_session_all _ _ _ Hr a e b E). Qed.
(** One goroutine: never an older session, and never one it reported. *)
Theorem C62_forward ls s evs l a e b : srun c_init ls = Some (s, evs) -> serial l evs -> evs = a ++ e :: b ->
  match e with
  | EvUse _ l' _ g | EvNew _ l' _ g => l' = l -> Forall (fun h => h < g) (reports l a) /\ Forall (fun h => h <= g) (uses l a)
  | _ => True
  end.
Proof. intros Hr Hs E. pose proof (forward_link l _ _ _ _ _ _ Hr Hs E) as H. by destruct e. Qed.
Theorem C62_refuted : exists ls s evs, srun c_init ls = Some (s, evs) /\ uses 0 evs = [1; 1; 2; 2; 1] /\ tears evs = [11] /\ ests evs = [(1, 11); (2, 22)].
Proof.
  destruct ex_back_ok as (H1 & H2 & H3). destruct (events_run _ H1) as [s Hr]. exists ex_back, s, (events ex_back). split; [exact Hr|]. split; [exact H2|]. split; [exact H3|]. vm_compute; reflexivity.
Qed.
Example C62_example : exists ls s evs, srun c_init ls = Some (s, evs) /\ serial 0 evs /\ reports 0 evs = [1; 2] /\ uses 0 evs = [1; 1; 2; 2; 2; 3; 3].
Proof.
  destruct ex_serial_ok as (H1 & H2 & H3 & H4 & _ & _). destruct (events_run _ H1) as [s Hr]. exists ex_serial, s, (events ex_serial).
  split; [exact Hr|]. split; [apply serial_b; vm_compute; reflexivity|]. exact (conj H3 H4).
Qed.
Print Assumptions C62_on_its_session.
Print Assumptions C62_forward.
Print Assumptions C62_refuted.

(** ** C63 *)
Theorem C63_once ls s evs l : srun c_init ls = Some (s, evs) -> serial l evs -> StronglySorted lt (reports l evs).
Proof. exact (reports_sorted l ls s evs). Qed.
Theorem C63_for_its_own_error ls s evs l a i g b : srun c_init ls = Some (s, evs) -> serial l evs -> evs = a ++ EvReport i l g :: b -> EvNetErr i l g ∈ a.
Proof. intros Hr Hs E. by destruct (forward_link l _ _ _ _ _ _ Hr Hs E eq_refl). Qed.
(** Two goroutines may report the same session. *)
Theorem C63_refuted : exists ls s evs, srun c_init ls = Some (s, evs) /\ reports 0 evs = [1; 1].
Proof. destruct ex_twice_ok as (H1 & H2). destruct (events_run _ H1) as [s Hr]. exists ex_twice, s, (events ex_twice). exact (conj Hr H2). Qed.
Example C63_example : exists ls s evs, srun c_init ls = Some (s, evs) /\ serial 0 evs /\ reports 0 evs = [1; 2].
Proof.
  destruct ex_serial_ok as (H1 & H2 & H3 & H4 & _ & _). destruct (events_run _ H1) as [s Hr]. exists ex_serial, s, (events ex_serial).
  split; [exact Hr|]. split; [apply serial_b; vm_compute; reflexivity|]. exact H3.
Qed.
Print Assumptions C63_once.
Print Assumptions C63_for_its_own_error.
Print Assumptions C63_refuted.

(** ** C64 *)
(** A call that began after a Close of its link returned never touches the
    network, and if it returns, it returns the closed error. *)
Theorem C64_refused ls s evs a e b : srun c_init ls = Some (s, evs) -> evs = a ++ e :: b ->
  match e with
  | EvUse i _ _ _ | EvNew i _ _ _ | EvReport i _ _ => ~ late i a
  | EvRet i _ k r => late i a -> k <> KClose -> r = RErr EClosed
  | _ => True
  end.
Proof. exact (late_refused ls s evs a e b). Qed.
(** Send and Accept do so in two steps. *)
Theorem C64_fail_fast ls s evs i o l : srun c_init ls = Some (s, evs) -> c_panic s = false -> c_ops s !! i = Some o -> late i evs -> o_pc o = PStart ->
  o_kind o = KSend \/ o_kind o = KAccept -> c_links s !! o_link o = Some l -> l_lock l = false ->
  exists s', srun s [LStep i; LStep i] = Some (s', [EvRet i (o_link o) (o_kind o) (RErr EClosed)]).
Proof. exact (fail_fast ls s evs i o l). Qed.
(** Next does not return while its context is live ... *)
Theorem C64_next_needs_context ls s evs i l r : srun c_init ls = Some (s, evs) -> late i evs -> EvRet i l KNext r ∈ evs -> exists c, LCtx i c ∈ ls.
Proof. exact (next_needs_ctx ls s evs i l r). Qed.
(** ... and looks again as often as it is scheduled. *)
Theorem C64_refuted : exists ls s evs i, srun c_init ls = Some (s, evs) /\ late i evs /\ EvCall i 0 KNext ∈ evs /\
  forall n, srun s (concat (repeat [LStep i; LStep i] n)) = Some (s, []).
Proof.
  destruct (ex_next_loops 0) as (s & H1 & _). exists (ex_closed KNext), s, (events (ex_closed KNext)), 1. split; [exact H1|]. split; [apply ex_closed_late|]. split.
  - rewrite (proj1 (ex_closed_ok KNext)). do 5 right. left.
  - intros n. destruct (ex_next_loops n) as (s' & H2 & H3). rewrite H1 in H2. assert (s' = s) as -> by congruence. exact H3.
Qed.
Example C64_example : exists ls s evs o l, srun c_init ls = Some (s, evs) /\ c_panic s = false /\ c_ops s !! 1 = Some o /\ late 1 evs /\ o_pc o = PStart /\ o_kind o = KSend /\
  c_links s !! o_link o = Some l /\ l_lock l = false.
Proof.
  exists (ex_closed KSend). eexists. exists (events (ex_closed KSend)). do 2 eexists. split; [vm_compute; reflexivity|]. split; [reflexivity|]. split; [reflexivity|].
  split; [apply ex_closed_late|]. split; [reflexivity|]. split; [reflexivity|]. split; reflexivity.
Qed.
Print Assumptions C64_refused.
Print Assumptions C64_fail_fast.
Print Assumptions C64_next_needs_context.
Print Assumptions C64_refuted.

(** ** C65 *)
Theorem C65_refuted : exists ls s evs, srun c_init ls = Some (s, evs) /\ EvPanic 0 0 ∈ evs /\ EvRet 1 0 KClose ROk ∈ evs.
Proof.
  destruct ex_nil_ok as (H1 & H2). destruct (events_run _ H1) as [s Hr]. exists ex_nil, s, (events ex_nil). split; [exact Hr|]. rewrite H2. split; [do 6 right; left|do 5 right; left].
Qed.
(** A call that was waiting goes on after Close returned, and succeeds. *)
Theorem C65_revived_refuted : exists ls s evs a b, srun c_init ls = Some (s, evs) /\ serial 0 evs /\ evs = a ++ EvRet 1 0 KClose ROk :: b /\ EvUse 0 0 11 1 ∈ b /\ EvRet 0 0 KSend ROk ∈ b.
Proof.
  destruct ex_revived_ok as (H1 & H2 & b & H3 & H4 & H5). destruct (events_run _ H1) as [s Hr]. exists ex_revived, s, (events ex_revived), [EvLink 0; EvCall 0 0 KSend; EvCall 1 0 KClose], b. exact (conj Hr (conj H2 (conj H3 (conj H4 H5)))).
Qed.
(** If Close too is not concurrent with other calls of the link: no panic, and no use afterwards. *)
Theorem C65_alone ls s evs l a e b : srun c_init ls = Some (s, evs) -> alone l evs -> evs = a ++ e :: b ->
  match e with
  | EvUse _ l' _ _ | EvNew _ l' _ _ => l' = l -> forall i r, EvRet i l KClose r ∉ a
  | EvPanic _ l' => l' <> l
  | _ => True
  end.
Proof. exact (unused_after_close l ls s evs a e b). Qed.
Example C65_example : exists ls s evs, srun c_init ls = Some (s, evs) /\ alone 0 evs /\ EvRet 0 0 KClose ROk ∈ evs /\ EvCall 1 0 KSend ∈ evs.
Proof.
  destruct (ex_closed_ok KSend) as [H2 H1]. destruct (events_run _ H1) as [s Hr]. exists (ex_closed KSend), s, (events (ex_closed KSend)).
  split; [exact Hr|]. split; [apply alone_b; vm_compute; reflexivity|]. rewrite H2. split; [do 4 right; left|do 5 right; left].
Qed.
Print Assumptions C65_refuted.
Print Assumptions C65_revived_refuted.
Print Assumptions C65_alone.

(** ** C66 *)
(** A credit is used as asked for exactly when it is not positive and fits. *)
Theorem C66_exact c : get_credit c = c <-> (- 2 ^ 31 <= c <= 0)%Z.
Proof.
  unfold get_credit, wrap_i32. destruct (Z.leb_spec c 0) as [H|H]; [|lia]. split.
  - intros E. pose proof (Z.mod_pos_bound (c + 2 ^ 31) (2 ^ 32) ltac:(lia)). lia.
  - intros [H1 H2]. rewrite Z.mod_small by lia. lia.
Qed.
Theorem C66_refuted c : (0 < c)%Z -> get_credit c = 0%Z.
Proof. intros H. unfold get_credit. destruct (Z.leb_spec c 0); [lia|done]. Qed.
Example C66_example : get_credit 256 = 0%Z /\ get_credit (-1) = (-1)%Z.
Proof. done. Qed.
Print Assumptions C66_exact.
Print Assumptions C66_refuted.

(** ** C67 *)
(** The context of call 32 ended, and it never returns. *)
Theorem C67_refuted : exists ls s evs i, srun c_init ls = Some (s, evs) /\ LCtx i Canceled ∈ ls /\
  forall ls' s2 ev, srun s ls' = Some (s2, ev) -> forall l k r, EvRet i l k r ∉ evs ++ ev.
Proof.
  pose proof ex_full_ok as H. destruct (srun c_init ex_full) as [[s evs]|] eqn:Hr; [|discriminate H]. exists ex_full, s, evs, 32. split; [exact Hr|]. split.
  { unfold ex_full. apply elem_of_list_further. do 8 (apply elem_of_app; right). do 2 apply elem_of_list_further. left. }
  apply andb_true_iff in H as [H Hf]. apply andb_true_iff in H as [H1 H2]. apply Nat.leb_le in Hf. apply existsb_exists in H1 as (e & Hin & He). destruct e; try discriminate He.
  apply elem_of_list_In in Hin. apply at_report_op in H2 as (o & Ho & Hp).
  intros ls' s2 ev Hr2 l' k' r Hin2. apply elem_of_app in Hin2 as [Hin2|Hin2]; [|exact (stuck_report _ _ _ _ _ _ _ _ _ _ Hr Hr2 Hin Hf Ho Hp l' k' r Hin2)].
  destruct (ai_ret _ _ (ainv _ _ _ Hr) _ _ _ _ Hin2) as (o2 & Ho2 & _ & _ & Hp2). clear -Ho Hp Ho2 Hp2. congruence.
Qed.
(** Once its context ended, a call takes at most 14 more steps of its own ... *)
Theorem C67_bounded ls s evs ls' s2 ev i o : srun c_init ls = Some (s, evs) -> c_ops s !! i = Some o -> o_ctx o <> None -> srun s ls' = Some (s2, ev) -> steps_of i ls' <= 14.
Proof.
  intros Hr Ho Hc Hr2. destruct (bounded_steps _ _ _ _ _ _ _ _ Hr Hr2 Ho Hc) as (o2 & _ & _ & Hle).
  assert (left_over s (o_pc o) <= 14); [|lia]. unfold left_over. destruct (c_panic s); [lia|]. destruct (o_pc o); cbn; try lia; by destruct (_ =? _); lia.
Qed.
(** ... and until it has returned it can take one, unless another call of the
    link holds the link's lock (opening or closing a receiver or sender), a handler
    runs, or 32 errors are queued. *)
Theorem C67_ends_or_blocked ls s evs i o : srun c_init ls = Some (s, evs) -> c_panic s = false -> c_ops s !! i = Some o -> o_ctx o <> None ->
  is_done o = true \/ (exists lb s' ev, own_b i lb = true /\ sstep s lb = Some (s', ev)) \/
  (exists i' o', i' <> i /\ c_ops s !! i' = Some o' /\ o_link o' = o_link o /\ holds o' = true) \/
  (c_lock s = true /\ exists g, o_pc o = PAwait g) \/
  (length (c_errs s) >= 32 /\ exists g e, o_pc o = PReport g e).
Proof. exact (ends_or_blocked ls s evs i o). Qed.
Definition ex_cancelled : list clabel := [LStart; LLink; LOp 0 KNext] ++ ex_steps 0 2 ++ [LCtx 0 DeadlineExceeded; LWaitCtx 0; LStep 0].
Example C67_example : events ex_cancelled = [EvLink 0; EvCall 0 0 KNext; EvRet 0 0 KNext (RErr (ECtx DeadlineExceeded))].
Proof. by vm_compute. Qed.
Print Assumptions C67_refuted.
Print Assumptions C67_bounded.
Print Assumptions C67_ends_or_blocked.

(** ** C75: what a handler of session errors may do *)
(** Once a handler calls the container (a new link, another handler), the
    container does nothing any more. *)
Theorem C75_stuck ls1 ls2 s evs : srun c_init (ls1 ++ LHandlerCalls :: ls2) = Some (s, evs) ->
  exists s1 ev1 ev2, srun c_init ls1 = Some (s1, ev1) /\ evs = ev1 ++ ev2 /\
    Forall (fun e => match e with EvConn _ | EvEst _ _ | EvTear _ | EvEnd _ _ | EvIgnored _ _ | EvReset _ | EvNotify | EvStopped | EvLink _ => False | _ => True end) ev2.
Proof.
  intros Hr. destruct (handler_deadlock _ _ _ _ Hr) as (s1 & ev1 & ev2 & H1 & H2 & H3). exists s1, ev1, ev2. split; [done|]. split; [done|].
  eapply Forall_impl; [exact H3|]. by intros [] H.
Qed.
(** If none does, links can be created in every state, at once or as soon as the
    handlers that are running have returned. *)
Lemma not_stuck ls s evs : srun c_init ls = Some (s, evs) -> LHandlerCalls ∉ ls -> c_pc s <> CStuck.
Proof.
  revert s evs. induction ls as [|lb ls IH] using rev_ind; intros s evs Hr Hn. { by injection Hr as <- _. }
  apply run_snoc in Hr as (s1 & ev1 & ev2 & H1 & H & ->).
  assert (LHandlerCalls ∉ ls /\ lb <> LHandlerCalls) as [Hn1 Hlb].
  { split; [intros ?; apply Hn, elem_of_app; by left|intros ->; apply Hn, elem_of_app; right; left]. }
  specialize (IH s1 ev1 H1 Hn1). pose proof (kinv _ _ _ H1) as HK.
  assert (HL : linked s1) by apply HK. destruct (sstep_sc _ _ _ _ HL H) as [Hc _].
  destruct Hc as [c ? ? -> ->|? ? -> ->|j k l ? Hlk -> ->|i0 o0 c ? Ho ? -> ->|i0 ? Ho|Hc]; try exact IH.
  - destruct Ho; exact IH.
  - intros Hp. unfold cont_step in Hc. destruct lb; try discriminate Hc; try done; destruct (c_pc s1) eqn:Epc; try discriminate Hc;
      repeat match type of Hc with
        | context [match ?d with DialErr => _ | _ => _ end] => destruct d
        | context [if ?b then _ else _] => destruct b
        | context [match ?x with Some _ => _ | None => _ end = Some _] => destruct x
        | context [match ?x with [] => _ | _ => _ end] => destruct x
        end; try discriminate Hc; injection Hc as <- _; cbn in Hp; try discriminate Hp; congruence.
Qed.
Theorem C75_otherwise ls s evs : srun c_init ls = Some (s, evs) -> LHandlerCalls ∉ ls -> c_panic s = false ->
  exists pre s', pre ∈ [[]; [LNotified]; [LFinalDone]] /\ srun s (pre ++ [LLink]) = Some (s', [EvLink (length (c_links s))]).
Proof.
  intros Hr Hn Hp. pose proof (not_stuck ls s evs Hr Hn) as Hs. pose proof (ki_lock _ _ (kinv _ _ _ Hr)) as Hl.
  destruct (c_lock s) eqn:El.
  - destruct (c_pc s) eqn:Epc; try discriminate Hl; [exists [LNotified]|done|exists [LFinalDone]];
      (eexists; split; [set_solver|]; cbn [app run]; unfold sstep at 1; rewrite Hp; cbn [cont_step]; unfold cont_step; rewrite Epc; unfold sstep; cbn; rewrite Hp; reflexivity).
  - exists []. eexists. split; [set_solver|]. cbn [app run]. unfold sstep. rewrite Hp, El. reflexivity.
Qed.

Example C75_example : exists ls1 ls2 s evs, srun c_init (ls1 ++ LHandlerCalls :: ls2) = Some (s, evs) /\ evs = [EvLink 0; EvNotify; EvCall 0 0 KSend; EvCancel].
Proof.
  destruct ex_handler_ok as (H1 & H2). destruct (events_run _ H1) as [s Hr].
  exists [LStart; LLink; LDial DialErr; LBackoff true], [LOp 0 KSend; LStep 0; LCCancel Canceled], s, (events ex_handler'). split; [exact Hr|exact H2].
Qed.
Example C75_otherwise_example : exists s evs, srun c_init [LStart; LDial DialErr; LBackoff true] = Some (s, evs) /\ LHandlerCalls ∉ [LStart; LDial DialErr; LBackoff true] /\
  c_panic s = false /\ sstep s LLink = None /\ exists s', srun s [LNotified; LLink] = Some (s', [EvLink 0]).
Proof. eexists _, _. split; [reflexivity|]. split; [set_solver|]. split; [done|]. split; [done|]. eexists. reflexivity. Qed.
Print Assumptions C75_stuck.
Print Assumptions C75_otherwise.

(** ** C76: connections are closed *)
Theorem C76_stopped ls s evs : srun c_init ls = Some (s, evs) -> EvStopped ∈ evs ->
  tears evs = snd <$> ests evs /\ length (conns evs) = length (tears evs) + length (sess_errs evs).
Proof. exact (all_closed ls s evs). Qed.
Theorem C76_running ls s evs : srun c_init ls = Some (s, evs) -> exists n, tears evs = take n (snd <$> ests evs) /\ length (ests evs) <= n + 2.
Proof. exact (older_closed ls s evs). Qed.
(** The connection on which no session could be opened stays open. *)
Theorem C76_refuted : exists ls s evs, srun c_init ls = Some (s, evs) /\ EvStopped ∈ evs /\ conns evs = [10; 11] /\ tears evs = [11].
Proof. destruct ex_leak_ok as (H1 & H2 & H3 & H4 & H5). destruct (events_run _ H1) as [s Hr]. exists ex_leak, s, (events ex_leak). exact (conj Hr (conj H5 (conj H2 H3))). Qed.
Example C76_example : exists ls s evs, srun c_init ls = Some (s, evs) /\ EvStopped ∈ evs /\ tears evs = [11] /\ sess_errs evs = [10].
Proof. destruct ex_leak_ok as (H1 & H2 & H3 & H4 & H5). destruct (events_run _ H1) as [s Hr]. exists ex_leak, s, (events ex_leak). exact (conj Hr (conj H5 (conj H3 H4))). Qed.
Print Assumptions C76_stopped.
Print Assumptions C76_running.
Print Assumptions C76_refuted.

(** ** C77: no lost wake-ups *)
Theorem C77_woken ls s evs i o g n : srun c_init ls = Some (s, evs) -> c_panic s = false -> c_lock s = false -> c_ops s !! i = Some o -> o_pc o = PWait g n ->
  latest evs <> g -> exists s' o' sid, srun s [LStep i; LStep i] = Some (s', []) /\ c_ops s' !! i = Some o' /\ o_pc o' = PGot (Some sid) (latest evs) /\
    EvEst (latest evs) sid ∈ evs /\ g < latest evs.
Proof. exact (waiting_wakes ls s evs i o g n). Qed.
Example C77_example : exists ls s evs o, srun c_init ls = Some (s, evs) /\ c_panic s = false /\ c_lock s = false /\ c_ops s !! 0 = Some o /\ o_pc o = PWait 0 0 /\ latest evs = 1.
Proof.
  pose proof ex_wait_ok as H. destruct (srun c_init ex_wait) as [[s evs]|] eqn:Hr; [|discriminate H]. apply andb_true_iff in H as [H Hl]. apply Nat.eqb_eq in Hl.
  apply waits_op in H as (o & H1 & H2 & H3 & H4). exists ex_wait, s, evs, o. exact (conj Hr (conj H1 (conj H2 (conj H3 (conj H4 Hl))))).
Qed.
Print Assumptions C77_woken.

(** ** C78: the pace of reconnecting is reset only by success on the current session *)
Theorem C78_reset ls s evs a g b : srun c_init ls = Some (s, evs) -> evs = a ++ EvReset g :: b ->
  g = length (ests a) /\ exists i l k o, EvUse i l o g ∈ a /\ EvRet i l k ROk ∈ a.
Proof. intros Hr E. exact (lawful_container _ _ _ _ _ _ Hr E). Qed.
Definition resets (evs : list cev) : list nat := omap (fun e => match e with EvReset g => Some g | _ => None end) evs.
Example C78_example : exists ls s evs, srun c_init ls = Some (s, evs) /\ resets evs = [2].
Proof. destruct ex_serial_ok as (H1 & _). destruct (events_run _ H1) as [s Hr]. exists ex_serial, s, (events ex_serial). split; [exact Hr|]. vm_compute; reflexivity. Qed.
Print Assumptions C78_reset.
