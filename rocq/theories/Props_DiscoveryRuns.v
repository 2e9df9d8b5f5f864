(** C122: Discovery.Run called more than once. *)
From Coq Require Import ZArith NArith Ascii String Lia.
From stdpp Require Import base gmap strings list sorting.
From Verif Require Import GoBase Encoding Records Messages Run Keepalive Discovery DiscoveryFacts DiscoveryLive DiscoveryProgress DiscoveryRuns DiscoveryRunsFacts.

Local Open Scope list_scope.

(** Steps under one number are the steps of Discovery.v: what is proved there
    holds of a Discovery whose Run is called once. *)
Theorem C122_single now ls :
  match run dstep (d_init now) ls with
  | Some (d, evs) => exists s, mrun (m_init now) (pair 0 <$> ls) = Some (s, pair 0 <$> evs) /\ focus s 0 = d
  | None => mrun (m_init now) (pair 0 <$> ls) = None
  end.
Proof. exact (one_run now ls). Qed.

(** Whatever calls of Run there are, what is known is what the whole history says,
    and the notifications of a kind are handed out in the order they arose, each to
    one handler of one call. *)
Theorem C122_history now ls s evs : mrun (m_init now) ls = Some (s, evs) ->
  (forall id, ds_info <$> d_map (ms_core s) !! id = known (whole evs) id) /\
  (forall a r c o res b, evs = a ++ (r, DOp c o res) :: b -> answers (whole a) o res) /\
  (forall k, delivered k (whole evs) ++ waiting k (ms_core s) = issued k (whole evs)) /\
  (forall id, count_id id (issued Disc (whole evs)) = count_id id (issued Forg (whole evs)) + match known (whole evs) id with Some _ => 1 | None => 0 end).
Proof.
  intros Hr. destruct (m_run _ _ _ _ Hr) as ((_ & Hm & Ha & Hi) & _). split; [done|]. split; [|split; [done|intros id; apply balance]].
  intros a r c o res b ->. apply (Ha (whole a) c o res (whole b)). by rewrite whole_app.
Qed.

(** A source that is known and is not forgotten is not announced again, however
    often Run is called: of it the handlers hear what was waiting, no more. *)
Theorem C122_told now ls1 ls2 s1 evs1 s2 evs2 id :
  mrun (m_init now) ls1 = Some (s1, evs1) -> mrun s1 ls2 = Some (s2, evs2) -> known (whole evs1) id <> None ->
  (forall r c res, (r, DOp c (OForget id) res) ∉ evs2) ->
  count_id id (delivered Disc (whole evs2)) + count_id id (waiting Disc (ms_core s2)) = count_id id (waiting Disc (ms_core s1)) /\
  (count_id id (waiting Disc (ms_core s1)) = 0 -> forall r x, (r, DHandle Disc x) ∈ evs2 -> i_id (ds_info x) <> id).
Proof.
  intros H1 H2 Hk Hn. assert (Forall (fun e => ~ forgets id e) (whole evs2)) as HF.
  { apply Forall_forall. intros e Hin Hf. apply elem_of_list_fmap in Hin as ([r e'] & -> & Hin). cbn [snd] in Hf.
    destruct e' as [c o res| | | | | | | | | | | | | |]; try done. destruct o; try done. cbn in Hf. subst id0. by apply (Hn r c res). }
  pose proof (told_at_most _ _ _ _ _ _ _ id H1 H2 Hk HF) as E. split; [done|]. intros E0 r x Hin Hid.
  pose proof (count_in id _ _ (in_delivered _ _ _ _ Hin) Hid). lia.
Qed.

(** A call of Run not made before can be made, and its handler goroutine can then
    free a blocked call and hand everything that was waiting to its own handlers,
    whatever became of the earlier ones. *)
Theorem C122_revives now ls s evs r : mrun (m_init now) ls = Some (s, evs) -> d_crashed (ms_core s) = false -> (forall lb, (r, lb) ∉ ls) ->
  exists ls' s' evs', Forall (fun l => l = (r, LHandlerRet) \/ (exists k, l = (r, LTake k)) \/ snd l = LUnblock) ls' /\
    mrun s ((r, LRun) :: ls') = Some (s', evs') /\ d_held (ms_core s') = None /\
    (forall k, delivered k (whole (evs ++ evs')) = issued k (whole (evs ++ evs'))) /\
    (forall q k x, (q, DHandle k x) ∈ evs' -> q = r).
Proof.
  intros Hr Hc Hn. destruct (start_run s r Hc (ctl_unused _ _ _ _ _ Hr Hn)) as (s1 & Hs & _ & Hc1 & Hw).
  assert (mrun (m_init now) (ls ++ [(r, LRun)]) = Some (s1, evs ++ [])) as Hr1 by (unfold mrun in *; rewrite run_app, Hr; cbn [run]; by rewrite Hs).
  destruct (progress_runs _ _ _ _ r Hr1 Hc1 Hw) as (ls' & s' & evs' & HF & Hr' & Hh & Hd & Hev). exists ls', s', evs'. split; [exact HF|].
  split; [unfold mrun in *; cbn [run]; by rewrite Hs, Hr'|]. split; [done|]. split; [|done]. intros k. specialize (Hd k). by rewrite app_nil_r in Hd.
Qed.

(** While none is made and no handler goroutine is free, nothing returns and
    nothing is handed out. *)
Theorem C122_stuck s ls s' evs : all_stuck s -> (forall r, (r, LRun) ∉ ls) -> mrun s ls = Some (s', evs) ->
  d_map (ms_core s') = d_map (ms_core s) /\ d_held (ms_core s') = d_held (ms_core s) /\
  forall r e, (r, e) ∈ evs -> match e with DOp _ _ _ | DRet _ | DHandle _ _ => False | _ => True end.
Proof.
  intros Hd Hn Hr. destruct (stuck_forever _ _ _ _ Hd Hn Hr) as (_ & [E1 _ _ E4] & HF). split; [done|]. split; [done|].
  intros r e Hin. apply (proj1 (Forall_forall _ _) HF e). apply elem_of_list_fmap. by exists (r, e).
Qed.

(** The handlers of a call whose goroutine has seen the end of the context are
    not called any more. *)
Theorem C122_ended now ls1 ls2 r s evs1 s' evs2 : mrun (m_init now) (ls1 ++ [(r, LHandlerEnd)]) = Some (s, evs1) -> mrun s ls2 = Some (s', evs2) ->
  forall k x, (r, DHandle k x) ∉ evs2.
Proof. exact (ended_never now ls1 ls2 r s evs1 s' evs2). Qed.

(** ** Cases *)

Definition src (id : string) : dsource := DSource (Info id 1 "CONTROLLER" "a" "d") 0.
Definition ex_bcn (id : string) : amqp_msg := encode_beacon (Beacon (MsgProps "" "" "") 1 "CONTROLLER" "a" "d" id).

Definition glimpse (p : nat * dev) : option (nat * string * string) :=
  match p with
  | (r, DOp _ (OAdd x) _) => Some (r, "add", i_id (ds_info x))
  | (r, DOp _ (OObserve b) _) => Some (r, "observe", bc_identity b)
  | (r, DHandle Disc x) => Some (r, "discovered", i_id (ds_info x))
  | (r, DHandle Forg x) => Some (r, "forgotten", i_id (ds_info x))
  | (r, DRunRet) => Some (r, "end", "")
  | _ => None
  end%string.
Definition glimpses (ls : list (nat * dlabel)) : option (list (nat * string * string)) :=
  match mrun (m_init 0) ls with Some (_, evs) => Some (omap glimpse evs) | None => None end.

Definition ex_beacon (r : nat) (id : string) : list (nat * dlabel) := [(r, LRunMsg (ex_bcn id)); (r, LObserve)].

(** The first call told its handlers of "a" and ended.  The second sees a beacon of
    "a", and tells its handlers of "b" only. *)
Definition ex_again : list (nat * dlabel) :=
  [(1, LRun)] ++ ex_beacon 1 "a" ++ [(1, LTake Disc); (1, LHandlerRet); (1, LRunErr); (1, LHandlerEnd); (2, LRun)] ++
  ex_beacon 2 "a" ++ ex_beacon 2 "b" ++ [(2, LTake Disc)].
Example C122_example : glimpses ex_again =
  Some [(1, "observe", "a"); (1, "discovered", "a"); (1, "end", ""); (2, "observe", "a"); (2, "observe", "b"); (2, "discovered", "b")]%string.
Proof. vm_compute. reflexivity. Qed.

(** Two calls at once: each beacon is received by both, and one of the two is
    told.  Which one is a matter of the schedule. *)
Definition ex_both (k : nat) : list (nat * dlabel) :=
  [(1, LRun); (2, LRun)] ++ ex_beacon 1 "a" ++ ex_beacon 2 "a" ++ [(k, LTake Disc)].
Example C122_both :
  glimpses (ex_both 1) = Some [(1, "observe", "a"); (2, "observe", "a"); (1, "discovered", "a")]%string /\
  glimpses (ex_both 2) = Some [(1, "observe", "a"); (2, "observe", "a"); (2, "discovered", "a")]%string /\
  mrun (m_init 0) (ex_both 1 ++ [(2, LTake Disc)]) = None.
Proof. split; [|split]; vm_compute; reflexivity. Qed.

(** False of the code: that after Run has returned its handlers are not called.
    Its goroutine may choose the channel once more, and take what belongs to a
    later call. *)
Theorem C122_late_refuted : exists ls1 ls2 s1 evs1 s2 evs2 x, mrun (m_init 0) ls1 = Some (s1, evs1) /\ (1, DRunRet) ∈ evs1 /\
  mrun s1 ls2 = Some (s2, evs2) /\ (2, LRun) ∈ ls2 /\ (2, DRet ByRun) ∈ evs2 /\ (1, DHandle Disc x) ∈ evs2.
Proof.
  set (l1 := [(1, LRun); (1, LRunErr)]). set (l2 := [(2, LRun)] ++ ex_beacon 2 "a" ++ [(1, LTake Disc)]).
  destruct (mrun (m_init 0) l1) as [[s1 e1]|] eqn:E1; [|vm_compute in E1; discriminate].
  exists l1, l2, s1, e1. vm_compute in E1. injection E1 as <- <-.
  eexists _, _, _. split; [vm_compute; reflexivity|]. split; [left|]. split; [vm_compute; reflexivity|].
  split; [left|]. split; [right; left|right; right; left].
Qed.

(** The state that C57 calls deadlocked after the end of Run: 33 sources were
    added.  It is stuck, and a second call delivers all of them. *)
Definition nth_src (i : nat) : dsource := src (String (ascii_of_nat (40 + i)) "").
Definition ex_late : list (nat * dlabel) :=
  [(1, LRun); (1, LDCancel); (1, LHandlerEnd)] ++ ((fun i => (0, LUser (OAdd (nth_src i)))) <$> seq 0 33).
Theorem C122_stuck_example : exists s evs, mrun (m_init 0) ex_late = Some (s, evs) /\ d_crashed (ms_core s) = false /\ (forall lb, (2, lb) ∉ ex_late) /\
  all_stuck s /\ length (issued Disc (whole evs)) = 33 /\ delivered Disc (whole evs) = [].
Proof.
  assert (match mrun (m_init 0) ex_late with
    | Some (s, evs) => match d_held (ms_core s) with Some (_, k, _) => negb (roomy (ms_core s) k) | None => false end && negb (d_crashed (ms_core s)) &&
        bool_decide ((fun p => match rc_hand (snd p) with HSelect | HRunning _ _ => 1 | _ => 0 end) <$> map_to_list (ms_runs s) = [0; 0]) &&
        (length (issued Disc (whole evs)) =? 33) && (length (delivered Disc (whole evs)) =? 0)
    | None => false end = true) as H by (vm_compute; reflexivity).
  destruct (mrun (m_init 0) ex_late) as [[s evs]|] eqn:E; [|done]. exists s, evs. split; [done|]. clear E.
  apply andb_true_iff in H as [H H5]. apply andb_true_iff in H as [H H4]. apply andb_true_iff in H as [H H3]. apply andb_true_iff in H as [H1 H2].
  split; [by destruct (d_crashed _)|]. split.
  - intros lb Hin. apply (elem_of_list_fmap_1 fst) in Hin. revert Hin. assert (Forall (fun n => n <> 2) (fst <$> ex_late)) as HF by (vm_compute; repeat constructor; done).
    intros Hin. by apply (proj1 (Forall_forall _ _) HF) in Hin.
  - split; [|split; [by apply Nat.eqb_eq|apply Nat.eqb_eq in H5; by apply length_zero_iff_nil]]. split.
    + destruct (d_held (ms_core s)) as [[[c k] x]|]; [|done]. exists c, k, x. split; [done|]. by destruct (roomy _ _).
    + intros r. unfold ctl_at. destruct (ms_runs s !! r) as [c|] eqn:Er; [|done]. cbn. apply bool_decide_eq_true in H3.
      assert ((match rc_hand c with HSelect | HRunning _ _ => 1 | _ => 0 end) ∈ [0; 0]) as Hin.
      { rewrite <- H3. apply elem_of_list_fmap. exists (r, c). split; [done|]. by apply elem_of_map_to_list. }
      repeat (apply elem_of_cons in Hin as [Hin|Hin]; [by destruct (rc_hand c)|]). by apply elem_of_nil in Hin.
Qed.

Print Assumptions C122_single.
Print Assumptions C122_history.
Print Assumptions C122_told.
Print Assumptions C122_revives.
Print Assumptions C122_stuck.
Print Assumptions C122_ended.
Print Assumptions C122_late_refuted.
Print Assumptions C122_stuck_example.
