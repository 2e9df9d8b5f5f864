(** The clock of an event source: C127 to C129.  A timed run is
    [tmrun c (tm_init w now) ls = Some (s, evs)]; every event carries its time.
    [waits], [passes] and [keeps_up] are at the top of ServeTimeFacts.v,
    [requests] and [updates] at the top of ServeFlushFacts.v. *)
From Coq Require Import ZArith NArith Ascii String Lia.
From stdpp Require Import base gmap strings list.
From Verif Require Import GoBase Encoding Records Messages SpecMessages MessageFacts Env SyncMap Tokens Cache SpecStore StoreExamples Dispatch Diff ConvergeFacts Run Manager ManagerFacts
  ServeTime ServeTimeFacts ServeFlushFacts.

Local Open Scope list_scope.
Local Open Scope Z_scope.
Local Opaque vanflow_registry builtin_types record_types Encode Decode attrs_of.

(** ** C127: updates are not held back *)

(** The updates published so far are those handed on and those still waiting, in
    this order.  The update messages have the records of the first.  Each of the
    others was published at most the buffer time, and two flush delays, and as many
    more as passes started since, ago: with [P] for each, if the loop and the sender
    never have something to do for longer than [P]. *)
Theorem C127_in_time c P w now ls s evs : 0 <= P -> labels_ok (untimed ls) -> LCancel ∉ untimed ls ->
  tmrun c (tm_init w now) ls = Some (s, evs) -> keeps_up c P None (tm_init w now) ls -> m_crashed (tm_m s) = false ->
  exists dn handed_on waiting, waits evs = handed_on ++ waiting /\ wu_update <$> handed_on = dn.*2 /\
    concat (update_msgs evs.*2) = handed dn /\ Forall (fun x => env_ok x.1) dn /\
    Forall (fun x => tm_now s <= wu_at x + Z.max 0 (tc_buffer c) + (2 + wu_passes x) * (Z.max 0 (tc_delay c) + P)) waiting.
Proof.
  intros HP Hok Hc Hr Hk Hcr. destruct (waiting_bound c P (Z.max 0 (tc_delay c)) False w now ls s evs) as (dn & [h r] & H1 & H2 & H3 & H4 & H5); try done; [lia|left; lia|].
  exists dn, h, r. do 4 (split; [done|]). eapply Forall_impl; [exact H5|]. intros x Hx. cbn in Hx. lia.
Qed.

(** Without flush requests: the buffer time and twice [P]. *)
Theorem C127_no_flushes c P w now ls s evs : 0 <= P -> labels_ok (untimed ls) -> LCancel ∉ untimed ls ->
  tmrun c (tm_init w now) ls = Some (s, evs) -> keeps_up c P None (tm_init w now) ls -> m_crashed (tm_m s) = false -> requests evs = 0 ->
  exists dn handed_on waiting, waits evs = handed_on ++ waiting /\ wu_update <$> handed_on = dn.*2 /\
    concat (update_msgs evs.*2) = handed dn /\ Forall (fun x => env_ok x.1) dn /\
    Forall (fun x => tm_now s <= wu_at x + Z.max 0 (tc_buffer c) + 2 * P) waiting.
Proof.
  intros HP Hok Hc Hr Hk Hcr Hq. destruct (waiting_bound c P 0 True w now ls s evs) as (dn & [h r] & H1 & H2 & H3 & H4 & H5); try done.
  - by right.
  - intros _ ok Hin. pose proof (recv_requests _ _ _ _ _ ok Hr Hin). lia.
  - exists dn, h, r. do 4 (split; [done|]). pose proof (no_passes c w now ls s evs Hc Hr Hcr Hq) as Hp. apply Forall_forall. intros x Hx.
    assert (wu_passes x = 0) as Hz. { assert (x ∈ waits evs) as Hin by (rewrite H1; apply elem_of_app; by right). apply waits_passes in Hin. lia. }
    rewrite Forall_forall in H5. specialize (H5 x Hx). cbn in H5. rewrite Hz in H5. lia.
Qed.

(** As long as flushes are requested, updates may wait: one delay for every pass. *)
Theorem C127_unbounded_refuted n d : 0 < d -> exists ls s evs, tmrun (slow_cfg d) (tm_init ∅ 0) ls = Some (s, evs) /\ keeps_up (slow_cfg d) 0 None (tm_init ∅ 0) ls /\
  LCancel ∉ untimed ls /\ m_crashed (tm_m s) = false /\ waits evs = [Waiting 0 (Z.of_nat n) ex_new] /\ update_msgs evs.*2 = [] /\ tm_now s = Z.of_nat n * d.
Proof. exact (starved n d). Qed.

(** Timed runs are the runs of the manager, with a clock. *)
Theorem C127_same_runs c w now ls m' ev :
  mrun (tc_cfg c) (m_init w) ls = Some (m', ev) <->
  exists tls s evs, untimed tls = ls /\ tmrun c (tm_init w now) tls = Some (s, evs) /\ tm_m s = m' /\ evs.*2 = ev.
Proof.
  split.
  - exact (mrun_tmrun c (tm_init w now) ls m' ev).
  - intros (tls & s & evs & <- & Hr & <- & <-). exact (tmrun_mrun c (tm_init w now) tls s evs Hr).
Qed.

(** Two updates of 0 and 3, a batch of three; it is not filled, and sent at 10. *)
Definition ex_tc : tmcfg := TMCfg [] (fun _ => ex_cf) 10 3 5 1.
Definition ex_new2 : rec_update := RecUpdate None (Some (ex_site "s2")).
Definition ex_buffered : list tmlabel :=
  [TMStep (LPublish ex_new); ex_now ATakeUpdate; TMTime 3; TMStep (LPublish ex_new2); ex_now AMore; TMTime 7; ex_now ATimeout; TMTime 1; ex_now ADo; TMTime 20;
   TMStep (LPublish ex_new); TMTime 1; ex_now ATakeUpdate; TMTime 10].

Example C127_example : labels_ok (untimed ex_buffered) /\ LCancel ∉ untimed ex_buffered /\ keeps_up ex_tc 1 None (tm_init ∅ 0) ex_buffered /\
  exists s evs, tmrun ex_tc (tm_init ∅ 0) ex_buffered = Some (s, evs) /\ m_crashed (tm_m s) = false /\ requests evs = 0 /\
    (11, MQueued true [Some (ex_site "s1"); Some (ex_site "s2")]) ∈ evs /\ waits evs = [Waiting 0 0 ex_new; Waiting 3 0 ex_new2; Waiting 31 0 ex_new] /\ tm_now s = 42.
Proof.
  split.
  { change (labels_ok [LPublish ex_new; LServe (at_time 9) ATakeUpdate; LPublish ex_new2; LServe (at_time 9) AMore; LServe (at_time 9) ATimeout; LServe (at_time 9) ADo;
      LPublish ex_new; LServe (at_time 9) ATakeUpdate]). unfold labels_ok. repeat (apply Forall_cons; split; [first [exact I|apply at_time_ok]|]). apply Forall_nil. exact I. }
  split. { intros H. cbn in H. repeat (apply elem_of_cons in H as [H|H]; [discriminate H|]). by apply elem_of_nil in H. }
  split. { vm_compute. repeat (split; [first [exact I|intros [=]]|]). exact I. }
  exists (TMState (MState [] 0 [[Some (ex_site "s1"); Some (ex_site "s2")]] (SBuffer [ex_new]) true true false false ∅) 42 42),
    [(0, MPublished ex_new); (3, MPublished ex_new2); (11, MQueued true [Some (ex_site "s1"); Some (ex_site "s2")]); (31, MPublished ex_new)].
  split; [reflexivity|]. split; [reflexivity|]. split; [reflexivity|]. split; [|split; reflexivity]. right. right. left.
Qed.

(** ** C128: flush requests are answered in time *)

(** A request that no pass followed yet came at most the flush delay and the buffer
    time ago, and once more for every update published since. *)
Theorem C128_answered c P w now ls s evs a t e d : 0 <= P -> LCancel ∉ untimed ls -> tmrun c (tm_init w now) ls = Some (s, evs) ->
  keeps_up c P None (tm_init w now) ls -> m_crashed (tm_m s) = false -> evs = a ++ (t, e) :: d -> e = MFlushReq \/ e = MFlushFail -> passes d = 0 ->
  tm_now s <= t + Z.max 0 (tc_delay c) + (updates d + 1) * (Z.max 0 (tc_buffer c) + P) + 2 * P.
Proof. intros HP Hl Hr Hk Hc E He Hd. pose proof (answered c P w now ls s evs a t e d HP Hl Hr Hk Hc E He Hd). lia. Qed.

(** So a request may wait as long as updates are published, although the loop is
    never late: with [n] updates, [n] times the buffer time. *)
Theorem C128_unbounded_refuted n b : 0 < b -> exists ls s evs, tmrun (busy_cfg b) (tm_init ∅ 0) ls = Some (s, (0, MFlushReq) :: evs) /\
  keeps_up (busy_cfg b) 0 None (tm_init ∅ 0) ls /\ LCancel ∉ untimed ls /\ m_crashed (tm_m s) = false /\
  passes evs = 0 /\ updates evs = Z.of_nat n /\ tm_now s = Z.of_nat n * b.
Proof. exact (flush_starved n b). Qed.

(** While updates are buffered at 2 a flush is requested; the buffer is sent at 10,
    the pass starts at 15. *)
Definition ex_request : list tmlabel :=
  [TMStep (LPublish ex_new); ex_now ATakeUpdate; TMTime 2; TMStep (LRecv true); TMTime 8; ex_now ATimeout; ex_now ADo; ex_now ATakeFlush; TMTime 5].

Example C128_example : LCancel ∉ untimed ex_request /\ keeps_up ex_tc 0 None (tm_init ∅ 0) (ex_request ++ [ex_now ATimeout]) /\
  exists s evs s' evs', tmrun ex_tc (tm_init ∅ 0) ex_request = Some (s, evs) /\ m_crashed (tm_m s) = false /\
    evs = [(0, MPublished ex_new)] ++ (2, MFlushReq) :: [(10, MQueued true [Some (ex_site "s1")])] /\ tm_now s = 15 /\
    tmrun ex_tc (tm_init ∅ 0) (ex_request ++ [ex_now ATimeout]) = Some (s', evs') /\ evs' = evs ++ [(15, MPassStart)].
Proof.
  split. { intros H. cbn in H. repeat (apply elem_of_cons in H as [H|H]; [discriminate H|]). by apply elem_of_nil in H. }
  split. { vm_compute. repeat (split; [first [exact I|intros [=]]|]). exact I. }
  exists (TMState (MState [] 0 [[Some (ex_site "s1")]] (SDrain 0) true true false false ∅) 15 15), [(0, MPublished ex_new); (2, MFlushReq); (10, MQueued true [Some (ex_site "s1")])],
    (TMState (MState [] 0 [[Some (ex_site "s1")]] (SPass [] "") true true false false ∅) 15 15),
    [(0, MPublished ex_new); (2, MFlushReq); (10, MQueued true [Some (ex_site "s1")]); (15, MPassStart)].
  split; [reflexivity|]. split; [reflexivity|]. split; [reflexivity|]. split; [reflexivity|]. split; reflexivity.
Qed.

(** ** C129: flushes are served together *)

(** Two passes, one after the other, start at least the flush delay apart, unless
    more than two thousand requests came in between. *)
Theorem C129_apart c w now ls s evs a t1 d t2 e : LCancel ∉ untimed ls -> tmrun c (tm_init w now) ls = Some (s, evs) -> m_crashed (tm_m s) = false ->
  evs = a ++ (t1, MPassStart) :: d ++ (t2, MPassStart) :: e -> passes d = 0 -> t1 + tc_delay c <= t2 \/ 2041 <= requests d.
Proof. exact (spaced c w now ls s evs a t1 d t2 e). Qed.

(** Three requests while the first is delayed, one of them after the pass. *)
Definition ex_pass : list tmlabel := [ex_now ATimeout; ex_now ADo].
Definition ex_together : list tmlabel :=
  [TMStep (LRecv true); ex_now ATakeFlush; TMTime 1; TMStep (LRecv true); ex_now AMore; TMStep (LRecv true); TMTime 4] ++ ex_pass ++ [TMTime 1; ex_now ATakeFlush; TMTime 5] ++ ex_pass.

Example C129_example : LCancel ∉ untimed ex_together /\ exists s evs, tmrun ex_tc (tm_init ∅ 0) ex_together = Some (s, evs) /\ m_crashed (tm_m s) = false /\
  evs = [(0, MFlushReq); (1, MFlushReq); (1, MFlushReq)] ++ (5, MPassStart) :: [(5, MPassEnd)] ++ (11, MPassStart) :: [(11, MPassEnd)] /\ passes [(5, MPassEnd)] = 0.
Proof.
  split. { intros H. cbn in H. repeat (apply elem_of_cons in H as [H|H]; [discriminate H|]). by apply elem_of_nil in H. }
  exists (TMState (MState [] 0 [] SIdle true true false false ∅) 11 11),
    ([(0, MFlushReq); (1, MFlushReq); (1, MFlushReq)] ++ (5, MPassStart) :: [(5, MPassEnd)] ++ (11, MPassStart) :: [(11, MPassEnd)]).
  split; [reflexivity|]. split; [reflexivity|]. split; reflexivity.
Qed.

Print Assumptions C127_in_time.
Print Assumptions C127_no_flushes.
Print Assumptions C127_unbounded_refuted.
Print Assumptions C127_same_runs.
Print Assumptions C128_answered.
Print Assumptions C128_unbounded_refuted.
Print Assumptions C129_apart.
