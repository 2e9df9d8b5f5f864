(** C123: the manager's Run called more than once, or late. *)
From Coq Require Import ZArith NArith Ascii String Lia.
From stdpp Require Import base gmap strings list.
From Verif Require Import GoBase Encoding Records Messages SpecMessages MessageFacts Env SyncMap Tokens Cache SpecStore StoreExamples
  Dispatch Diff ConvergeFacts Run Manager ManagerFacts ManagerExamples ManagerRuns ManagerRunsFacts ManagerRunsFlush.

Local Open Scope list_scope.
Local Opaque vanflow_registry builtin_types record_types Encode Decode attrs_of.

(** One call, made before anything else, is the manager of Manager.v. *)
Theorem C123_single c w ls :
  match mrun c (m_init w) ls with
  | Some (m, evs) => exists s, nrun c (n_init w) (NRun 0 :: (NStep 0 <$> ls)) = Some (s, pair 0 <$> evs) /\ nfocus s 0 = m
  | None => nrun c (n_init w) (NRun 0 :: (NStep 0 <$> ls)) = None
  end.
Proof.
  set (s0 := NState (n_core (n_init w)) (<[0 := nc_start]> ∅)).
  assert (n_runs s0 !! 0 <> None) as Hn by (cbn [s0 n_runs]; by rewrite lookup_insert).
  assert (nfocus s0 0 = m_init w) as Ef by (unfold nfocus, nctl_at; cbn [s0 n_runs n_core]; by rewrite lookup_insert).
  pose proof (single_run c s0 ls Hn) as H. rewrite Ef in H. unfold nrun in *. cbn [run nstep n_init n_core m_crashed n_runs]. rewrite lookup_empty.
  change (NState _ (<[0 := nc_start]> ∅)) with s0. destruct (mrun c (m_init w) ls) as [[m evs]|].
  - destruct H as (s & -> & Hf). exists s. done.
  - by rewrite H.
Qed.

(** Every published update is taken by one of the calls, in the order of
    publishing, or waits.  The update messages of a call have the records of the
    updates it took, in order, except for at most a batch that it has in hand or
    had when it ended. *)
Theorem C123_updates c w ls s evs : nlabels_ok ls -> nrun c (n_init w) ls = Some (s, evs) ->
  exists tk, published (nwhole evs) = tk.*2 ++ m_changes (n_core s) /\
    (forall r, NRun r ∉ ls -> taken_by r tk = []) /\
    forall r, exists dn cur, taken_by r tk = dn.*2 ++ cur /\
      concat (update_msgs (by_call r evs)) = handed dn /\ Forall (fun x => env_ok x.1) dn /\
      (Z.of_nat (length cur) <= Z.max 1 (mc_batch c))%Z /\
      Forall (fun m => 1 <= Z.of_nat (length m) <= Z.max 1 (mc_batch c))%Z (update_msgs (by_call r evs)) /\
      (m_crashed (n_core s) = false -> nc_serve (nctl_at s r) = SIdle -> cur = []).
Proof.
  intros Hl Hr. destruct (upd_all_run c w ls s evs Hl Hr) as (tk & Hp & Ha & Hn). exists tk. split; [done|].
  split; [intros r Hr'; apply Hn; by eapply not_called|]. intros r. specialize (Ha r).
  apply account_iff in Ha as (dn & cur & H1 & H2 & H3 & H4 & H5 & H6). exists dn, cur. do 5 (split; [done|]).
  intros Hc Hs. specialize (H6 Hc). by rewrite Hs in H6.
Qed.

(** Messages, of updates and of flushes, are taken for sending in the order they
    were queued, whichever call queued them and whichever sends them, each once. *)
Theorem C123_sending c w ls s evs : nrun c (n_init w) ls = Some (s, evs) ->
  exists lost, queued (nwhole evs) = processed (nwhole evs) ++ lost ++ m_sends (n_core s) /\ length lost <= 1 /\ (m_crashed (n_core s) = false -> lost = []) /\
    forall m am ok, MSent m am ok ∈ nwhole evs -> encode_mmsg m = Ok am.
Proof.
  intros Hr. destruct (nsend_run c w ls s evs Hr) as (lost & H1 & H2 & H3 & HF). exists lost. do 3 (split; [done|]).
  intros m am ok Hin. exact (proj1 (Forall_forall _ _) HF _ Hin).
Qed.

(** Before the first call PublishUpdate returns for 256 updates, which wait; the
    next one blocks. *)
Theorem C123_waits c w ls s evs r u : nrun c (n_init w) ls = Some (s, evs) -> (forall q, NRun q ∉ ls) ->
  nwhole evs = MPublished <$> m_changes (n_core s) /\ length (m_changes (n_core s)) <= 256 /\
  (is_Some (nstep c s (NStep r (LPublish u))) <-> length (m_changes (n_core s)) < 256).
Proof.
  intros Hr Hn. destruct (waits_run c w ls s evs Hr Hn) as (H1 & H2 & H3). split; [done|]. split; [done|]. cbn [nstep]. unfold mstep. cbn [nfocus m_crashed m_changes]. rewrite H2.
  destruct (Z.ltb_spec (Z.of_nat (length (m_changes (n_core s)))) 256) as [Hlt|Hge].
  - split; [lia|]. intros _. by eexists.
  - split; [by intros [? ?]|lia].
Qed.

(** After all earlier calls stopped, a new one goes on with the next update: its
    messages have the records of those that waited and of those published since,
    in order. *)
Theorem C123_resumes c s1 r ls s2 evs2 : (forall q, nc_serve (nctl_at s1 q) = SStopped) -> m_crashed (n_core s1) = false ->
  n_runs s1 !! r = None -> nlabels_ok ls ->
  (forall q, q <> r -> NRun q ∉ ls) -> nrun c s1 (NRun r :: ls) = Some (s2, evs2) ->
  exists dn cur, m_changes (n_core s1) ++ published (nwhole evs2) = (dn.*2 ++ cur) ++ m_changes (n_core s2) /\
    concat (update_msgs (nwhole evs2)) = handed dn /\ (Z.of_nat (length cur) <= Z.max 1 (mc_batch c))%Z /\
    (m_crashed (n_core s2) = false -> nc_serve (nctl_at s2 r) = SIdle -> cur = []).
Proof. exact (resumes_run c s1 r ls s2 evs2). Qed.

(** A call not made before can be made.  It can take an update, so that a blocked
    PublishUpdate returns, and it can send all messages that were left, in order. *)
Theorem C123_revives c w ls s evs r : nrun c (n_init w) ls = Some (s, evs) -> m_crashed (n_core s) = false -> NRun r ∉ ls ->
  (m_changes (n_core s) <> [] -> exists e s', env_ok e /\ nrun c s [NRun r; NStep r (LServe e ATakeUpdate)] = Some (s', []) /\
     length (m_changes (n_core s')) < length (m_changes (n_core s))) /\
  (Forall encodable (m_sends (n_core s)) ->
     exists s' evs', nrun c s (NRun r :: replicate (length (m_sends (n_core s))) (NStep r (LSend true))) = Some (s', evs') /\
       m_sends (n_core s') = [] /\ sent (by_call r evs') = m_sends (n_core s)).
Proof.
  intros Hr Hc Hn. pose proof (not_called _ _ _ _ _ _ Hr Hn) as Hnone. split.
  - intros Hch. destruct (room_again c s r Hc Hnone Hch) as (e & s' & H1 & H2 & H3). by exists e, s'.
  - intros HF. by apply sends_left.
Qed.

(** A call whose serve has returned queues nothing any more. *)
Theorem C123_stopped c s r ls s' evs : n_runs s !! r <> None -> nc_serve (nctl_at s r) = SStopped -> nrun c s ls = Some (s', evs) ->
  forall b m, (r, MQueued b m) ∉ evs.
Proof. exact (stopped_run c s r ls s' evs). Qed.

(** ** Cases *)

Definition one_mc : mcfg := MCfg [] (fun _ => ex_cf) false 1 false 1.
Definition go (r : nat) (a : act) : nlabel := NStep r (ex_serve a).

(** False of the code: that the updates of one record are sent in the order they
    were published.  Two calls at once: the first takes the older update, the second
    takes and queues the newer one before. *)
Definition ex_race : list nlabel :=
  [NRun 1; NRun 2; NStep 1 (LPublish (new_site "s1")); NStep 1 (LPublish (RecUpdate None (Some ex_site2))); go 1 ATakeUpdate; go 2 ATakeUpdate; go 2 ADo; go 1 ADo].
Theorem C123_order_refuted : exists s evs, nrun one_mc (n_init ∅) ex_race = Some (s, evs) /\ nlabels_ok ex_race /\
  published (nwhole evs) = [new_site "s1"; RecUpdate None (Some ex_site2)] /\
  concat (update_msgs (nwhole evs)) = [Some ex_site2; Some (ex_site "s1")] /\
  vrec_identity ex_site2 = vrec_identity (ex_site "s1").
Proof. eexists _, _. split; [vm_compute; reflexivity|]. split; [repeat constructor; apply at_time_ok|]. done. Qed.

(** An update taken by a call that then ends is lost; the next call goes on after
    it. *)
Definition ex_restart : list nlabel :=
  [NStep 0 (LPublish (new_site "s1")); NStep 0 (LPublish (new_site "s2")); NStep 0 (LPublish (new_site "s3"));
   NRun 1; go 1 ATakeUpdate; go 1 ADo; go 1 ATakeUpdate; NStep 1 LCancel; go 1 AStop; NRun 2; go 2 ATakeUpdate; go 2 ADo].
Example C123_example : exists s evs, nrun one_mc (n_init ∅) ex_restart = Some (s, evs) /\ nlabels_ok ex_restart /\
  published (nwhole evs) = [new_site "s1"; new_site "s2"; new_site "s3"] /\
  update_msgs (by_call 1 evs) = [[Some (ex_site "s1")]] /\ update_msgs (by_call 2 evs) = [[Some (ex_site "s3")]] /\
  m_sends (n_core s) = [[Some (ex_site "s1")]; [Some (ex_site "s3")]] /\ m_crashed (n_core s) = false.
Proof. eexists _, _. split; [vm_compute; reflexivity|]. split; [repeat constructor; apply at_time_ok|]. done. Qed.

(** Between the two calls the premises of C123_resumes, C123_stopped and C123_revives
    hold. *)
Example C123_between : exists s evs, nrun one_mc (n_init ∅) (take 9 ex_restart) = Some (s, evs) /\
  (forall q, nc_serve (nctl_at s q) = SStopped) /\ m_crashed (n_core s) = false /\ n_runs s !! 2 = None /\ n_runs s !! 1 <> None /\
  m_changes (n_core s) = [new_site "s3"] /\ Forall encodable (m_sends (n_core s)) /\ NRun 2 ∉ take 9 ex_restart.
Proof.
  eexists _, _. split; [vm_compute; reflexivity|]. split; [|split; [done|]].
  - intros q. unfold nctl_at. match goal with |- context [n_runs ?s !! q] => set (m := n_runs s) end.
    destruct (m !! q) as [x|] eqn:E; [|done]. apply elem_of_map_to_list in E. assert (map_to_list m = [(1, NCtl SStopped true true true)]) as Em by (vm_compute; reflexivity).
    rewrite Em in E. apply elem_of_list_singleton in E. by injection E as _ ->.
  - split; [done|]. split; [done|]. split; [done|]. split.
    + constructor; [|constructor]. apply (encodable_iff _ [ex_site "s1"]); [done|repeat constructor; apply ex_site_good|].
      constructor; [exists (attrs_of (ex_site "s1")); apply ex_encodes|constructor].
    + intros Hin. repeat (apply elem_of_cons in Hin as [Hin|Hin]; [discriminate Hin|]). by apply elem_of_nil in Hin.
Qed.

(** A flush request that no pass followed, of whichever call, waits in the channel,
    or a call has it in hand, unless a call that was cancelled has ended.  The
    passes of all calls are not more than the messages and errors received. *)
Theorem C123_flushes c w ls s evs : nrun c (n_init w) ls = Some (s, evs) ->
  (forall ev1 r ev2, evs = ev1 ++ (r, MFlushReq) :: ev2 ->
     (exists q, (q, MPassStart) ∈ ev2) \/ (0 < m_flushes (n_core s))%Z \/ (exists q, draining (nc_serve (nctl_at s q))) \/
     exists q, gave_up s q /\ NStep q LCancel ∈ ls) /\
  (0 <= m_flushes (n_core s) <= 8)%Z /\ (count is_pass (nwhole evs) + m_flushes (n_core s) <= count is_recv (nwhole evs))%Z.
Proof.
  intros Hr. destruct (nreq_run c w ls s evs Hr) as [H8 Hi]. split.
  { intros ev1 r ev2 E. destruct (Hi ev1 r ev2 E) as [?|[?|[?|(q & Hq)]]]; auto. right. right. right. exists q. split; [exact Hq|].
    destruct (cancelled_nrun c ls (n_init w) s evs Hr q (proj1 Hq)) as [H|H]; [|exact H]. unfold nctl_at in H. cbn in H. discriminate H. }
  split; [exact H8|].
  pose proof (nbudget_run c w ls s evs Hr). pose proof (in_hand_nonneg (n_runs s)). lia.
Qed.

(** One that waits is answered by a later call. *)
Theorem C123_flush_resumes c w ls s evs r : nrun c (n_init w) ls = Some (s, evs) -> m_crashed (n_core s) = false -> NRun r ∉ ls -> (0 < m_flushes (n_core s))%Z ->
  exists as_ s' evs', env_ok (at_time 0) /\ as_ `prefix_of` [ATakeFlush; ATimeout] /\
    nrun c s (NRun r :: ((fun a => NStep r (LServe (at_time 0) a)) <$> as_)) = Some (s', evs') /\ (r, MPassStart) ∈ evs'.
Proof. intros Hr Hc Hn Hf. apply flush_again; [done| |done]. by eapply not_called. Qed.

(** One that a call has in hand when it ends is lost: later calls do nothing for
    it. *)
Definition delay_mc : mcfg := MCfg [] (fun _ => ex_cf) false 1 true 1.
Definition ex_drop : list nlabel := [NRun 1; NStep 1 (LRecv true); go 1 ATakeFlush; NStep 1 LCancel; go 1 ATimeout; NRun 2].
Theorem C123_flush_kept_refuted : exists s evs, nrun delay_mc (n_init ∅) ex_drop = Some (s, evs) /\ nlabels_ok ex_drop /\
  m_crashed (n_core s) = false /\ (1, MFlushReq) ∈ evs /\ nc_serve (nctl_at s 2) = SIdle /\
  forall q, (q, MPassStart) ∉ evs /\ ~ draining (nc_serve (nctl_at s q)) /\ m_flushes (n_core s) = 0%Z.
Proof.
  eexists _, _. split; [vm_compute; reflexivity|]. split; [repeat constructor; apply at_time_ok|]. split; [done|]. split; [apply elem_of_list_here|]. split; [done|].
  intros q. split; [by intros ?%elem_of_list_singleton|]. split; [|done].
  unfold nctl_at. match goal with |- context [n_runs ?s !! q] => set (m := n_runs s) end.
  destruct (m !! q) as [x|] eqn:E; [|by intros []]. apply elem_of_map_to_list in E.
  assert (map_to_list m = [(1, NCtl SStopped true true true); (2, NCtl SIdle true true false)]) as Em by (vm_compute; reflexivity).
  rewrite Em in E. apply elem_of_cons in E as [E|E]; [injection E as _ ->; intros []|]. apply elem_of_list_singleton in E. injection E as _ ->. intros [].
Qed.

Example C123_flush_example : exists s evs, nrun delay_mc (n_init ∅) [NRun 1; NStep 1 (LRecv true); NStep 1 LCancel; go 1 AStop] = Some (s, evs) /\
  m_crashed (n_core s) = false /\ NRun 2 ∉ [NRun 1; NStep 1 (LRecv true); NStep 1 LCancel; go 1 AStop] /\ (0 < m_flushes (n_core s))%Z /\ evs = [] ++ (1, MFlushReq) :: [].
Proof.
  eexists _, _. split; [vm_compute; reflexivity|]. split; [done|]. split; [|done].
  intros Hin. repeat (apply elem_of_cons in Hin as [Hin|Hin]; [discriminate Hin|]). by apply elem_of_nil in Hin.
Qed.

Print Assumptions C123_single.
Print Assumptions C123_updates.
Print Assumptions C123_sending.
Print Assumptions C123_waits.
Print Assumptions C123_resumes.
Print Assumptions C123_revives.
Print Assumptions C123_stopped.
Print Assumptions C123_order_refuted.
Print Assumptions C123_flushes.
Print Assumptions C123_flush_resumes.
Print Assumptions C123_flush_kept_refuted.
