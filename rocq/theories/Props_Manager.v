(** The manager of an event source: C38-C43 and C74.  A run of the manager is
    [mrun c (m_init w) ls = Some (s, evs)]: the labels [ls] are the schedule
    and what the outside did, the events [evs] what happened, in order.
    [published], [update_msgs], [flush_msgs], [processed] and [sent] select
    from the events; they and [handed] are at the top of ManagerFacts.v,
    [begins], [holds], [undisturbed] and [consecutive] at the top of
    ManagerPass.v, [internal] and [resting] at the top of ManagerLive.v. *)
From Coq Require Import ZArith NArith Ascii String.
From stdpp Require Import base gmap strings list.
From Verif Require Import GoBase Encoding SpecEncoding Records Messages SpecMessages MessageFacts
  Env SyncMap SyncMapFacts Tokens Cache SpecStore StoreFacts StoreLemmas ListFacts EventFacts StoreExamples Dispatch Diff DiffFacts
  Manager ManagerFacts ManagerPass ManagerLive ManagerExamples.

Local Open Scope list_scope.
Local Opaque vanflow_registry builtin_types record_types Encode Decode attrs_of.

(** ** C38: updates in order, once, in bounded batches *)

(** The updates published so far are those handed on, those in hand, and those
    in the channel, in this order; the update messages have the records of
    those handed on, in order, in batches of bounded size. *)
Theorem C38_in_order c w ls s evs : labels_ok ls -> mrun c (m_init w) ls = Some (s, evs) ->
  exists dn cur, published evs = (dn.*2 ++ cur) ++ m_changes s /\
    concat (update_msgs evs) = handed dn /\ Forall (fun x => env_ok x.1) dn /\
    (Z.of_nat (length cur) <= Z.max 1 (mc_batch c))%Z /\
    Forall (fun m => 1 <= Z.of_nat (length m) <= Z.max 1 (mc_batch c))%Z (update_msgs evs) /\
    (m_crashed s = false -> m_serve s = SIdle -> cur = []).
Proof.
  intros Hl Hr. destruct (updates_in_order c w ls s evs Hl Hr) as (dn & cur & H1 & H2 & H3 & H4 & H5 & H6).
  exists dn, cur. do 5 (split; [assumption|]). intros Hc Hs. specialize (H6 Hc). rewrite Hs in H6. exact H6.
Qed.

Example C38_example : labels_ok ex_good /\ exists s evs, mrun ex_mc (m_init ∅) ex_good = Some (s, evs) /\
  published evs = [new_site "s1"; new_site "s2"; new_site "s1"] /\ m_changes s = [new_site "s1"] /\
  update_msgs evs = [[Some (ex_site "s1"); Some (ex_site "s2")]] /\ m_crashed s = false /\ m_serve s = SIdle.
Proof. exact (conj ex_good_ok ex_good_run). Qed.

Print Assumptions C38_in_order.

(** ** C39: one bad record *)

(** A record that cannot be encoded takes others with it. *)
Theorem C39_refuted : exists s evs, mrun ex_mc (m_init ∅) ex_bad = Some (s, evs) /\ resting s /\ m_crashed s = false /\
  published evs = [new_site "s1"; new_site ""] /\ encodable [Some (ex_site "s1")] /\ sent evs = [].
Proof. exact bad_batch. Qed.

(** Messages are sent in the order they were queued; exactly those that cannot
    be encoded are left out.  One more can be lost to a crash. *)
Theorem C39_in_order c w ls s evs : mrun c (m_init w) ls = Some (s, evs) ->
  exists lost, queued evs = processed evs ++ lost ++ m_sends s /\ length lost <= 1 /\ (m_crashed s = false -> lost = []) /\
    sent evs = filter encodable (processed evs).
Proof. exact (sent_in_order c w ls s evs). Qed.

(** A message of usable records can be encoded iff each of them can. *)
Theorem C39_encodable m rs : m = Some <$> rs -> Forall good_record rs ->
  encodable m <-> Forall (fun r => exists a, Encode vanflow_registry (vrec_any r) = EncOk a) rs.
Proof. exact (encodable_iff m rs). Qed.

Example C39_example : Forall good_record [ex_site "s1"; ex_site "s2"] /\
  exists s evs, mrun ex_mc (m_init ∅) (ex_good ++ [LSend false]) = Some (s, evs) /\
    sent evs = [[Some (ex_site "s1"); Some (ex_site "s2")]] /\ sent evs = queued evs.
Proof.
  split; [|exact ex_good_sent]. constructor; [exact (ex_site_good _)|]. constructor; [exact (ex_site_good _)|constructor].
Qed.

Print Assumptions C39_refuted.
Print Assumptions C39_in_order.
Print Assumptions C39_encodable.

(** ** C40: a flush publishes every record of every store *)

(** [L i] is what store [i] holds, in key order. *)
Theorem C40_complete c s l s0 ls s' ev1 ev2 L : begins c s l s0 ->
  (forall i, i ∈ mc_stores c -> distinct_stored (mc_store_cfg c i) (holds s0 i) /\
    ordered (mc_store_cfg c i) (holds s0 i) Ascending (fun _ => True) (L i) /\ (Z.of_nat (length (L i)) < 2^31)%Z) ->
  labels_ok ls -> undisturbed c ls -> mrun c s0 ls = Some (s', ev1 ++ MPassEnd :: ev2) -> MPassEnd ∉ ev1 ->
  concat (flush_msgs ev1) = concat ((fun i => e_rec <$> L i) <$> mc_stores c) /\
  Forall (fun m => m <> [] /\ ((0 < mc_flush_batch c)%Z -> (Z.of_nat (length m) <= mc_flush_batch c)%Z)) (flush_msgs ev1).
Proof. exact (pass_complete c s l s0 ls s' ev1 ev2 L). Qed.

Example C40_example : begins ex_mc ex_waiting (ex_serve ATimeout) ex_started /\
  (exists L, forall i, i ∈ mc_stores ex_mc -> distinct_stored (mc_store_cfg ex_mc i) (holds ex_started i) /\
    ordered (mc_store_cfg ex_mc i) (holds ex_started i) Ascending (fun _ => True) (L i) /\ (Z.of_nat (length (L i)) < 2^31)%Z) /\
  exists s ev1, mrun ex_mc ex_started (ex_page ++ ex_page ++ [ex_serve ADo]) = Some (s, ev1 ++ [MPassEnd]) /\
    MPassEnd ∉ ev1 /\ names <$> flush_msgs ev1 = [["s1"]; ["s2"]]%string.
Proof. exact (conj ex_begins (conj ex_pass_hyps ex_pass_run)). Qed.

Print Assumptions C40_complete.

(** ** C41: records that stay *)

(** A record can be there all along and be missed. *)
Theorem C41_refuted : begins ex_mc ex_waiting (ex_serve ATimeout) ex_started /\
  exists s ev1, mrun ex_mc ex_started ex_skip = Some (s, ev1 ++ [MPassEnd]) /\ MPassEnd ∉ ev1 /\
  (forall s1 s2, consecutive ex_mc ex_started ex_skip s1 s2 ->
     is_Some (entry_at (holds s1 0) "s2") /\ is_Some (entry_at (holds s2 0) "s2")) /\
  ~ "s2"%string ∈ names (concat (flush_msgs ev1)).
Proof. exact page_skips. Qed.

(** It is published if no smaller key is removed meanwhile, whatever else is
    added, changed or removed. *)
Theorem C41_kept c i k s l s0 ls s' ev1 ev2 : begins c s l s0 -> i ∈ mc_stores c -> usual_key (mc_store_cfg c i) ->
  reachable (mc_store_cfg c i) (store_at (m_stores s0) i) -> well_keyed (holds s0 i) ->
  labels_ok ls -> Forall (fun l => match l with LStore j _ o => j = i -> good_op good_record o | _ => True end) ls ->
  is_Some (entry_at (holds s0 i) k) ->
  (forall s1 s2, consecutive c s0 ls s1 s2 -> (Z.of_nat (size (holds s1 i)) < 2^31)%Z /\
     forall k', k' = k \/ str_lt k' k -> is_Some (entry_at (holds s1 i) k') -> is_Some (entry_at (holds s2 i) k')) ->
  mrun c s0 ls = Some (s', ev1 ++ MPassEnd :: ev2) -> MPassEnd ∉ ev1 ->
  k ∈ names (concat (flush_msgs ev1)).
Proof. exact (pass_keeps c i k s l s0 ls s' ev1 ev2). Qed.

Example C41_example : labels_ok ex_churn /\
  Forall (fun l => match l with LStore j _ o => j = 0 -> good_op good_record o | _ => True end) ex_churn /\
  (forall s1 s2, consecutive ex_mc ex_started ex_churn s1 s2 -> (Z.of_nat (size (holds s1 0)) < 2^31)%Z /\
     forall k', k' = "s2"%string \/ str_lt k' "s2" -> is_Some (entry_at (holds s1 0) k') -> is_Some (entry_at (holds s2 0) k')) /\
  exists s ev1, mrun ex_mc ex_started ex_churn = Some (s, ev1 ++ [MPassEnd]) /\ MPassEnd ∉ ev1 /\
  names <$> flush_msgs ev1 = [["s1"]; ["s1"]; ["s2"]; ["s3"]]%string.
Proof. exact ex_keeps. Qed.

Print Assumptions C41_refuted.
Print Assumptions C41_kept.

(** ** C42: no flush request is lost *)

(** A request not yet followed by the start of a pass is still in the channel
    or being drained. *)
Theorem C42_pending c w ls s evs ev1 ev2 : mrun c (m_init w) ls = Some (s, evs) ->
  m_crashed s = false -> m_serve s <> SStopped -> evs = ev1 ++ MFlushReq :: ev2 ->
  MPassStart ∈ ev2 \/ (0 < m_flushes s)%Z \/ draining (m_serve s).
Proof. exact (requests_pending c w ls s evs ev1 ev2). Qed.

(** At rest every request was followed by a whole pass (C40 says what a pass
    publishes).  C74 says that the manager gets there. *)
Theorem C42_served c w ls s evs ev1 ev2 : mrun c (m_init w) ls = Some (s, evs) ->
  m_crashed s = false -> m_serve s = SIdle -> m_flushes s = 0%Z ->
  evs = ev1 ++ MFlushReq :: ev2 -> exists a b d, ev2 = a ++ MPassStart :: b ++ MPassEnd :: d.
Proof. exact (requests_served c w ls s evs ev1 ev2). Qed.

Example C42_example : exists s evs, mrun ex_mc (m_init ex_mw) (ex_full ++ [LSend true; LSend true]) = Some (s, evs) /\
  resting s /\ m_crashed s = false /\ MFlushReq ∈ evs /\ sent evs = [[Some (ex_site "s1")]; [Some (ex_site "s2")]].
Proof. exact ex_rests. Qed.

Print Assumptions C42_pending.
Print Assumptions C42_served.

(** ** C43: only requests cause flushes *)

(** A receive error causes a pass, too. *)
Theorem C43_refuted :
  exists s evs, mrun ex_mc (m_init ∅) [LRecv false; ex_serve ATakeFlush; ex_serve ATimeout] = Some (s, evs) /\
    MPassStart ∈ evs /\ ~ MFlushReq ∈ evs.
Proof. exact error_flushes. Qed.

(** There are no more passes than messages received and receive errors. *)
Theorem C43_bounded c w ls s evs : mrun c (m_init w) ls = Some (s, evs) ->
  (0 <= m_flushes s <= 8)%Z /\ (count is_pass evs + m_flushes s <= count is_recv evs)%Z.
Proof. exact (flush_budget_run c w ls s evs). Qed.

Example C43_example : exists s evs, mrun ex_mc (m_init ex_mw) ex_flush = Some (s, evs) /\ evs = [MFlushReq] /\ m_serve s = SDrain 0.
Proof. exists ex_waiting, [MFlushReq]. split; [exact ex_waiting_run|]. split; reflexivity. Qed.

Print Assumptions C43_refuted.
Print Assumptions C43_bounded.

(** ** C74: the manager comes to rest *)

(** Left alone, the manager stops after boundedly many steps, having dealt with
    every update, request and message. *)
Theorem C74_rests c w ls s evs : labels_ok ls -> mrun c (m_init w) ls = Some (s, evs) ->
  (forall s1 s2, consecutive c (m_init w) ls s1 s2 -> small_stores s1) -> small_stores s ->
  exists n, forall ls' s' ev', Forall internal ls' -> mrun c s ls' = Some (s', ev') ->
    length ls' <= n /\
    (m_crashed s' = false -> m_cancelled s' = false -> (forall l, internal l -> mstep c s' l = None) -> resting s').
Proof. exact (comes_to_rest c w ls s evs). Qed.

(** With usable records it does not crash. *)
Theorem C74_no_crash c w ls s evs : sound_stores c w -> Forall sane_label ls -> mrun c (m_init w) ls = Some (s, evs) ->
  (forall s1 s2, consecutive c (m_init w) ls s1 s2 -> small_stores s1) -> m_crashed s = false.
Proof. exact (no_crash c w ls s evs). Qed.

Example C74_example : sound_stores ex_mc ex_mw /\ labels_ok (ex_full ++ [LSend true; LSend true]) /\
  Forall sane_label (ex_full ++ [LSend true; LSend true]) /\
  (forall s1 s2, consecutive ex_mc (m_init ex_mw) (ex_full ++ [LSend true; LSend true]) s1 s2 -> small_stores s1) /\
  exists s evs, mrun ex_mc (m_init ex_mw) (ex_full ++ [LSend true; LSend true]) = Some (s, evs) /\ small_stores s.
Proof.
  split; [exact ex_mw_sound|]. split; [exact (proj1 ex_full_ok)|]. split; [exact (proj1 (proj2 ex_full_ok))|].
  split; [exact ex_full_small|]. destruct ex_rests as (s & evs & Hr & _). exists s, evs. split; [exact Hr|].
  exact (ex_rest_small s evs Hr).
Qed.

Print Assumptions C74_rests.
Print Assumptions C74_no_crash.
