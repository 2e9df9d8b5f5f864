(** From publisher to collector: C96.  A run of the manager is split where the
    collector begins to listen; [wires] are the messages sent after that.  The
    vocabulary ([legit], [sendable], [versions], [takes], [about]) is at the
    top of EndToEnd.v; [publishable], [rkey], [copy_at], [sound] and
    [never_clears] are in ConvergeFacts.v. *)
From Coq Require Import ZArith NArith Ascii String.
From stdpp Require Import base gmap strings list.
From Verif Require Import GoBase Encoding SpecEncoding Records Messages SpecMessages MessageFacts
  Env SyncMap Tokens Cache SpecStore EventFacts StoreExamples Dispatch DispatchFacts Diff ConvergeFacts
  Manager ManagerFacts ManagerPass ManagerLive ManagerExamples EndToEnd EndToEndExamples.

Local Open Scope list_scope.
Local Opaque vanflow_registry builtin_types record_types Encode Decode attrs_of.

(** ** C96: what arrives *)

(** A collector that listens from some moment on has, once everything is sent,
    every attribute of the last version of a record that a flush message since
    then had; exactly those if it knew nothing of the record and attributes
    were never cleared. *)
Theorem C96_after_flush ty m c k rs o w ls1 ls2 s1 ev1 s2 ev2 cfs src l w0 i r :
  Forall (fun x => legit ty m x /\ rkey x = k) rs -> labels_ok (ls1 ++ ls2) ->
  at_all_times c w (ls1 ++ ls2) (sendable ty m c) -> at_all_times c w (ls1 ++ ls2) (versions k rs o c) ->
  mrun c (m_init w) ls1 = Some (s1, ev1) -> mrun c s1 ls2 = Some (s2, ev2) -> m_crashed s2 = false -> resting s2 ->
  o + length (about k (published (ev1 ++ ev2))) = length rs -> last rs = Some r ->
  (exists r, Some r ∈ concat (flush_msgs ev2) /\ rkey r = k) ->
  (forall mm am, MSent mm am false ∉ ev2) -> (forall i, usual_key (cfs i)) -> sound ty w0 -> m !! k.1 = Some i ->
  takes l (wires ev2) ->
  exists w' a, collect cfs m src l w0 = (w', false) /\ sound ty w' /\ copy_at w' i k.2 = Some a /\ attrs_of r ⊆ a /\
    (copy_at w0 i k.2 = None -> never_clears rs -> a = attrs_of r).
Proof.
  intros H1 H2 H3 H4 H5 H6 H7 H8 H9 H10 H11. apply (arrives ty m c k rs o w ls1 ls2 s1 ev1 s2 ev2); try assumption. by left.
Qed.

(** A collector that listened from the start needs no flush, and none hurts. *)
Theorem C96_from_start ty m c k rs w ls s ev cfs src l w0 i r :
  Forall (fun x => legit ty m x /\ rkey x = k) rs -> labels_ok ls ->
  at_all_times c w ls (sendable ty m c) -> at_all_times c w ls (versions k rs 0 c) ->
  mrun c (m_init w) ls = Some (s, ev) -> m_crashed s = false -> resting s ->
  length (about k (published ev)) = length rs -> last rs = Some r ->
  (forall mm am, MSent mm am false ∉ ev) -> (forall i, usual_key (cfs i)) -> sound ty w0 -> m !! k.1 = Some i ->
  takes l (wires ev) ->
  exists w' a, collect cfs m src l w0 = (w', false) /\ sound ty w' /\ copy_at w' i k.2 = Some a /\ attrs_of r ⊆ a /\
    (copy_at w0 i k.2 = None -> never_clears rs -> a = attrs_of r).
Proof.
  intros H1 H2 H3 H4 H5 H6 H7 H8 H9. apply (arrives ty m c k rs 0 w [] ls (m_init w) [] s ev); try assumption; [reflexivity|].
  right. done.
Qed.

(** The store has to be written before the update is published: otherwise a
    flush in between leaves the collector with the old value for good, although
    everything was sent and the store has the new one. *)
Theorem C96_refuted_behind : exists s ev am1 am2 w' a, mrun ex_mc (m_init ex_w1) ex_behind = Some (s, ev) /\
  m_crashed s = false /\ resting s /\
  at_all_times ex_mc ex_w1 ex_behind (sendable ex_ty ex_routes1 ex_mc) /\ at_all_times ex_mc ex_w1 ex_behind in_order /\
  published ev = [RecUpdate (Some (ex_site "s1")) (Some ex_site2)] /\ (forall mm am, MSent mm am false ∉ ev) /\
  (exists r, Some r ∈ concat (flush_msgs ev) /\ rkey r = ex_key) /\
  (exists x, entry_at (holds s 0) "s1" = Some x /\ e_rec x = Some ex_site2) /\
  takes [([at_time 20], am1); ([at_time 21], am2)] (wires ev) /\
  collect (fun _ => ex_cf) ex_routes1 ex_src [([at_time 20], am1); ([at_time 21], am2)] ∅ = (w', false) /\
  copy_at w' 0 "s1" = Some a /\ a !! KU32 30 = Some (AStr "east") /\ attrs_of ex_site2 !! KU32 30 = Some (AStr "west").
Proof. exact ex_behind_run. Qed.

(** A site was renamed and the change sent; then a collector asks for a flush. *)
Example C96_example : Forall (fun x => legit ex_ty ex_routes1 x /\ rkey x = ex_key) [ex_site "s1"; ex_site2] /\
  sound ex_ty ∅ /\ copy_at ∅ 0 "s1" = None /\ ex_routes1 !! ex_key.1 = Some 0 /\
  exists s1 ev1 s2 ev2 am,
  mrun ex_mc (m_init ex_w1) ex_first = Some (s1, ev1) /\ mrun ex_mc s1 ex_second = Some (s2, ev2) /\
  m_crashed s2 = false /\ resting s2 /\ labels_ok (ex_first ++ ex_second) /\
  at_all_times ex_mc ex_w1 (ex_first ++ ex_second) (sendable ex_ty ex_routes1 ex_mc) /\
  at_all_times ex_mc ex_w1 (ex_first ++ ex_second) (versions ex_key ex_rs 1 ex_mc) /\
  1 + length (about ex_key (published (ev1 ++ ev2))) = length ex_rs /\ last ex_rs = Some ex_site2 /\
  (exists r, Some r ∈ concat (flush_msgs ev2) /\ rkey r = ex_key) /\ (forall mm am, MSent mm am false ∉ ev2) /\
  takes [([at_time 20], am)] (wires ev2).
Proof.
  split; [apply ex_rs_ok|]. split; [apply ex_sound|]. split; [reflexivity|]. split; [apply lookup_singleton|]. 
  destruct (ex_late ex_routes1) as (s1 & ev1 & s2 & ev2 & am & H1 & H2 & H3 & H4 & H5 & H6 & H7 & H8 & H9 & H10 & H11 & H12 & _).
  exists s1, ev1, s2, ev2, am. exact (conj H1 (conj H2 (conj H3 (conj H4 (conj H5 (conj H6 (conj H7 (conj H8 (conj H9 (conj H10 (conj H11 H12))))))))))).
Qed.

Print Assumptions C96_after_flush.
Print Assumptions C96_from_start.
Print Assumptions C96_refuted_behind.
