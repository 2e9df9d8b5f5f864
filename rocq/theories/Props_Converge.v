(** Deltas and convergence: C37 and C47.  The vocabulary is at the top of
    ConvergeFacts.v: [chained] describes the updates of a source, [deltas] the
    records the manager sends for them, [delivers] a record message on the
    wire, [redelivered] repeated delivery, [copy_at] the attributes of the
    collector's copy. *)
From Coq Require Import ZArith NArith Ascii String.
From stdpp Require Import base gmap strings list.
From Verif Require Import GoBase Encoding SpecEncoding Records Messages SpecMessages MessageFacts
  Env SyncMap Tokens Cache SpecStore EventFacts StoreExamples Dispatch DispatchFacts Diff DiffFacts ConvergeFacts.

Local Open Scope list_scope.
Local Opaque vanflow_registry builtin_types record_types Encode Decode attrs_of.

(** ** C37: deltas carry exactly what changed *)

(** Nothing is published when the new record has nothing new. *)
Theorem C37_silent e p c a b : env_ok e ->
  good_record p -> Encode vanflow_registry (vrec_any p) = EncOk a ->
  good_record c -> Encode vanflow_registry (vrec_any c) = EncOk b ->
  b ⊆ a -> diff_record e (RecUpdate (Some p) (Some c)) = DNone.
Proof. exact (fun He Gp Ea Gc Eb => proj1 (diff_spec e p c a b He Gp Ea Gc Eb)). Qed.

(** Otherwise a record of the same type and identity is, which holds exactly
    the changed attributes with type (0) and identity (1), and which merged
    into the previous attributes gives the new ones over the old. *)
Theorem C37_delta e p c a b : env_ok e ->
  good_record p -> Encode vanflow_registry (vrec_any p) = EncOk a ->
  good_record c -> Encode vanflow_registry (vrec_any c) = EncOk b ->
  ~ b ⊆ a -> exists r d, diff_record e (RecUpdate (Some p) (Some c)) = DRec (Some r) /\ good_record r /\
    vr_type r = vr_type c /\ vrec_identity r = vrec_identity c /\
    Encode vanflow_registry (vrec_any r) = EncOk d /\
    (forall k x, d !! k = Some x <-> b !! k = Some x /\ (a !! k <> Some x \/ k = KU32 0 \/ k = KU32 1)) /\
    d ∪ a = b ∪ a.
Proof. exact (fun He Gp Ea Gc Eb => proj2 (diff_spec e p c a b He Gp Ea Gc Eb)). Qed.

Example C37_example : env_ok (at_time 1) /\
  good_record (ex_site "s1") /\ Encode vanflow_registry (vrec_any (ex_site "s1")) = EncOk (attrs_of (ex_site "s1")) /\
  good_record ex_site2 /\ Encode vanflow_registry (vrec_any ex_site2) = EncOk (attrs_of ex_site2) /\
  ~ attrs_of ex_site2 ⊆ attrs_of (ex_site "s1") /\ attrs_of (ex_site "s1") ⊆ attrs_of (ex_site "s1").
Proof. exact ex_delta. Qed.

Print Assumptions C37_silent.
Print Assumptions C37_delta.

(** ** C47: a collector converges *)

(** Whatever the batching and however often tails of the stream are delivered
    again, no call panics and each copy has, attribute by attribute, the value
    of the last published record that has the attribute, or else what it had
    before; there is a copy exactly if something was published or there was
    one before. *)
Theorem C47_converges ty cfs m src U batches l' l w : (forall i, usual_key (cfs i)) ->
  chained ∅ U -> Forall (typed_as ty m) (currents U) -> sound ty w ->
  concat batches = deltas U -> redelivered batches l' -> Forall2 delivers l l' ->
  exists w', collect cfs m src l w = (w', false) /\ sound ty w' /\ forall i id,
    (copy_at w' i id = None <-> copy_at w i id = None /\ concerning m i id (currents U) = []) /\
    forall a c y, copy_at w' i id = Some a ->
      (a !! c = Some y <->
       (exists rs1 r rs2, concerning m i id (currents U) = rs1 ++ r :: rs2 /\ attrs_of r !! c = Some y /\
          Forall (fun r' => attrs_of r' !! c = None) rs2) \/
       (Forall (fun r' => attrs_of r' !! c = None) (concerning m i id (currents U)) /\
          exists a0, copy_at w i id = Some a0 /\ a0 !! c = Some y)).
Proof. exact (converges_lookup ty cfs m src U batches l' l w). Qed.

(** A record whose attributes are never cleared is copied exactly. *)
Theorem C47_exact ty cfs m src U batches l' l w i id rs r : (forall i, usual_key (cfs i)) ->
  chained ∅ U -> Forall (typed_as ty m) (currents U) -> sound ty w ->
  concat batches = deltas U -> redelivered batches l' -> Forall2 delivers l l' ->
  copy_at w i id = None -> concerning m i id (currents U) = rs ++ [r] -> never_clears (rs ++ [r]) ->
  exists w', collect cfs m src l w = (w', false) /\ copy_at w' i id = Some (attrs_of r).
Proof. exact (converges_exact ty cfs m src U batches l' l w i id rs r). Qed.

(** Every batch of such deltas can be encoded. *)
Theorem C47_deliverable ty m U : chained ∅ U -> Forall (typed_as ty m) (currents U) ->
  forall batch es p, (forall r, r ∈ batch -> r ∈ deltas U) -> Forall env_ok es -> length es = length batch ->
  exists am, delivers (es, am) batch /\ encode_record_msg (RecordMsg p (Some <$> batch)) = Ok am.
Proof. exact (deltas_deliverable ty m U). Qed.

Example C47_example : (chained ∅ ex_updates /\ Forall (typed_as (fun _ _ => SiteRecord) ex_routes1) (currents ex_updates) /\
  sound (fun _ _ => SiteRecord) ∅ /\ concerning ex_routes1 0 "s1" (currents ex_updates) = [ex_site "s1"; ex_site2]) /\
  exists d1 d2 x w',
    deltas ex_updates = [d1; d2] /\ delivers x [d1; d2] /\
    collect (fun _ => ex_cf) ex_routes1 ex_src [x; x] ∅ = (w', false) /\
    exists a, copy_at w' 0 "s1" = Some a /\ a !! KU32 30 = Some (AStr "west") /\ a !! KU32 10 = Some (AStr "aws").
Proof.
  split; [|exact ex_converges]. split; [exact ex_chained|]. split; [exact ex_typed_as|].
  split; [exact (ex_sound _)|exact ex_concerning].
Qed.

Print Assumptions C47_converges.
Print Assumptions C47_exact.
Print Assumptions C47_deliverable.
