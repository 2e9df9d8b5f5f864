(** Property C107: a source whose connection is lost for good is connected again.
    The vocabulary is at the top of ToolRecovery.v and of ToolConnsFacts.v. *)
From Coq Require Import ZArith NArith Ascii String Lia.
From stdpp Require Import base gmap strings list functions.
From Verif Require Import GoBase Encoding Records Messages Run Keepalive Discovery Collector CollectorFacts CollectorList Backoff ToolConns ToolConnsFacts ToolRecovery.

Local Open Scope list_scope.

(** ** C107: a source whose connection is lost for good is connected again *)

(** Whatever happened before, whatever became of the connections: if a source is
    silent, then announces itself, a new connection is made for it and it is
    listed as announced, within sixty seconds and without any help but that the
    new connection succeeds. *)
Theorem C107_recovers ls s evs am b : trun t_init ls = Some (s, evs) -> TStops ∉ evs -> TColl (VIn LRun) ∈ ls -> d_crashed (v_d (t_v s)) = false -> ~ stuck (t_v s) -> announces am b ->
  exists ls' s' evs' i, Forall (helps am) ls' /\ (tlapses ls' <= 60000000000)%Z /\ trun s ls' = Some (s', evs') /\
    TMade i (bc_identity b) ∈ evs' /\ connected s' i /\ is_known (t_v s') (bc_identity b) /\
    v_src (t_v s') !! bc_identity b = Some (Info (bc_identity b) (Z.of_N (bc_version b)) (bc_source_type b) (bc_address b) (bc_direct b)).
Proof. exact (recovers ls s evs am b). Qed.

(** Not before it was forgotten: beacons of a known source give it no new
    connection, though its connection be lost. *)
Theorem C107_not_before ls s evs id e1 i e2 j e3 : trun t_init ls = Some (s, evs) -> TStops ∉ evs ->
  evs = e1 ++ TMade i id :: e2 ++ TMade j id :: e3 -> Exists (forgot id) e2.
Proof. intros Hr Hst. destruct (between ls s evs Hr Hst id) as [_ H]. apply H. Qed.

(** The connection of a known source was lost for good. *)
Definition lost : list tlabel :=
  [TStart; TNet (Connected 0); TRegister; TColl (VIn LRun); TColl (VIn (LRunMsg come_bcn)); TColl (VIn LObserve); TColl (VTake Disc); TMake; TColl VBody; TColl VBody; TColl VBody;
   TNet (Connected 1); TTime 61000000000; TNet (Failure 1 300000000)].
Example C107_example : exists s evs b, trun t_init lost = Some (s, evs) /\ TStops ∉ evs /\ TColl (VIn LRun) ∈ lost /\ d_crashed (v_d (t_v s)) = false /\ ~ stuck (t_v s) /\
  announces come_bcn b /\ is_known (t_v s) (bc_identity b) /\ TMade 1 (bc_identity b) ∈ evs /\ TB (GivesUp 1) ∈ evs /\ ~ runs s 1.
Proof.
  eexists _, _, _. split; [vm_compute; reflexivity|].
  split; [rewrite !not_elem_of_cons; repeat split; try done; apply not_elem_of_nil|].
  split; [do 3 right; left|]. split; [reflexivity|]. split; [intros ((c & k & x & H & _) & _); by vm_compute in H|].
  split; [split; [eexists; split; reflexivity|vm_compute; reflexivity]|].
  split; [eexists; vm_compute; reflexivity|]. split; [repeat (left || right)|]. split; [repeat (left || right)|]. intros (_ & H & _). apply H. vm_compute. reflexivity.
Qed.

Print Assumptions C107_recovers.
Print Assumptions C107_not_before.
Print Assumptions C107_example.
