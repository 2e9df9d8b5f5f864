(** Concurrent store calls: C32 and C33.  Threads run programs of calls on one
    store; any list of thread numbers is a schedule.  In a trace, [LInv] is a
    call, [LLin] the moment it takes effect, [LEv] the delivery of an event to a
    handler and [LRes] the return.  [lins tr] lists the calls in the order of
    their effects; [answers] what they answer when made one after the other in
    that order. *)
From Coq Require Import ZArith NArith Ascii String.
From stdpp Require Import base gmap strings list.
From Verif Require Import GoBase Encoding Records MessageFacts Env SyncMap Tokens Cache SpecStore EventFacts StoreExamples
  StoreConc ConcFacts ConcLemmas ConcExamples.

Local Open Scope list_scope.
Local Opaque vanflow_registry builtin_types record_types Encode Decode attrs_of.

(** ** C32: linearizability *)

(** Every call shows its invocation, then its effect, then its events, then its
    return, or so far a prefix of these; result and events are the sequential
    ones. *)
Theorem C32_linearizable cf s0 progs sched c tr id : progs_ok progs ->
  crun cf (cinit s0 progs) sched = (c, tr) ->
  seen id tr = [] \/ (exists t e o, seen id tr = [LInv id t e o]) \/
  exists t e o r ev, (id, (e, o)) ∈ lins tr /\ (id, (r, ev)) ∈ answers cf s0 (lins tr) /\
    LLin id e o ∈ seen id tr /\ seen id tr `prefix_of` life id t e o r ev.
Proof. exact (linearizable cf s0 progs sched c tr id). Qed.

(** No call takes effect twice. *)
Theorem C32_effects_once cf s0 progs sched c tr : progs_ok progs ->
  crun cf (cinit s0 progs) sched = (c, tr) -> NoDup (fst <$> lins tr).
Proof. exact (effects_once cf s0 progs sched c tr). Qed.

(** Each thread makes its calls in order. *)
Theorem C32_program_order cf s0 progs sched c tr t p : progs_ok progs ->
  crun cf (cinit s0 progs) sched = (c, tr) -> progs !! t = Some p -> made t tr `prefix_of` p.
Proof. exact (program_order cf s0 progs sched c tr t p). Qed.

(** On a new store the results are those of a plain map. *)
Theorem C32_plain_map cf progs sched c tr : progs_ok progs ->
  crun cf (cinit new_simap progs) sched = (c, tr) ->
  spec_run cf ∅ (timed (snd <$> lins tr)) ((fun x => x.2.1) <$> answers cf new_simap (lins tr))
    (contents (after cf new_simap (lins tr))).
Proof. exact (concurrent_map cf progs sched c tr). Qed.

(** Whenever no writer holds the lock, the store holds what the sequential run
    leaves. *)
Theorem C32_state cf s0 progs sched c tr : progs_ok progs ->
  crun cf (cinit s0 progs) sched = (c, tr) -> c_writer c = None -> c_shared c = after cf s0 (lins tr).
Proof. exact (quiescent_state cf s0 progs sched c tr). Qed.

(** The calls cannot deadlock. *)
Theorem C32_no_deadlock cf s0 progs sched c tr t T : progs_ok progs ->
  crun cf (cinit s0 progs) sched = (c, tr) -> c_threads c !! t = Some T -> T <> TIdle [] ->
  exists t', is_Some (cstep cf c t').
Proof. exact (no_deadlock cf s0 progs sched c tr t T). Qed.

Example C32_example : progs_ok ex_progs /\
  crun ex_cf (cinit new_simap ex_progs) ex_sched = (ex_crun.1, ex_crun.2) /\ list_lengths = [(0, 0); (3, 1)].
Proof. split; [exact ex_progs_ok|]. split; [exact ex_crun_eq|]. apply ex_reordered. Qed.

Print Assumptions C32_linearizable.
Print Assumptions C32_effects_once.
Print Assumptions C32_program_order.
Print Assumptions C32_plain_map.
Print Assumptions C32_state.
Print Assumptions C32_no_deadlock.

(** ** C33: the order of events *)

(** Events of concurrent writers may arrive in the wrong order. *)
Theorem C33_order_refuted : exists cf progs sched c tr,
  observing cf /\ progs_ok progs /\ crun cf (cinit new_simap progs) sched = (c, tr) /\
  (forall t T, c_threads c !! t = Some T -> T = TIdle []) /\
  heard tr <> due cf new_simap tr.
Proof. exact events_out_of_order. Qed.

(** Every applied change is still reported exactly once. *)
Theorem C33_exactly_once cf s0 progs sched c tr : progs_ok progs ->
  crun cf (cinit s0 progs) sched = (c, tr) ->
  (forall t T, c_threads c !! t = Some T -> T = TIdle []) ->
  heard tr ≡ₚ due cf s0 tr.
Proof. exact (events_exactly_once cf s0 progs sched c tr). Qed.

(** With one writing thread the order is right. *)
Theorem C33_one_writer cf s0 progs sched c tr w : progs_ok progs ->
  (forall t p, progs !! t = Some p -> t <> w -> Forall (fun x => reading x.2) p) ->
  crun cf (cinit s0 progs) sched = (c, tr) -> heard tr `prefix_of` due cf s0 tr.
Proof. exact (one_writer_order cf s0 progs sched c tr w). Qed.

Example C33_example :
  (finished ex_crun.1 3 = true /\ heard_names ex_crun.2 = ["r2"; "r1"]%string /\ due_names ex_crun.2 = ["r1"; "r2"]%string /\
   final_name = Some "r2"%string /\ list_lengths = [(0, 0); (3, 1)]) /\
  progs_ok ex_progs1 /\ (forall t p, ex_progs1 !! t = Some p -> t <> 0 -> Forall (fun x => reading x.2) p).
Proof. split; [exact ex_reordered|exact ex_progs1_ok]. Qed.

Print Assumptions C33_order_refuted.
Print Assumptions C33_exactly_once.
Print Assumptions C33_one_writer.
