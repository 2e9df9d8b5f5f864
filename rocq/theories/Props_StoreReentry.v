(** Event handlers that call the store that called them: C111.  The vocabulary is
    at the top of StoreReentryFacts.v and of ConcFacts.v; events are those of
    StoreConc.v and StoreReentry.v. *)
From Coq Require Import ZArith NArith Ascii String Lia.
From stdpp Require Import base gmap strings list.
From Verif Require Import GoBase Encoding Records Env SyncMap Tokens Cache SpecStore StoreFacts StoreExamples StoreConc ConcFacts ConcLemmas ConcExamples Run StoreReentry StoreReentryFacts StoreReentryOrder.

Local Open Scope list_scope.
Local Opaque vanflow_registry builtin_types record_types Encode Decode.

(** ** C111 *)

(** A handler that has been called may call the store. *)
Theorem C111_may_call cf s t id ev s' u e o : hstep cf s (HStep t) = Some (s', [HE (LEv id ev)]) ->
  (forall k, is_Some (c_threads (h_c s') !! k) -> k < u) -> exists s2, hstep cf s' (HCall t u e o) = Some (s2, [HAsk t u e o]).
Proof. exact (may_call cf s t id ev s' u e o). Qed.

(** Whatever handlers call, what the store does is what it might do were the
    calls made by other goroutines: C32 and C33 hold of it. *)
Theorem C111_as_before cf s0 progs ls s tr : progs_ok progs -> calls_ok ls -> hrun cf (hinit s0 progs) ls = Some (s, tr) ->
  exists progs' sched, crun cf (cinit s0 progs') sched = (h_c s, flat tr) /\ progs ⊆ progs' /\ progs_ok progs' /\
    forall t u e o, HAsk t u e o ∈ tr -> progs' !! u = Some [(e, o)].
Proof. intros Hok Hl Hr. exact (hi_flat _ _ _ _ _ (hinv_run _ _ _ _ _ _ Hok Hl Hr)). Qed.

(** The change a handler is called for has taken effect before the handler makes
    a call; the call takes effect after it made it; and the call that brought the
    change about returns only after the handler's. *)
Theorem C111_in_order cf s0 progs ls s a t u e o b : progs_ok progs -> calls_ok ls -> hrun cf (hinit s0 progs) ls = Some (s, a ++ HAsk t u e o :: b) ->
  (exists id e0 o0, asking t u a id e0 o0) /\
  (forall i e' o', HE (LInv i u e' o') ∈ b -> e' = e /\ o' = o) /\
  (forall i e' o', HE (LInv i u e o) ∈ b -> HE (LLin i e' o') ∉ a) /\
  (forall id e0 o0 r, asking t u a id e0 o0 -> HE (LRes id r) ∈ b -> returned u e o id b).
Proof.
  intros Hok Hl Hr. destruct (nested _ _ _ _ _ _ _ _ _ _ _ Hok Hl Hr) as (H1 & H2 & H3). split; [done|]. split; [done|]. split; [|done].
  intros i e' o' Hi. by eapply only_after.
Qed.

(** While a call has not returned, some goroutine can go on. *)
Theorem C111_no_deadlock cf s0 progs ls s tr t T : progs_ok progs -> calls_ok ls -> hrun cf (hinit s0 progs) ls = Some (s, tr) ->
  c_threads (h_c s) !! t = Some T -> T <> TIdle [] -> exists t', is_Some (hstep cf s (HStep t')).
Proof. intros Hok Hl Hr. exact (some_steps _ _ _ _ _ _ _ (hinv_run _ _ _ _ _ _ Hok Hl Hr)). Qed.

(** If handlers make no further call, then whatever order the goroutines run in
    they can only do so much, *)
Theorem C111_ends cf s : Acc (fun s' s => exists t ev, hstep cf s (HStep t) = Some (s', ev)) s.
Proof. exact (hsteps_end cf s). Qed.

(** and when they can do no more all calls have returned. *)
Theorem C111_all_return cf s0 progs ls s tr : progs_ok progs -> calls_ok ls -> hrun cf (hinit s0 progs) ls = Some (s, tr) ->
  (exists sched s' tr', hrun cf s (HStep <$> sched) = Some (s', tr') /\ all_done s') /\
  ((forall t, hstep cf s (HStep t) = None) -> all_done s /\ forall id u e o, HE (LInv id u e o) ∈ tr -> exists r, HE (LRes id r) ∈ tr).
Proof.
  intros Hok Hl Hr. pose proof (hinv_run _ _ _ _ _ _ Hok Hl Hr) as Hi. split; [by eapply can_finish|]. intros Hn. by eapply all_returned.
Qed.

(** A handler that answers every change with another change is called for ever:
    no call that made a change returns. *)
Theorem C111_recursion cf s0 progs ls s tr : progs_ok progs -> calls_ok ls -> hrun cf (hinit s0 progs) ls = Some (s, tr) ->
  (forall id ev r, HE (LEv id ev) ∈ tr -> HE (LRes id r) ∈ tr -> exists a t u e o b e0 o0, tr = a ++ HAsk t u e o :: b /\ asking t u a id e0 o0) ->
  (forall t u e o id r, HAsk t u e o ∈ tr -> HE (LInv id u e o) ∈ tr -> HE (LRes id r) ∈ tr -> exists ev, HE (LEv id ev) ∈ tr) ->
  forall id ev r, HE (LEv id ev) ∈ tr -> HE (LRes id r) ∉ tr.
Proof. exact (recursion cf s0 progs ls s tr). Qed.

(** If one goroutine writes, and besides it only handlers do, handlers are called
    in the order of the changes. *)
Theorem C111_one_writer cf s0 progs w ls s tr : progs_ok progs -> calls_ok ls ->
  (forall t p, progs !! t = Some p -> t <> w -> Forall (fun x => reading x.2) p) ->
  hrun cf (hinit s0 progs) ls = Some (s, tr) -> heard (flat tr) `prefix_of` due cf s0 (flat tr).
Proof. exact (heard_in_order cf s0 progs w ls s tr). Qed.

(** Thread 0 adds a record; its handler asks for the record and finds it. *)
Definition ex_hprogs : gmap nat (list call) := {[0 := [(at_time 1, OAdd (ex_entry "s1" "r1"))]]}.
Lemma ex_hprogs_ok : progs_ok ex_hprogs.
Proof. intros t p. unfold ex_hprogs. rewrite lookup_singleton_Some. intros [_ <-]. repeat constructor; apply at_time_ok. Qed.
Definition ex_hask : list hlabel :=
  (HStep <$> replicate 10 0) ++ [HCall 0 1 (at_time 2) (OGet (ex_entry "s1" "x"))] ++ (HStep <$> replicate 5 1) ++ [HStep 0].

(** Thread 0 adds a record; its handler changes it, and so does the handler of
    that change. *)
Definition ex_hagain : list hlabel :=
  (HStep <$> replicate 10 0) ++ [HCall 0 1 (at_time 2) (OUpdate (ex_entry "s1" "r2") None)] ++
  (HStep <$> replicate 12 1) ++ [HCall 1 2 (at_time 3) (OUpdate (ex_entry "s1" "r3") None)] ++ (HStep <$> replicate 12 2).

(** What is told of a run: calls and returns, and whether a Get found anything. *)
Definition told (x : hev) : option string :=
  match x with
  | HE (LInv _ _ _ _) => Some "called" | HE (LEv _ _) => Some "handler" | HAsk _ _ _ _ => Some "handler calls"
  | HE (LRes _ (OutSingle (Some _) _)) => Some "found" | HE (LRes _ _) => Some "returned"
  | _ => None
  end%string.
Definition ex_story (ls : list hlabel) : option (list string) :=
  match hrun ex_cf (hinit new_simap ex_hprogs) ls with Some (_, tr) => Some (omap told tr) | None => None end.

Lemma ex_hcalls : calls_ok ex_hask /\ calls_ok ex_hagain.
Proof.
  unfold calls_ok, ex_hask, ex_hagain. split; repeat (apply Forall_app; split); try (apply Forall_fmap, Forall_forall; done); repeat constructor; apply at_time_ok.
Qed.

Example C111_example : progs_ok ex_hprogs /\ calls_ok ex_hask /\
  ex_story ex_hask = Some ["called"; "handler"; "handler calls"; "called"; "found"; "returned"]%string.
Proof. split; [exact ex_hprogs_ok|]. split; [apply ex_hcalls|]. vm_compute. reflexivity. Qed.

Example C111_example_one_writer : forall t p, ex_hprogs !! t = Some p -> t <> 0 -> Forall (fun x => reading x.2) p.
Proof. intros t p H. unfold ex_hprogs in H. apply lookup_singleton_Some in H as [<- _]. done. Qed.

Example C111_example_recursion : calls_ok ex_hagain /\
  ex_story ex_hagain = Some ["called"; "handler"; "handler calls"; "called"; "handler"; "handler calls"; "called"; "handler"]%string.
Proof. split; [apply ex_hcalls|]. vm_compute. reflexivity. Qed.

Print Assumptions C111_may_call.
Print Assumptions C111_as_before.
Print Assumptions C111_in_order.
Print Assumptions C111_no_deadlock.
Print Assumptions C111_ends.
Print Assumptions C111_all_return.
Print Assumptions C111_recursion.
Print Assumptions C111_one_writer.
