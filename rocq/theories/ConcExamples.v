(** Concrete interleavings. *)
From Coq Require Import ZArith NArith Ascii String Lia.
From stdpp Require Import base gmap strings list.
From Verif Require Import GoBase Encoding Records MessageFacts Env SyncMap Tokens Cache SpecStore StoreFacts ListFacts
  EventFacts StoreExamples StoreConc ConcFacts ConcLemmas.

Local Open Scope list_scope.
Local Opaque vanflow_registry builtin_types record_types Encode Decode.

(** Threads 0 and 1 write the same key; thread 2 lists, then looks up by
    source. *)
Definition ex_progs : gmap nat (list call) :=
  <[0 := [(at_time 1, OUpdate (ex_entry "s1" "r1") None)]]>
  (<[1 := [(at_time 2, OUpdate (ex_entry "s1" "r2") None)]]>
  {[2 := [(at_time 3, OList None); (at_time 4, OIndex index_by_source (ex_entry "s1" "r2") None)]]}).

Lemma ex_progs_ok : progs_ok ex_progs.
Proof.
  intros t p. unfold ex_progs. rewrite !lookup_insert_Some, lookup_singleton_Some.
  intros [[_ <-]|[_ [[_ <-]|[_ [_ <-]]]]]; repeat constructor; apply at_time_ok.
Qed.

(** Thread 0 has released the lock after 8 steps; thread 1 then does all its
    work before thread 0 goes on. *)
Definition ex_sched : list nat :=
  [2; 2; 0] ++ replicate 3 2 ++ replicate 8 0 ++ replicate 40 1 ++ replicate 4 0 ++ replicate 12 2.
Definition ex_crun : cstate * list label := crun ex_cf (cinit new_simap ex_progs) ex_sched.

Lemma ex_crun_eq : crun ex_cf (cinit new_simap ex_progs) ex_sched = (ex_crun.1, ex_crun.2).
Proof. unfold ex_crun. generalize (crun ex_cf (cinit new_simap ex_progs) ex_sched). by intros []. Qed.

Lemma ex_progs_dom t p : ex_progs !! t = Some p -> t < 3.
Proof. unfold ex_progs. rewrite !lookup_insert_Some, lookup_singleton_Some. lia. Qed.

(** The source names of the changes heard. *)
Definition heard_names (tr : list label) : list string :=
  (fun ev => match ev with EvAdd e | EvChange _ e | EvDelete e => sr_name (m_source (e_meta e)) end) <$> heard tr.
Definition due_names (tr : list label) : list string :=
  (fun ev => match ev with EvAdd e | EvChange _ e | EvDelete e => sr_name (m_source (e_meta e)) end) <$> due ex_cf new_simap tr.

Definition finished (c : cstate) (n : nat) : bool :=
  forallb (fun t => match c_threads c !! t with Some (TIdle []) => true | _ => false end) (seq 0 n).

Definition final_name : option string :=
  (fun x => sr_name (m_source (e_meta x.1))) <$> contents (c_shared ex_crun.1) !! "s1"%string.

Definition list_lengths : list (nat * nat) :=
  omap (fun l => match l with LRes i (OutSet x _ None) => Some (i, length x) | _ => None end) ex_crun.2.

(** The change that took effect first is heard last, and describes a value no
    longer stored; the listing ran before both writes, the lookup after. *)
Lemma ex_reordered :
  finished ex_crun.1 3 = true /\ heard_names ex_crun.2 = ["r2"; "r1"]%string /\ due_names ex_crun.2 = ["r1"; "r2"]%string /\
  final_name = Some "r2"%string /\ list_lengths = [(0, 0); (3, 1)].
Proof. vm_compute. repeat split. Qed.

Lemma finished_all c n : finished c n = true -> (forall t, is_Some (c_threads c !! t) -> t < n) ->
  forall t T, c_threads c !! t = Some T -> T = TIdle [].
Proof.
  unfold finished. rewrite forallb_forall. intros H Hn t T Ht. specialize (H t). rewrite Ht in H.
  assert (t < n) by (apply Hn; eauto). assert (In t (seq 0 n)) as Hin by (apply in_seq; lia). specialize (H Hin).
  by destruct T as [[]|?|?|?].
Qed.

(** Handlers may see changes to one key in the wrong order. *)
Lemma events_out_of_order : exists cf progs sched c tr,
  observing cf /\ progs_ok progs /\ crun cf (cinit new_simap progs) sched = (c, tr) /\
  (forall t T, c_threads c !! t = Some T -> T = TIdle []) /\
  heard tr <> due cf new_simap tr.
Proof.
  exists ex_cf, ex_progs, ex_sched, ex_crun.1, ex_crun.2.
  destruct ex_reordered as (Hf & Hh & Hd & _).
  split; [exact ex_cf_observing|]. split; [exact ex_progs_ok|]. split; [exact ex_crun_eq|]. split.
  - apply (finished_all _ 3 Hf). intros t Ht.
    apply (threads_same ex_cf new_simap ex_progs ex_sched ex_crun.1 ex_crun.2 t ex_progs_ok ex_crun_eq) in Ht as [p Hp].
    by apply ex_progs_dom in Hp.
  - intros E. unfold heard_names in Hh. rewrite E in Hh. unfold due_names in Hd. rewrite Hd in Hh. discriminate Hh.
Qed.

(** One writer, one reader. *)
Definition ex_progs1 : gmap nat (list call) :=
  <[0 := [(at_time 1, OAdd (ex_entry "s1" "r1")); (at_time 2, OUpdate (ex_entry "s1" "r2") None)]]>
  {[1 := [(at_time 3, OGet (ex_entry "s1" "x"))]]}.
Lemma ex_progs1_ok : progs_ok ex_progs1 /\
  (forall t p, ex_progs1 !! t = Some p -> t <> 0 -> Forall (fun x => reading x.2) p).
Proof.
  split; intros t p; unfold ex_progs1; rewrite lookup_insert_Some, lookup_singleton_Some.
  - intros [[_ <-]|[_ [_ <-]]]; repeat constructor; apply at_time_ok.
  - intros [[<- <-]|[_ [_ <-]]] Hne; [done|]. repeat constructor.
Qed.
