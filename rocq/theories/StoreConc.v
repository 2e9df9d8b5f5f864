(** Concurrent calls on one caching store: the lock of SyncIndexedMap
    (store/internal/cache.go) and the single reads and writes it protects.
    A schedule is any list of thread numbers. *)
From Coq Require Import ZArith NArith Ascii String.
From stdpp Require Import base gmap strings list.
From Verif Require Import GoBase Encoding Records Env SyncMap Tokens Cache.

Local Open Scope list_scope.

(** ** The code run while the lock is held *)

(** A program of small steps on the shared maps: each step changes them and
    goes on with what it has read. *)
Inductive mprog (R : Type) :=
  | MRet (r : R)
  | MStep (upd : items -> items) (next : items -> mprog R).
Arguments MRet {R}.
Arguments MStep {R}.

(** Running a program undisturbed. *)
Fixpoint run_m {R} (p : mprog R) (s : items) : items * R :=
  match p with
  | MRet r => (s, r)
  | MStep upd next => run_m (next s) (upd s)
  end.

(** A loop, one step for each element; [f] updates the shared maps and a local
    accumulator. *)
Fixpoint mfor {A B R} (l : list A) (f : A -> items * B -> items * B) (acc : B) (k : B -> mprog R) : mprog R :=
  match l with
  | [] => k acc
  | a :: l' => MStep (fun s => (f a (s, acc)).1) (fun s => mfor l' f (f a (s, acc)).2 k)
  end.

(** A read. *)
Definition mread {R} (next : items -> mprog R) : mprog R := MStep (fun s => s) next.

(** A loop that only writes, and one that only reads. *)
Definition mwrites {A R} (l : list A) (f : A -> items -> items) (k : mprog R) : mprog R :=
  mfor l (fun a '(s, u) => (f a s, u)) tt (fun _ => k).
Definition mreads {A B R} (l : list A) (f : A -> items -> B -> B) (acc : B) (k : B -> mprog R) : mprog R :=
  mfor l (fun a '(s, b) => (s, f a s b)) acc k.

(** store/internal/cache.go l.201-219, unindex: for every indexer, for every
    value, one change of the index. *)
Definition unindex_steps (ord : list (string * indexer entry)) (obj : entry) : list (string * string) :=
  flat_map (fun '(name, f) => (fun v => (name, v)) <$> f obj) ord.
Definition unindex_one (key : string) (nv : string * string) (s : items) : items :=
  match sm_indices s !! nv.1 with
  | None => s
  | Some idx => SIMap (sm_items s) (<[nv.1 := unindex_vals key [nv.2] idx]> (sm_indices s))
  end.

(** store/internal/cache.go l.181-198, the loop of reindex: for every indexer,
    make the index if needed, then add the key for every value. *)
Definition reindex_steps (ord : list (string * indexer entry)) (obj : entry) : list (string * option string) :=
  flat_map (fun '(name, f) => (name, None) :: ((fun v => (name, Some v)) <$> f obj)) ord.
Definition reindex_one (key : string) (nv : string * option string) (s : items) : items :=
  let idx := default ∅ (sm_indices s !! nv.1) in
  SIMap (sm_items s)
    (<[nv.1 := match nv.2 with None => idx | Some v => reindex_vals key [v] idx end]> (sm_indices s)).

(** Common tail of Patch (l.59-64) and Update (l.83-88): [cur] was read
    before. *)
Definition store_prog {R} (cf : config) (e : env) (key : string) (obj : entry) (cur : option (vc entry))
    (k : mprog R) : mprog R :=
  MStep (fun s => SIMap (<[key := next_vc cur obj]> (sm_items s)) (sm_indices s)) (fun _ =>
  mwrites (match cur with Some c => unindex_steps (indexer_loop (cf_indexers cf) e "unindex") (vc_res c) | None => [] end)
    (unindex_one key)
  (mwrites (reindex_steps (indexer_loop (cf_indexers cf) e "reindex") obj) (reindex_one key) k)).

(** What a call delivers: its result and the events handlers will get. *)
Notation answer := (out * list event)%type.

(** store/internal/cache.go l.68-90, Update; [ok] and [bad] say what the
    caller makes of the result. *)
Definition update_prog (cf : config) (e : env) (key : string) (obj : entry) (conds : list cond)
    (ok : option entry -> answer) (bad : conderr -> answer) : mprog answer :=
  mread (fun s =>
    let cur := sm_items s !! key in
    match check_conds conds cur with
    | Some c => MRet (bad c)
    | None => store_prog cf e key obj cur (MRet (ok (vc_res <$> cur)))
    end).

(** store/internal/cache.go l.40-66, Patch as Accumulate (store/cache.go
    l.78-94) calls it. *)
Definition patch_prog (cf : config) (e : env) (key : string) (src : source_ref) (partial : option vrec)
    : mprog answer :=
  mread (fun s =>
    let cur := sm_items s !! key in
    match patch_record e src partial (vc_res <$> cur) with
    | Ok obj => store_prog cf e key obj cur (MRet (OutErr None, delta_events cf (vc_res <$> cur) obj))
    | Err PNoChange => MRet (OutErr None, [])
    | Err p => MRet (OutErr (Some (SPatch p)), delta_events cf None zero_entry)
    | Panic => MRet (OutPanic, [])
    end).

(** store/internal/cache.go l.92-101, Delete. *)
Definition delete_prog (cf : config) (e : env) (key : string) : mprog answer :=
  mread (fun s =>
    match sm_items s !! key with
    | None => MRet (OutErr None, [])
    | Some x =>
        MStep (fun s => SIMap (delete key (sm_items s)) (sm_indices s)) (fun _ =>
        mwrites (unindex_steps (indexer_loop (cf_indexers cf) e "unindex") (vc_res x)) (unindex_one key)
          (MRet (OutErr None, emit (cf_on_delete cf) (EvDelete (vc_res x)))))
    end).

(** store/internal/cache.go l.110-126, Replace: the new map is built by reading
    the old one, then installed; the indices are emptied and refilled. *)
Definition replace_prog (cf : config) (e : env) (m : gmap string entry) : mprog answer :=
  mreads (env_iter e "replace-items" _ (map_to_list m))
    (fun kv s acc => <[kv.1 := next_vc (sm_items s !! kv.1) kv.2]> acc) ∅ (fun itemcc =>
  MStep (fun s => SIMap itemcc (sm_indices s)) (fun _ =>
  MStep (fun s => SIMap (sm_items s) ∅) (fun _ =>
  mwrites (flat_map (fun '(k, v) => (fun x => (k, x)) <$>
             reindex_steps (indexer_loop (cf_indexers cf) e ("reindex " ++ k)%string) v)
             (env_iter e "replace-index" _ (map_to_list m)))
    (fun kx => reindex_one kx.1 kx.2)
    (MRet (OutErr None, []))))).

(** store/internal/cache.go l.103-108, Get. *)
Definition get_prog (key : string) : mprog answer :=
  mread (fun s => MRet (OutSingle ((fun v => (vc_res v, etag_of v)) <$> sm_items s !! key) None, [])).

(** store/internal/cache.go l.128-136, List: the order of the iteration is
    fixed at its start, the values are read one by one. *)
Definition list_prog (e : env) (k : list entry -> answer) : mprog answer :=
  mread (fun s =>
    mreads (fst <$> env_iter e "list" _ (map_to_list (sm_items s)))
      (fun key s acc => match sm_items s !! key with Some v => acc ++ [vc_res v] | None => acc end) []
      (fun l => MRet (k l))).

(** store/internal/cache.go l.138-151, IndexValues. *)
Definition values_prog (cf : config) (e : env) (name : string) : mprog answer :=
  match cf_indexers cf !! name with
  | None => MRet (OutValues [] (Some SNoIndex), [])
  | Some _ =>
      mread (fun s =>
        mreads (fst <$> env_iter e "values" _ (map_to_list (default ∅ (sm_indices s !! name))))
          (fun v s acc => match default ∅ (sm_indices s !! name) !! v with Some _ => acc ++ [v] | None => acc end) []
          (fun l => MRet (OutValues l None, [])))
  end.

(** store/internal/cache.go l.153-175, Index; a missing item is a zero
    container. *)
Definition index_prog (cf : config) (e : env) (name : string) (x : entry) (k : list entry -> answer) : mprog answer :=
  match cf_indexers cf !! name with
  | None => MRet (OutSet [] "" (Some SNoIndex), [])
  | Some f =>
      mreads (f x) (fun v s acc => acc ∪ default ∅ (default ∅ (sm_indices s !! name) !! v)) (∅ : gset string) (fun keys =>
      mreads (env_iter e "index" _ (elements keys))
        (fun key s acc => acc ++ [match sm_items s !! key with Some v => vc_res v | None => zero_entry end]) []
        (fun l => MRet (k l)))
  end.

(** ** A call *)

(** What a call does: return without touching the map, or run a program under
    the lock, held for writing or reading. *)
Inductive plan :=
  | PNow (a : answer)
  | PLock (write : bool) (p : mprog answer).

(** store/cache.go l.110-141 and l.143-174: the selector is applied after the
    lock is released. *)
Definition select (cf : config) (e : env) (sel : option selector) (all : list entry) : answer :=
  match sel with
  | None => (OutSet all "" None, [])
  | Some sel => (apply_selector cf e all sel, [])
  end.

(** store/cache.go l.78-245: what each method does before taking the lock. *)
Definition plan_of (cf : config) (e : env) (o : op) : plan :=
  let with_key (x : entry) (bad : string -> answer) (k : string -> plan) :=
    match cf_key cf x with Panic => PNow (OutPanic, []) | Err m => PNow (bad m) | Ok key => k key end in
  let key_err (m : string) : answer := (OutErr (Some (SKey m)), []) in
  let cond_err (c : conderr) : answer := (OutErr (Some (SCond c)), []) in
  match o with
  | OAdd x =>
      with_key x key_err (fun key =>
        let x' := with_updated (env_now e) x in
        PLock true (update_prog cf e key x' [WhenNotExists] (fun _ => (OutErr None, emit (cf_on_add cf) (EvAdd x'))) cond_err))
  | OUpdate x if_match =>
      with_key x key_err (fun key =>
        match get_conditional if_match with
        | Ok conds =>
            let x' := with_updated (env_now e) x in
            PLock true (update_prog cf e key x' conds (fun prev => (OutErr None, delta_events cf prev x')) cond_err)
        | _ => PNow (OutErr (Some SETag), [])
        end)
  | ODelete x => with_key x key_err (fun key => PLock true (delete_prog cf e key))
  | OReplace l =>
      match keyed cf l ∅ with
      | Panic => PNow (OutPanic, [])
      | Err m => PNow (key_err m)
      | Ok m => PLock true (replace_prog cf e m)
      end
  | OAccumulate src r =>
      with_key (Entry zero_meta (TypeMeta "" "") r) key_err (fun key => PLock true (patch_prog cf e key src r))
  | OGet x => with_key x (fun m => (OutSingle None (Some (SKey m)), [])) (fun key => PLock false (get_prog key))
  | OList sel => PLock false (list_prog e (select cf e sel))
  | OIndex n x sel => PLock false (index_prog cf e n x (select cf e sel))
  | OIndexValues n => PLock false (values_prog cf e n)
  end.

(** ** Threads *)

Notation call := (env * op)%type.

(** A thread and the calls it has still to make.  Calls are numbered. *)
Inductive tstate :=
  | TIdle (todo : list call)
  | TWait (id : nat) (e : env) (o : op) (todo : list call)                 (* called, not yet in the lock *)
  | TIn (id : nat) (write : bool) (p : mprog answer) (todo : list call)    (* holding the lock *)
  | TOut (id : nat) (evs : list event) (r : out) (todo : list call).       (* lock released, events to deliver *)

(** sync.RWMutex: a writer excludes everyone, readers only writers.  (That a
    waiting writer also holds up new readers only rules out schedules.) *)
Record cstate := CState {
  c_shared : items;
  c_writer : option nat;
  c_readers : gset nat;
  c_threads : gmap nat tstate;
  c_next : nat;
}.

(** What can be seen, plus [LLin] (lock acquired, or call answered without
    it), [LStep] and [LRel]. *)
Inductive label :=
  | LInv (id t : nat) (e : env) (o : op)
  | LLin (id : nat) (e : env) (o : op)
  | LStep (id : nat)
  | LRel (id : nat)
  | LEv (id : nat) (ev : event)
  | LRes (id : nat) (r : out).

Definition set_thread (c : cstate) (t : nat) (T : tstate) : cstate :=
  CState (c_shared c) (c_writer c) (c_readers c) (<[t := T]> (c_threads c)) (c_next c).

(** One step of thread [t]; [None] if it has finished or must wait. *)
Definition cstep (cf : config) (c : cstate) (t : nat) : option (label * cstate) :=
  match c_threads c !! t with
  | None => None
  | Some (TIdle []) => None
  | Some (TIdle ((e, o) :: todo)) =>
      let id := c_next c in
      Some (LInv id t e o, CState (c_shared c) (c_writer c) (c_readers c) (<[t := TWait id e o todo]> (c_threads c)) (S id))
  | Some (TWait id e o todo) =>
      match plan_of cf e o with
      | PNow (r, ev) => Some (LLin id e o, set_thread c t (TOut id ev r todo))
      | PLock true p =>
          if bool_decide (c_writer c = None /\ c_readers c = ∅) then
            Some (LLin id e o, CState (c_shared c) (Some t) (c_readers c) (<[t := TIn id true p todo]> (c_threads c)) (c_next c))
          else None
      | PLock false p =>
          if bool_decide (c_writer c = None) then
            Some (LLin id e o, CState (c_shared c) None ({[t]} ∪ c_readers c) (<[t := TIn id false p todo]> (c_threads c)) (c_next c))
          else None
      end
  | Some (TIn id w (MStep upd next) todo) =>
      Some (LStep id, CState (upd (c_shared c)) (c_writer c) (c_readers c)
                             (<[t := TIn id w (next (c_shared c)) todo]> (c_threads c)) (c_next c))
  | Some (TIn id w (MRet (r, ev)) todo) =>
      Some (LRel id, CState (c_shared c) (if w then None else c_writer c) (if w then c_readers c else c_readers c ∖ {[t]})
                            (<[t := TOut id ev r todo]> (c_threads c)) (c_next c))
  | Some (TOut id (ev :: evs) r todo) => Some (LEv id ev, set_thread c t (TOut id evs r todo))
  | Some (TOut id [] r todo) => Some (LRes id r, set_thread c t (TIdle todo))
  end.

(** A schedule: threads that cannot run when chosen do nothing. *)
Fixpoint crun (cf : config) (c : cstate) (sched : list nat) : cstate * list label :=
  match sched with
  | [] => (c, [])
  | t :: sched' =>
      match cstep cf c t with
      | None => crun cf c sched'
      | Some (l, c') => let '(c2, tr) := crun cf c' sched' in (c2, l :: tr)
      end
  end.

(** Threads with their programs, on a store with contents [s]. *)
Definition cinit (s : items) (progs : gmap nat (list call)) : cstate :=
  CState s None ∅ (TIdle <$> progs) 0.
