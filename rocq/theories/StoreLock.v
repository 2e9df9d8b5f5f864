(** Index functions that call the store that called them: the lock of
    SyncIndexedMap (store/internal/cache.go l.25), which its methods hold while
    they call index functions.

    sync.RWMutex as documented and implemented: writers exclude each other; one
    that has its turn keeps out readers that come later and waits for those that
    are in; when it is done, all readers that wait are in before the next writer
    has its turn.

    What calls return is not part of this model (StoreConc.v has it, without such
    calls), nor is what index functions do besides calls.  Calls that end before
    they take the lock (a key function that fails, store/cache.go l.79-82, l.97-100,
    l.177-180, l.193-203, l.223-226, l.237-240) are left out.  Key functions are
    called without the lock (the same lines, and l.112-120 after the lock was
    released), so calls they make are like those of their callers. *)
From Coq Require Import ZArith NArith Ascii String.
From stdpp Require Import base gmap strings list.
From Verif Require Import GoBase Encoding Records Env SyncMap Tokens Cache Run.

Local Open Scope list_scope.

(** store/internal/cache.go l.42, l.70, l.93, l.111 (Lock) and l.104, l.129, l.139,
    l.154 (RLock). *)
Definition locks_writing (o : op) : bool :=
  match o with
  | OAdd _ | OUpdate _ _ | ODelete _ | OReplace _ | OAccumulate _ _ => true
  | OGet _ | OList _ | OIndex _ _ _ | OIndexValues _ => false
  end.

(** store/internal/cache.go l.163, l.182, l.203: the calls in which index functions
    are called. *)
Definition calls_index_functions (o : op) : bool :=
  match o with OIndex _ _ _ => true | _ => locks_writing o end.

(** Where a call is (store/internal/cache.go l.42-43, l.104-105). *)
Inductive kframe :=
  | KWait (o : op)     (* RLock waits for a writer *)
  | KRead (o : op)     (* has the lock for reading *)
  | KMutex (o : op)    (* Lock waits for another writer *)
  | KDrain (o : op)    (* Lock has its turn and waits for the readers *)
  | KWrite (o : op).   (* has the lock *)

(** store/internal/cache.go l.25, the mutex: if a writer has its turn, and how many
    readers are in.  [k_g]: the calls each goroutine is in, innermost first. *)
Record kstate := KState { k_busy : bool; k_readers : nat; k_g : list (list kframe) }.

(** Calls and returns of the store's methods (store/store.go l.75-95). *)
Inductive kev := KCalled (g : nat) (o : op) | KReturned (g : nat) (o : op).

(** store/internal/cache.go l.40-175: the steps of a goroutine in a method. *)
Inductive klabel :=
  | KCall (g : nat) (o : op)   (* by a goroutine, or an index function it runs *)
  | KTake (g : nat)            (* Lock has its turn *)
  | KEnter (g : nat)           (* the readers are out *)
  | KEnd (g : nat).            (* the method returns or panics: the deferred unlock *)

(** An index function may be running (store/internal/cache.go l.163, l.182, l.203). *)
Definition in_index_function (fs : list kframe) : bool :=
  match fs with KRead o :: _ | KWrite o :: _ => calls_index_functions o | _ => false end.

(** store/internal/cache.go l.43, l.71, l.94, l.112: Unlock lets in those that wait
    in RLock. *)
Definition admit_reader (fs : list kframe) : list kframe :=
  match fs with KWait o :: rest => KRead o :: rest | _ => fs end.
Definition queues (fs : list kframe) : bool := match fs with KWait _ :: _ => true | _ => false end.

(** store/internal/cache.go l.42-43, l.70-71, l.93-94, l.104-105, l.111-112, l.129-130,
    l.139-140, l.154-155.  A call and its attempt to take the lock are one step. *)
Definition kstep (s : kstate) (l : klabel) : option (kstate * list kev) :=
  match l with
  | KCall g o =>
      match k_g s !! g with
      | Some fs =>
          if match fs with [] => true | _ => in_index_function fs end then
            if locks_writing o then Some (KState (k_busy s) (k_readers s) (<[g := KMutex o :: fs]> (k_g s)), [KCalled g o])
            else if k_busy s then Some (KState true (k_readers s) (<[g := KWait o :: fs]> (k_g s)), [KCalled g o])
            else Some (KState false (S (k_readers s)) (<[g := KRead o :: fs]> (k_g s)), [KCalled g o])
          else None
      | None => None
      end
  | KTake g =>
      match k_g s !! g with
      | Some (KMutex o :: fs) =>
          if k_busy s then None else Some (KState true (k_readers s) (<[g := KDrain o :: fs]> (k_g s)), [])
      | _ => None
      end
  | KEnter g =>
      match k_g s !! g, k_readers s with
      | Some (KDrain o :: fs), O => Some (KState (k_busy s) 0 (<[g := KWrite o :: fs]> (k_g s)), [])
      | _, _ => None
      end
  | KEnd g =>
      match k_g s !! g with
      | Some (KRead o :: fs) => Some (KState (k_busy s) (pred (k_readers s)) (<[g := fs]> (k_g s)), [KReturned g o])
      | Some (KWrite o :: fs) =>
          let gs := <[g := fs]> (k_g s) in
          Some (KState false (k_readers s + length (filter (fun fs => queues fs = true) gs)) (admit_reader <$> gs), [KReturned g o])
      | _ => None
      end
  end.

(** store/internal/cache.go l.32-38, with [n] goroutines. *)
Definition k_start (n : nat) : kstate := KState false 0 (replicate n []).
Definition krun := run kstep.

(** Steps that are not a new call. *)
Definition goes_on (l : klabel) : bool := match l with KCall _ _ => false | _ => true end.
