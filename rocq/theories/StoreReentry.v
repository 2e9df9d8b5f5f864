(** Event handlers that call the store that called them (store/cache.go l.78-94
    and l.176-237), over StoreConc.v.

    OnAdd, OnChange and OnDelete run on the goroutine of the call that made the
    change, after the lock was released (the methods of SyncIndexedMap release
    it when they return).  There a handler may call any method of the store, one
    call after the other.  Such a call is a thread of its own in StoreConc.v, and
    the caller waits until it is done.  What else handlers do is left out, as are
    key and index functions that call the store. *)
From Coq Require Import ZArith NArith Ascii String.
From stdpp Require Import base gmap strings list.
From Verif Require Import GoBase Encoding Records Env SyncMap Tokens Cache StoreConc Run.

Local Open Scope list_scope.

(** store/cache.go l.33-51 (the handlers of a cache) and the goroutines that are
    in one of them. *)
Record hstate := HS {
  h_c : cstate;
  h_in : gset nat;        (* threads in a handler *)
  h_sub : gmap nat nat;   (* the thread that stands for the last call of their handler *)
}.

(** A goroutine goes on; a handler on goroutine [t] calls the store (store/cache.go
    l.88-92, l.186-188, l.214-218, l.228-230: where handlers are called).  Events: those of
    StoreConc.v, and the call. *)
Inductive hlabel := HStep (t : nat) | HCall (t u : nat) (e : env) (o : op).
Inductive hev := HE (l : label) | HAsk (t u : nat) (e : env) (o : op).

(** The call a handler made has returned, if it made any (calls are synchronous:
    store/cache.go l.88-92, l.186-188, l.214-218, l.228-230 run on the caller's goroutine). *)
Definition back (s : hstate) (t : nat) : bool :=
  match h_sub s !! t with
  | None => true
  | Some u => match c_threads (h_c s) !! u with Some (TIdle []) => true | _ => false end
  end.

(** store/cache.go l.78-94, l.176-190, l.192-220, l.222-232: a handler runs until
    the goroutine's next step, and the goroutine takes none while a call of the
    handler has not returned. *)
Definition hstep (cf : config) (s : hstate) (l : hlabel) : option (hstate * list hev) :=
  match l with
  | HStep t =>
      if back s t then
        match cstep cf (h_c s) t with
        | Some (l, c') =>
            Some (HS c' (match l with LEv _ _ => {[t]} ∪ h_in s | _ => h_in s ∖ {[t]} end) (delete t (h_sub s)), [HE l])
        | None => None
        end
      else None
  | HCall t u e o =>
      if bool_decide (t ∈ h_in s) && back s t && bool_decide (map_Forall (fun k _ => k < u) (c_threads (h_c s))) then
        Some (HS (set_thread (h_c s) u (TIdle [(e, o)])) (h_in s) (<[t := u]> (h_sub s)), [HAsk t u e o])
      else None
  end.

(** Runs (store/cache.go, all methods). *)
Notation hrun cf := (run (hstep cf)).

(** store/cache.go l.53-76, NewDefaultCachingStore: nobody is in a handler. *)
Definition hinit (s : items) (progs : gmap nat (list call)) : hstate := HS (cinit s progs) ∅ ∅.
