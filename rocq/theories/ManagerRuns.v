(** The manager: Run called several times, one after the other or at once, and
    updates published before it is called. *)
From Coq Require Import ZArith NArith Ascii String.
From stdpp Require Import base gmap strings list.
From Verif Require Import GoBase Encoding Records Messages Env SyncMap Tokens Cache Dispatch Diff Run Manager.

Local Open Scope list_scope.

(** eventsource/manager.go l.73-78.  What a call of Run has for itself: where its
    serve is, whether its listenFlushes and sendRecords go on, and its context.
    The channels (l.51-57) and the stores belong to the Manager. *)
Record nctl := NCtl { nc_serve : spc; nc_listening : bool; nc_sending : bool; nc_cancelled : bool }.
(** Before the call there is nothing; the call starts the goroutines. *)
Definition nc_none : nctl := NCtl SStopped false false false.
Definition nc_start : nctl := NCtl SIdle true true false.

(** The calls of Run are numbered.  In [n_core] the fields of a single call mean
    nothing. *)
Record nstate := NState { n_core : mstate; n_runs : gmap nat nctl }.

Definition nctl_at (s : nstate) (r : nat) : nctl := default nc_none (n_runs s !! r).

(** What the goroutines of call [r] see. *)
Definition nfocus (s : nstate) (r : nat) : mstate :=
  let m := n_core s in
  let c := nctl_at s r in
  MState (m_changes m) (m_flushes m) (m_sends m) (nc_serve c) (nc_listening c) (nc_sending c) (nc_cancelled c) (m_crashed m) (m_stores m).

(** l.59-67, NewManager: Run was not called. *)
Definition n_init (w : stores) : nstate := NState (MState [] 0 [] SStopped false false false false w) ∅.

Inductive nlabel :=
  | NRun (r : nat)                   (* Run is called *)
  | NStep (r : nat) (l : mlabel).    (* a step of call [r]; or of a publisher or a user of a store, then [r] says nothing *)

(** A step of call [r] is that of Manager.v with the call's own state.  A message
    that sendRecords takes and sends is one step, as there. *)
Definition nstep (c : mcfg) (s : nstate) (l : nlabel) : option (nstate * list (nat * mev)) :=
  match l with
  | NRun r =>
      if m_crashed (n_core s) then None
      else match n_runs s !! r with
      | Some _ => None
      | None => Some (NState (n_core s) (<[r := nc_start]> (n_runs s)), [])
      end
  | NStep r l =>
      match mstep c (nfocus s r) l with
      | None => None
      | Some (m, ev) =>
          Some (NState m (match n_runs s !! r with
                          | Some _ => <[r := NCtl (m_serve m) (m_listening m) (m_sending m) (m_cancelled m)]> (n_runs s)
                          | None => n_runs s
                          end), pair r <$> ev)
      end
  end.

Definition nrun (c : mcfg) := run (nstep c).
