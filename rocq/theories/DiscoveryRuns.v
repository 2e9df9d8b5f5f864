(** Discovery: Run called several times, one after the other or at once. *)
From Coq Require Import ZArith NArith Ascii String Lia.
From stdpp Require Import base gmap strings list sorting.
From Verif Require Import GoBase Encoding Records Messages Run Keepalive Discovery.

Local Open Scope list_scope.

(** eventsource/discovery.go l.49-88.  What a call of Run has for itself: its
    place in Run, its handler goroutine, and whether its context has ended.  Each
    call has its own receiver, context and handler goroutine; the map, the two
    channels and the lock belong to the Discovery. *)
Record rctl := RCtl { rc_run : rpc; rc_hand : hpc; rc_cancelled : bool }.
(** Before the call. *)
Definition rc_none : rctl := RCtl RIdle HNone false.

(** The calls of Run are numbered.  In [ms_core] the fields of a single call mean
    nothing; [ms_owner] is the number of the step that left a call blocked. *)
Record mstate := MState { ms_core : dstate; ms_runs : gmap nat rctl; ms_owner : nat }.

Definition ctl_at (s : mstate) (r : nat) : rctl := default rc_none (ms_runs s !! r).

(** What the goroutines of call [r] see (l.49-88: their own call's state, and the
    fields of the Discovery, l.17-24). *)
Definition focus (s : mstate) (r : nat) : dstate :=
  let d := ms_core s in
  let c := ctl_at s r in
  DState (d_map d) (d_disc d) (d_forg d) (d_held d) (rc_run c) (rc_hand c) (rc_cancelled c) (d_watches d) (d_now d) (d_crashed d).

Definition m_init (now : Z) : mstate := MState (d_init now) ∅ 0.

(** A step of call [r], or of a user or a watch (then [r] only names who waits):
    as in Discovery.v, with the call's own state.  A blocked call is freed under
    the number it was made under. *)
Definition mstep (s : mstate) (l : nat * dlabel) : option (mstate * list (nat * dev)) :=
  let '(r, lb) := l in
  if match lb with LUnblock => bool_decide (r = ms_owner s) | _ => true end then
    match dstep (focus s r) lb with
    | None => None
    | Some (d, ev) =>
        Some (MState d (<[r := RCtl (d_run d) (d_hand d) (d_cancelled d)]> (ms_runs s))
                (match d_held (ms_core s), d_held d with None, Some _ => r | _, _ => ms_owner s end),
              (pair r) <$> ev)
    end
  else None.

Definition mrun := run mstep.
