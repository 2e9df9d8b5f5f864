(** The clock of the serving loop: how long it buffers updates and drains flush
    requests.  The steps are those of Manager.v. *)
From Coq Require Import ZArith NArith Ascii String Lia.
From stdpp Require Import base gmap strings list.
From Verif Require Import GoBase Encoding Records Messages Env SyncMap Tokens Cache Dispatch Diff Run Manager.

Local Open Scope list_scope.
Local Open Scope Z_scope.

(** eventsource/manager.go l.16-43, ManagerConfig with the two durations, in
    nanoseconds. *)
Record tmcfg := TMCfg {
  tc_stores : list nat;
  tc_store_cfg : nat -> config;
  tc_buffer : Z;              (* UpdateBufferTime *)
  tc_batch : Z;               (* UpdateBatchSize *)
  tc_delay : Z;               (* FlushDelay *)
  tc_flush_batch : Z;         (* FlushBatchSize *)
}.

(** l.151 and l.181: the tests of the durations. *)
Definition tc_cfg (c : tmcfg) : mcfg :=
  MCfg (tc_stores c) (tc_store_cfg c) (0 <? tc_buffer c) (tc_batch c) (0 <? tc_delay c) (tc_flush_batch c).

(** The manager, the time, and when the context of the current nextN is due
    (l.152 and l.182, context.WithTimeout). *)
Record tmstate := TMState {
  tm_m : mstate;
  tm_now : Z;
  tm_until : Z;
}.

Definition tm_init (w : stores) (now : Z) : tmstate := TMState (m_init w) now 0.

(** Time passes, or the manager takes a step. *)
Inductive tmlabel :=
  | TMTime (dt : Z)
  | TMStep (l : mlabel).

(** l.152 and l.182: the context of nextN is made on the way in. *)
Definition new_until (c : tmcfg) (p p' : spc) (now until : Z) : Z :=
  match p, p' with
  | SBuffer _, SBuffer _ => until
  | _, SBuffer _ => now + tc_buffer c
  | SDrain _, SDrain _ => until
  | _, SDrain _ => now + tc_delay c
  | _, _ => until
  end.

(** l.341-358: the context of nextN is done once it is due, or with the context
    of the manager. *)
Definition tm_enabled (s : tmstate) (l : mlabel) : bool :=
  match l with
  | LServe _ ATimeout => m_cancelled (tm_m s) || (tm_until s <=? tm_now s)
  | _ => true
  end.

(** A step; events carry their time. *)
Definition tmstep (c : tmcfg) (s : tmstate) (l : tmlabel) : option (tmstate * list (Z * mev)) :=
  match l with
  | TMTime dt => if 0 <=? dt then Some (TMState (tm_m s) (tm_now s + dt) (tm_until s), []) else None
  | TMStep l =>
      if tm_enabled s l then
        match mstep (tc_cfg c) (tm_m s) l with
        | Some (m', ev) =>
            Some (TMState m' (tm_now s) (new_until c (m_serve (tm_m s)) (m_serve m') (tm_now s) (tm_until s)), pair (tm_now s) <$> ev)
        | None => None
        end
      else None
  end.

Definition tmrun (c : tmcfg) : tmstate -> list tmlabel -> option (tmstate * list (Z * mev)) := run (tmstep c).
