(** Model of the goroutine that asks a discovered source for its records
    (cmd/vanflow-tool/serve.go l.164-177; log.go l.74-86 is the same), with
    FlushOnFirstMessage (eventsource/flush.go l.13-37) and SendFlush
    (eventsource/client.go l.153-165).

    One goroutine of one source.  Its context [flushCtx] has a deadline of five
    seconds and is a child of the tool's.  The client's handlers run whenever a
    message comes (Client.v has them in full; C52).  What the sender returns is a
    label: nothing, or an error of which only what errors.Is can tell is kept. *)
From Coq Require Import ZArith.
From stdpp Require Import base list.
From Verif Require Import Run.

Local Open Scope list_scope.

(** context.DeadlineExceeded and context.Canceled. *)
Inductive cerr := CDeadline | CCanceled.
(** An error: which of the two it wraps. *)
Record serr := SErr { e_deadline : bool; e_canceled : bool }.
(** errors.Is. *)
Definition err_is (e : serr) (c : cerr) : bool := match c with CDeadline => e_deadline e | CCanceled => e_canceled e end.
(** ctx.Err() returned as an error. *)
Definition err_of (c : cerr) : serr := match c with CDeadline => SErr true false | CCanceled => SErr false true end.

(** The context a flush is sent with: [flushCtx] or the tool's. *)
Inductive with_ctx := Within | Outer.

Inductive fpc :=
  | FStart                       (* l.165 *)
  | FReg1                        (* flush.go l.16 *)
  | FReg2                        (* flush.go l.17 *)
  | FSelect                      (* flush.go l.18 *)
  | FSending                     (* flush.go l.20: client.go l.161 *)
  | FCheck (e : serr)            (* l.168 *)
  | FAgain                       (* l.169: client.go l.161 *)
  | FReturned (r : option serr). (* l.171-176 *)

Record fstate := FState {
  f_pc : fpc;
  f_now : Z;
  f_deadline : Z;
  f_parent : bool;               (* the tool's context is cancelled *)
  f_ctx : option cerr;           (* flushCtx.Err() *)
  f_rec : bool; f_hb : bool;     (* the awaiter's handlers are registered *)
  f_done : bool;                 (* the channel is closed *)
}.

Inductive flabel :=
  | FTime (dt : Z)
  | FCancel                      (* the tool's context is cancelled *)
  | FPropagate                   (* ...and with it the child *)
  | FExpire                      (* the deadline's timer *)
  | FRecord | FHeartbeat         (* a message is handled by the client *)
  | FGo                          (* the goroutine's next step, when it is not waiting *)
  | FSeeDone | FSeeCtx           (* the select *)
  | FSent (r : option serr).     (* Send returns *)

Inductive fev :=
  | FBegan (t : Z)
  | FMessage (t : Z)             (* a message is seen by the awaiter *)
  | FCtx (c : cerr) (t : Z)      (* flushCtx ends *)
  | FAttempt (w : with_ctx) (t : Z)
  | FResult (r : option serr)
  | FRet (r : option serr).

(** l.165, in nanoseconds. *)
Definition flush_wait : Z := 5000000000.

Definition fs_pc (p : fpc) (s : fstate) : fstate := FState p (f_now s) (f_deadline s) (f_parent s) (f_ctx s) (f_rec s) (f_hb s) (f_done s).
Definition fs_ctx (c : option cerr) (s : fstate) : fstate := FState (f_pc s) (f_now s) (f_deadline s) (f_parent s) c (f_rec s) (f_hb s) (f_done s).

(** flush.go l.31-37: the first message closes the channel. *)
Definition handled (here : bool) (s : fstate) : option (fstate * list fev) :=
  if here then Some (FState (f_pc s) (f_now s) (f_deadline s) (f_parent s) (f_ctx s) (f_rec s) (f_hb s) true, [FMessage (f_now s)])
  else Some (s, []).

Definition fstep (s : fstate) (l : flabel) : option (fstate * list fev) :=
  match l with
  | FTime dt => if (0 <=? dt)%Z then Some (FState (f_pc s) (f_now s + dt) (f_deadline s) (f_parent s) (f_ctx s) (f_rec s) (f_hb s) (f_done s), []) else None
  | FCancel => Some (FState (f_pc s) (f_now s) (f_deadline s) true (f_ctx s) (f_rec s) (f_hb s) (f_done s), [])
  | FPropagate =>
      match f_pc s, f_parent s, f_ctx s with
      | FStart, _, _ => None
      | _, true, None => Some (fs_ctx (Some CCanceled) s, [FCtx CCanceled (f_now s)])
      | _, _, _ => None
      end
  | FExpire =>
      match f_pc s, f_ctx s with
      | FStart, _ => None
      | _, None => if (f_deadline s <=? f_now s)%Z then Some (fs_ctx (Some CDeadline) s, [FCtx CDeadline (f_now s)]) else None
      | _, _ => None
      end
  | FRecord => handled (f_rec s) s
  | FHeartbeat => handled (f_hb s) s
  | FGo =>
      match f_pc s with
      | FStart =>
          (* a child of a cancelled context starts cancelled *)
          let c := if f_parent s then Some CCanceled else None in
          Some (FState FReg1 (f_now s) (f_now s + flush_wait) (f_parent s) c false false false,
            FBegan (f_now s) :: (if f_parent s then [FCtx CCanceled (f_now s)] else []))
      | FReg1 => Some (FState FReg2 (f_now s) (f_deadline s) (f_parent s) (f_ctx s) true (f_hb s) (f_done s), [])
      | FReg2 => Some (FState FSelect (f_now s) (f_deadline s) (f_parent s) (f_ctx s) (f_rec s) true (f_done s), [])
      | FCheck e =>
          (* errors.Is(err, nil) is false for an error *)
          if match f_ctx s with Some c => err_is e c | None => false end
          then Some (fs_pc FAgain s, [FAttempt Outer (f_now s)])
          else Some (fs_pc (FReturned (Some e)) s, [FRet (Some e)])
      | _ => None
      end
  | FSeeDone =>
      match f_pc s with FSelect => if f_done s then Some (fs_pc FSending s, [FAttempt Within (f_now s)]) else None | _ => None end
  | FSeeCtx =>
      match f_pc s, f_ctx s with FSelect, Some c => Some (fs_pc (FCheck (err_of c)) s, []) | _, _ => None end
  | FSent r =>
      match f_pc s with
      | FSending => Some (match r with None => fs_pc (FReturned None) s | Some e => fs_pc (FCheck e) s end,
          FResult r :: match r with None => [FRet None] | Some _ => [] end)
      | FAgain => Some (fs_pc (FReturned r) s, [FResult r; FRet r])
      | _ => None
      end
  end.

Definition f_init (now : Z) (cancelled : bool) : fstate := FState FStart now 0 cancelled None false false false.
Notation frun := (run fstep).
