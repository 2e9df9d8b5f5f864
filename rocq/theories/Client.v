(** Model of eventsource/client.go and eventsource/flush.go: listeners,
    handlers, Close, SendFlush and FlushOnFirstMessage.

    The critical sections that only touch the handler lists are one step; Close
    keeps the lock while it waits, so that the lock is modelled as held exactly
    while a Close is in progress.  Handlers are numbered; what they do is not
    modelled, except for those of FlushOnFirstMessage. *)
From Coq Require Import ZArith NArith Ascii String.
From stdpp Require Import base gmap strings list.
From Verif Require Import GoBase Encoding Records Messages Run Keepalive.

Local Open Scope list_scope.

(** client.go l.163-192: the four ways to choose the address. *)
Inductive provider := FromAddress | FromLogs | FromFlows | FromHeartbeats.
Definition listen_address (i : info) (p : provider) : string :=
  match p with
  | FromAddress => i_address i
  | FromLogs => String.append (i_address i) suffix_logs
  | FromFlows => String.append (i_address i) suffix_flows
  | FromHeartbeats => String.append (i_address i) suffix_heartbeats
  end.
(** l.175-177. *)
Definition listen_credit : Z := 256.

Inductive hkind := OnRec | OnHb.
Inductive handler := User (n : nat) | Awaiter (f : nat).
Global Instance handler_eq_dec : EqDecision handler.
Proof. solve_decision. Defined.

(** Where a listener goroutine (l.96-134) is: in Next; in Accept; before
    getHandlers; in the loop over the handlers, with those to come; in the
    deferred Close of the receiver; ended. *)
Inductive lpc :=
  | LNext
  | LAccept (m : amqp_msg)
  | LGet (x : message)
  | LRun (x : message) (hs : list handler)
  | LClosing
  | LEnded.
Record listener := Listener { l_pc : lpc; l_cancelled : bool }.

(** Where Close is (l.140-147): not called; before wg.Wait; waiting; woken up. *)
Inductive clpc := ClNone | ClBegun | ClWaiting | ClWoken.

(** Where FlushOnFirstMessage is (flush.go l.13-25): before OnRecord, before
    OnHeartbeat, in the select, in SendFlush, returned. *)
Inductive fpc := FRec | FHb | FSelect | FSend | FDone.
Record fcall := FCall {
  f_pc : fpc;
  f_once : bool;                  (* the sync.Once has run *)
  f_closed : bool;                (* the channel is closed *)
  f_cancelled : bool;
}.

Record cstate := CState {
  c_close : clpc;                 (* the lock is held unless ClNone *)
  c_done : bool;                  (* the channel of start is closed *)
  c_recs : list handler;
  c_hbs : list handler;
  c_listeners : list listener;
  c_adding : nat;                 (* calls of Listen between wg.Add and c.lock.Lock *)
  c_wg : Z;
  c_flushes : list fcall;
  c_crashed : bool;
}.

Definition c_init : cstate := CState ClNone false [] [] [] 0 0 [] false.

Inductive cev :=
  | CReg (k : hkind) (h : handler)
  | CListening (i : nat) (addr : string) (credit : Z)
  | CRecv (i : nat) (m : amqp_msg)             (* Next returned a message *)
  | CAcc (i : nat) (m : amqp_msg)              (* and Accept nil *)
  | CRead (i : nat) (x : message)              (* the handlers were read *)
  | CCall (i : nat) (h : handler) (x : message)
  | CEnded (i : nat)
  | CCloseCall
  | CClosed                                    (* Close returned *)
  | CFlush (f : option nat) (addr : string) (m : amqp_msg)   (* Send called *)
  | CFlushStart (f : nat)
  | CFlushRet (f : nat) (ctxerr : bool)        (* returned ctx.Err(), or the result of SendFlush *)
  | CPanic.

(** The result of Next: a message, or an error, which may be the context's. *)
Inductive nextres := NMsg (m : amqp_msg) | NErr (ctxerr : bool).
Inductive accres := AccOk | AccErr (ctxerr : bool).

Inductive clabel :=
  | LReg (k : hkind) (n : nat)       (* OnRecord, OnHeartbeat *)
  | LListenAdd                       (* Listen: l.88 *)
  | LListen (p : provider)           (* Listen: l.91-137 *)
  | LCancelCtx (i : nat)             (* the context given to Listen is cancelled *)
  | LLNext (i : nat) (r : nextres)
  | LLAccept (i : nat) (r : accres)
  | LLGet (i : nat)
  | LLRun (i : nat)
  | LLClose (i : nat)
  | LCloseBegin
  | LCloseWait
  | LCloseWake
  | LSendFlush                       (* SendFlush called by the user *)
  | LFlush                           (* FlushOnFirstMessage called *)
  | LFlushReg (f : nat)
  | LFlushCancel (f : nat)           (* its context is cancelled *)
  | LFlushTake (f : nat)             (* its select sees done *)
  | LFlushCtx (f : nat)              (* its select sees ctx.Done() *)
  | LFlushSent (f : nat).            (* Send returned *)

Definition cs_close (p : clpc) (s : cstate) : cstate :=
  CState p (c_done s) (c_recs s) (c_hbs s) (c_listeners s) (c_adding s) (c_wg s) (c_flushes s) (c_crashed s).
Definition cs_handlers (r h : list handler) (s : cstate) : cstate :=
  CState (c_close s) (c_done s) r h (c_listeners s) (c_adding s) (c_wg s) (c_flushes s) (c_crashed s).
Definition cs_listeners (l : list listener) (s : cstate) : cstate :=
  CState (c_close s) (c_done s) (c_recs s) (c_hbs s) l (c_adding s) (c_wg s) (c_flushes s) (c_crashed s).
Definition cs_adding (n : nat) (w : Z) (s : cstate) : cstate :=
  CState (c_close s) (c_done s) (c_recs s) (c_hbs s) (c_listeners s) n w (c_flushes s) (c_crashed s).
Definition cs_flushes (l : list fcall) (s : cstate) : cstate :=
  CState (c_close s) (c_done s) (c_recs s) (c_hbs s) (c_listeners s) (c_adding s) (c_wg s) l (c_crashed s).
Definition cs_crashed (s : cstate) : cstate :=
  CState (c_close s) (c_done s) (c_recs s) (c_hbs s) (c_listeners s) (c_adding s) (c_wg s) (c_flushes s) true.

Definition set_pc (i : nat) (p : lpc) (s : cstate) : cstate :=
  cs_listeners (alter (fun l => Listener p (l_cancelled l)) i (c_listeners s)) s.
Definition set_flush (f : nat) (p : fpc) (s : cstate) : cstate :=
  cs_flushes (alter (fun x => FCall p (f_once x) (f_closed x) (f_cancelled x)) f (c_flushes s)) s.

Definition unlocked (s : cstate) : bool := match c_close s with ClNone => true | _ => false end.

(** l.61-72, OnHeartbeat and OnRecord. *)
Definition register (k : hkind) (h : handler) (s : cstate) : cstate :=
  match k with OnRec => cs_handlers (c_recs s ++ [h]) (c_hbs s) s | OnHb => cs_handlers (c_recs s) (c_hbs s ++ [h]) s end.

(** l.74-82 and l.122-131: the handlers for a message. *)
Definition handlers_for (s : cstate) (x : message) : list handler :=
  match x with MsgRecord _ => c_recs s | MsgHeartbeat _ => c_hbs s | _ => [] end.

(** flush.go l.27-37: once.Do(func() { close(done) }); closing a closed channel
    is a panic. *)
Definition once_do (x : fcall) : fcall := if f_once x then x else FCall (f_pc x) true true (f_cancelled x).
Definition once_panics (x : fcall) : bool := negb (f_once x) && f_closed x.
Definition invoke (h : handler) (s : cstate) : cstate :=
  match h with
  | User _ => s
  | Awaiter f =>
      let s' := cs_flushes (alter once_do f (c_flushes s)) s in
      match c_flushes s !! f with Some x => if once_panics x then cs_crashed s' else s' | None => s' end
  end.

(** Whether the error of Next or Accept ends the goroutine (l.106, l.113):
    ctx.Err() is nil unless the context is done. *)
Definition ends (l : listener) (ctxerr : bool) : bool := l_cancelled l && ctxerr.

(** l.150-161, SendFlush up to the call of Send. *)
Definition flush_message (i : info) : amqp_msg := encode_flush (Flush (MsgProps (i_direct i) "" "")).

(** A listener's step. *)
Definition listener_step (s : cstate) (i : nat) (l : listener) (lb : clabel) : option (cstate * list cev) :=
  match lb, l_pc l with
  | LLNext _ (NMsg m), LNext => Some (set_pc i (LAccept m) s, [CRecv i m])
  | LLNext _ (NErr x), LNext => Some (if ends l x then set_pc i LClosing s else s, [])
  | LLAccept _ AccOk, LAccept m =>
      (* l.117-121: then Decode *)
      match decode_msg (Some m) with
      | RPanic => Some (cs_crashed s, [CAcc i m; CPanic])
      | RDone (Some x) None => Some (set_pc i (LGet x) s, [CAcc i m])
      | RDone _ _ => Some (set_pc i LNext s, [CAcc i m])
      end
  | LLAccept _ (AccErr x), LAccept m => Some (if ends l x then set_pc i LClosing s else set_pc i LNext s, [])
  | LLGet _, LGet x =>
      if unlocked s then Some (set_pc i (LRun x (handlers_for s x)) s, [CRead i x]) else None
  | LLRun _, LRun x [] => Some (set_pc i LNext s, [])
  | LLRun _, LRun x (h :: hs) => Some (invoke h (set_pc i (LRun x hs) s), [CCall i h x])
  | LLClose _, LClosing =>
      (* receiver.Close, then wg.Done; the last one wakes up Wait *)
      let w := (c_wg s - 1)%Z in
      let s1 := cs_adding (c_adding s) w (set_pc i LEnded s) in
      Some (match c_close s with ClWaiting => if (w =? 0)%Z then cs_close ClWoken s1 else s1 | _ => s1 end, [CEnded i])
  | _, _ => None
  end.

(** A step of FlushOnFirstMessage. *)
Definition flush_step (c : info) (s : cstate) (f : nat) (x : fcall) (lb : clabel) : option (cstate * list cev) :=
  match lb, f_pc x with
  | LFlushReg _, FRec =>
      if unlocked s then Some (set_flush f FHb (register OnRec (Awaiter f) s), [CReg OnRec (Awaiter f)]) else None
  | LFlushReg _, FHb =>
      if unlocked s then Some (set_flush f FSelect (register OnHb (Awaiter f) s), [CReg OnHb (Awaiter f)]) else None
  | LFlushCancel _, _ =>
      Some (cs_flushes (alter (fun x => FCall (f_pc x) (f_once x) (f_closed x) true) f (c_flushes s)) s, [])
  | LFlushTake _, FSelect =>
      if f_closed x then Some (set_flush f FSend s, [CFlush (Some f) (i_direct c) (flush_message c)]) else None
  | LFlushCtx _, FSelect => if f_cancelled x then Some (set_flush f FDone s, [CFlushRet f true]) else None
  | LFlushSent _, FSend => Some (set_flush f FDone s, [CFlushRet f false])
  | _, _ => None
  end.

Definition cstep (c : info) (s : cstate) (lb : clabel) : option (cstate * list cev) :=
  if c_crashed s then None else
  match lb with
  | LReg k n => if unlocked s then Some (register k (User n) s, [CReg k (User n)]) else None
  | LListenAdd => Some (cs_adding (S (c_adding s)) (c_wg s + 1) s, [])
  | LListen p =>
      match c_adding s with
      | S n =>
          if unlocked s then
            Some (cs_listeners (c_listeners s ++ [Listener LNext false]) (cs_adding n (c_wg s) s),
                  [CListening (length (c_listeners s)) (listen_address c p) listen_credit])
          else None
      | O => None
      end
  | LCancelCtx i => Some (cs_listeners (alter (fun l => Listener (l_pc l) true) i (c_listeners s)) s, [])
  | LLNext i _ | LLAccept i _ | LLGet i | LLRun i | LLClose i =>
      match c_listeners s !! i with Some l => listener_step s i l lb | None => None end
  | LCloseBegin =>
      (* l.141-145; the first cleanup closes the channel of start *)
      if unlocked s then
        if c_done s then Some (cs_crashed s, [CCloseCall; CPanic])
        else Some (CState ClBegun true (c_recs s) (c_hbs s) ((fun l => Listener (l_pc l) true) <$> c_listeners s) (c_adding s)
                     (c_wg s) (c_flushes s) false, [CCloseCall])
      else None
  | LCloseWait =>
      match c_close s with
      | ClBegun => if (c_wg s =? 0)%Z then Some (cs_close ClNone s, [CClosed]) else Some (cs_close ClWaiting s, [])
      | _ => None
      end
  | LCloseWake =>
      (* sync.WaitGroup.Wait panics if the counter is not zero again *)
      match c_close s with
      | ClWoken => if (c_wg s =? 0)%Z then Some (cs_close ClNone s, [CClosed]) else Some (cs_crashed s, [CPanic])
      | _ => None
      end
  | LSendFlush => Some (s, [CFlush None (i_direct c) (flush_message c)])
  | LFlush => Some (cs_flushes (c_flushes s ++ [FCall FRec false false false]) s, [CFlushStart (length (c_flushes s))])
  | LFlushReg f | LFlushCancel f | LFlushTake f | LFlushCtx f | LFlushSent f =>
      match c_flushes s !! f with Some x => flush_step c s f x lb | None => None end
  end.

Notation crun c := (run (cstep c)).
