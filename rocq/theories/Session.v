(** Model of session/container.go: the container that keeps one AMQP session
    alive, and the links that use it.

    A session is identified by a number the network gives it (with its
    connection); a sender or receiver by the session it was made on.  Critical
    sections of a mutex are one step; where the lock is kept during a call of the
    network, the holder is in the state.  The AMQP library is outside: its calls
    return any result.  A method call on a nil *amqp.Session panics.  Error texts
    are dropped; the generation field of a link is read without its mutex, as in
    the code.  One call of Start. *)
From Coq Require Import ZArith NArith Ascii String.
From stdpp Require Import base gmap strings list.
From Verif Require Import GoBase Run.

Local Open Scope list_scope.

(** Conversion to int32. *)
Definition wrap_i32 (z : Z) : Z := ((z + 2^31) mod 2^32 - 2^31)%Z.
(** l.23-29, ReceiverOptions.get: the credit passed on; getReceiver (l.364)
    converts it once more, which changes nothing. *)
Definition get_credit (credit : Z) : Z := if (credit <=? 0)%Z then wrap_i32 credit else 0%Z.

(** Errors, as errors.Is tells them apart. *)
Inductive ctx_err := Canceled | DeadlineExceeded.
Inductive lerr := ECtx (c : ctx_err) | EClosed | EOther.
Global Instance ctx_err_eq_dec : EqDecision ctx_err.
Proof. solve_decision. Defined.
Global Instance lerr_eq_dec : EqDecision lerr.
Proof. solve_decision. Defined.

(** ** Links *)

(** l.271-289.  [l_rcv], [l_snd]: generation, and the session it was made on. *)
Record lnk := Lnk {
  l_closed : bool;
  l_gen : nat;
  l_curr : option nat;
  l_rcv : nat * option nat;
  l_snd : nat * option nat;
  l_lock : bool;              (* the mutex is kept during a call of the network *)
}.

Inductive kind := KNext | KAccept | KSend | KClose.
Global Instance kind_eq_dec : EqDecision kind.
Proof. solve_decision. Defined.
Inductive rslt := ROk | RErr (e : lerr).

(** Where a call of a link's method is. *)
Inductive opc :=
  | PStart                          (* before awaitSession's first lock, or Close's *)
  | PAwait (g : nat)                (* awaitNextSession, before the lock *)
  | PWait (g n : nat)               (* its select; [n] names the hasNext channel *)
  | PGot (s : option nat) (g : nat) (* before awaitSession's second lock *)
  | PGet                            (* before getReceiver, getSender *)
  | PCreate                         (* in NewReceiver or NewSender, with the lock *)
  | PUse (o g : nat)                (* in Receive, AcceptMessage or Send *)
  | PFail (e : lerr)                (* handleError *)
  | PReport (g : nat) (e : lerr)    (* its channel send *)
  | PClear (e : lerr)               (* before its lock *)
  | PClosing                        (* in the receiver's Close, with the lock *)
  | PDone (r : rslt).

Record op := Op { o_link : nat; o_kind : kind; o_ctx : option ctx_err; o_pc : opc }.

(** ** The container's goroutine *)

(** l.167-231: not started; in Dial and NewSession; before publishing; before
    the previous session's teardown; in the loop; the operation has failed; in
    the notification, with the lock; in a handler that waits for that lock; in the
    pause; after RetryNotify; in the final handlers; in the deferred teardown;
    ended. *)
Inductive cpc := CIdle | CDial | CPublish (sid : nat) | CTear (sid : nat) | CLoop | CFailed | CNotify | CStuck | CPause
  | CAfter (ctxerr : bool) | CFinal | CFinalTear | CDone.

Record cstate := CState {
  c_pc : cpc;
  c_local : nat;              (* the variable generation *)
  c_prev : option nat;        (* what prevSessionTeardown closes *)
  c_sess : option nat;
  c_gen : nat;
  c_lock : bool;              (* c.mu kept while handlers run *)
  c_ctx : option ctx_err;     (* the context given to Start *)
  c_errs : list nat;          (* sessionErrors: generations *)
  c_oks : list nat;           (* notifyOK *)
  c_links : list lnk;
  c_ops : list op;
  c_panic : bool;
}.
(** l.105-106. *)
Definition errs_cap : nat := 32.

Definition c_init : cstate := CState CIdle 0 None None 0 false None [] [] [] [] false.

Inductive cev :=
  | EvConn (sid : nat)                         (* a connection was opened *)
  | EvSessErr (sid : nat)                      (* no session could be made on it *)
  | EvCancel                                   (* the context given to Start ended *)
  | EvEst (g sid : nat)                        (* session published as generation [g] *)
  | EvTear (sid : nat)                         (* session and connection closed *)
  | EvEnd (g : nat) (reported : option nat)    (* the loop of generation [g] ends, for an error or the context *)
  | EvIgnored (g h : nat)                      (* an error of generation [h] was dropped by generation [g] *)
  | EvReset (g : nat)                          (* back-off reset *)
  | EvNotify                                   (* handlers called *)
  | EvStopped
  | EvLink (l : nat)
  | EvCall (i l : nat) (k : kind)
  | EvNew (i l sid g : nat)                    (* NewReceiver or NewSender on a session *)
  | EvUse (i l o g : nat)                      (* a call on a receiver or sender *)
  | EvNetErr (i l g : nat)                     (* such a call failed; with the generation it was made on *)
  | EvReport (i l g : nat)
  | EvRet (i l : nat) (k : kind) (r : rslt)
  | EvPanic (i l : nat).

(** Results of the AMQP library: its errors may wrap a context's. *)
Inductive net := NOk | NErr (c : option ctx_err).
Definition net_err (c : option ctx_err) : lerr := match c with Some c => ECtx c | None => EOther end.
Inductive dial := DialErr | SessErr (sid : nat) | Dialed (sid : nat).

Inductive clabel :=
  | LStart | LDial (d : dial) | LPublish | LTear | LTakeOk | LTakeErr | LLoopCtx
  | LBackoff (next : bool) | LNotified | LHandlerCalls | LPauseEnd | LPauseCtx | LAfter | LFinalDone | LFinalTear
  | LCCancel (c : ctx_err)
  | LLink | LOp (l : nat) (k : kind)
  | LCtx (i : nat) (c : ctx_err)
  | LStep (i : nat) | LWaitCtx (i : nat) | LNet (i : nat) (r : net).

(** Field updates. *)
Definition cs_pc (p : cpc) (s : cstate) : cstate :=
  CState p (c_local s) (c_prev s) (c_sess s) (c_gen s) (c_lock s) (c_ctx s) (c_errs s) (c_oks s) (c_links s) (c_ops s) (c_panic s).
Definition cs_lock (b : bool) (s : cstate) : cstate :=
  CState (c_pc s) (c_local s) (c_prev s) (c_sess s) (c_gen s) b (c_ctx s) (c_errs s) (c_oks s) (c_links s) (c_ops s) (c_panic s).
Definition cs_errs (l : list nat) (s : cstate) : cstate :=
  CState (c_pc s) (c_local s) (c_prev s) (c_sess s) (c_gen s) (c_lock s) (c_ctx s) l (c_oks s) (c_links s) (c_ops s) (c_panic s).
Definition cs_oks (l : list nat) (s : cstate) : cstate :=
  CState (c_pc s) (c_local s) (c_prev s) (c_sess s) (c_gen s) (c_lock s) (c_ctx s) (c_errs s) l (c_links s) (c_ops s) (c_panic s).
Definition cs_links (l : list lnk) (s : cstate) : cstate :=
  CState (c_pc s) (c_local s) (c_prev s) (c_sess s) (c_gen s) (c_lock s) (c_ctx s) (c_errs s) (c_oks s) l (c_ops s) (c_panic s).
Definition cs_ops (l : list op) (s : cstate) : cstate :=
  CState (c_pc s) (c_local s) (c_prev s) (c_sess s) (c_gen s) (c_lock s) (c_ctx s) (c_errs s) (c_oks s) (c_links s) l (c_panic s).
Definition cs_panic (s : cstate) : cstate :=
  CState (c_pc s) (c_local s) (c_prev s) (c_sess s) (c_gen s) (c_lock s) (c_ctx s) (c_errs s) (c_oks s) (c_links s) (c_ops s) true.

(** l.167-231 with backoff.RetryNotify: the container's goroutine. *)
Definition cont_step (s : cstate) (lb : clabel) : option (cstate * list cev) :=
  match lb, c_pc s with
  | LStart, CIdle => Some (cs_pc CDial s, [])
  | LDial d, CDial =>
      (* l.173-181; a connection without session is not closed *)
      match d with
      | DialErr => Some (cs_pc CFailed s, [])
      | SessErr sid => Some (cs_pc CFailed s, [EvConn sid; EvSessErr sid])
      | Dialed sid =>
          Some (CState (CPublish sid) (S (c_local s)) (c_prev s) (c_sess s) (c_gen s) (c_lock s) (c_ctx s) (c_errs s) (c_oks s) (c_links s) (c_ops s) (c_panic s),
                [EvConn sid])
      end
  | LPublish, CPublish sid =>
      (* l.183-186: closing hasNext wakes whoever waits for generation c_gen to pass *)
      if c_lock s then None else
      Some (CState (CTear sid) (c_local s) (c_prev s) (Some sid) (c_local s) (c_lock s) (c_ctx s) (c_errs s) (c_oks s) (c_links s) (c_ops s) (c_panic s),
            [EvEst (c_local s) sid])
  | LTear, CTear sid =>
      (* l.188-192 *)
      Some (CState CLoop (c_local s) (Some sid) (c_sess s) (c_gen s) (c_lock s) (c_ctx s) (c_errs s) (c_oks s) (c_links s) (c_ops s) (c_panic s),
            match c_prev s with Some p => [EvTear p] | None => [] end)
  | LTakeOk, CLoop =>
      (* l.198-201 *)
      match c_oks s with
      | g :: q => Some (cs_oks q s, if g =? c_local s then [EvReset (c_local s)] else [])
      | [] => None
      end
  | LTakeErr, CLoop =>
      (* l.202-205 *)
      match c_errs s with
      | h :: q => if h =? c_local s then Some (cs_pc CFailed (cs_errs q s), [EvEnd (c_local s) (Some h)])
                  else Some (cs_errs q s, [EvIgnored (c_local s) h])
      | [] => None
      end
  | LLoopCtx, CLoop =>
      match c_ctx s with Some _ => Some (cs_pc CFailed s, [EvEnd (c_local s) None]) | None => None end
  | LBackoff next, CFailed =>
      (* RetryNotify: with a context that ended, or a strategy that gives up, it returns *)
      match c_ctx s with
      | Some _ => Some (cs_pc (CAfter true) s, [])
      | None => if next then if c_lock s then None else Some (cs_lock true (cs_pc CNotify s), [EvNotify]) else Some (cs_pc (CAfter false) s, [])
      end
  | LHandlerCalls, CNotify => Some (cs_pc CStuck s, [])
  | LHandlerCalls, CFinal => Some (cs_pc CStuck s, [])
  | LNotified, CNotify => Some (cs_lock false (cs_pc CPause s), [])
  | LPauseEnd, CPause => Some (cs_pc CDial s, [])
  | LPauseCtx, CPause => match c_ctx s with Some _ => Some (cs_pc (CAfter true) s, []) | None => None end
  | LAfter, CAfter e =>
      (* l.219-230 *)
      if e then Some (cs_pc CFinalTear s, []) else if c_lock s then None else Some (cs_lock true (cs_pc CFinal s), [EvNotify])
  | LFinalDone, CFinal => Some (cs_lock false (cs_pc CFinalTear s), [])
  | LFinalTear, CFinalTear => Some (cs_pc CDone s, match c_prev s with Some p => [EvTear p] | None => [] end ++ [EvStopped])
  | _, _ => None
  end.

(** ** Steps of a link's method *)

Definition set_op (i : nat) (o : op) (p : opc) (s : cstate) : cstate := cs_ops (<[i := Op (o_link o) (o_kind o) (o_ctx o) p]> (c_ops s)) s.
Definition set_link (j : nat) (l : lnk) (s : cstate) : cstate := cs_links (<[j := l]> (c_links s)) s.
Definition ret (i : nat) (o : op) (r : rslt) (s : cstate) : option (cstate * list cev) :=
  Some (set_op i o (PDone r) s, [EvRet i (o_link o) (o_kind o) r]).

(** What withReceiver and withSender return with an error: Next tries again
    while its context is live (l.398-400). *)
Definition fails (i : nat) (o : op) (e : lerr) (s : cstate) : option (cstate * list cev) :=
  match o_kind o, o_ctx o with
  | KNext, None => Some (set_op i o PStart s, [])
  | _, _ => ret i o (RErr e) s
  end.
(** l.419-424 and 438-443. *)
Definition report_ok (g : nat) (s : cstate) : cstate := if length (c_oks s) <? errs_cap then cs_oks (c_oks s ++ [g]) s else s.

Definition part (k : kind) (l : lnk) : nat * option nat := match k with KSend => l_snd l | _ => l_rcv l end.
Definition set_part (k : kind) (x : nat * option nat) (l : lnk) : lnk :=
  match k with
  | KSend => Lnk (l_closed l) (l_gen l) (l_curr l) (l_rcv l) x (l_lock l)
  | _ => Lnk (l_closed l) (l_gen l) (l_curr l) x (l_snd l) (l_lock l)
  end.
Definition locked (b : bool) (l : lnk) : lnk := Lnk (l_closed l) (l_gen l) (l_curr l) (l_rcv l) (l_snd l) b.

Definition op_step (s : cstate) (i : nat) (o : op) (l : lnk) : option (cstate * list cev) :=
  let j := o_link o in
  match o_pc o with
  | PStart =>
      if l_lock l then None else
      match o_kind o with
      | KClose =>
          (* l.447-457 *)
          let l' b := Lnk true (l_gen l) None (fst (l_rcv l), None) (fst (l_snd l), None) b in
          match snd (l_rcv l) with
          | Some _ => Some (set_op i o PClosing (set_link j (l' true) s), [])
          | None => ret i o ROk (set_link j (l' false) s)
          end
      | _ =>
          (* l.294-302 *)
          if l_closed l then Some (set_op i o (PFail EClosed) s, [])
          else match l_curr l with Some _ => Some (set_op i o PGet s, []) | None => Some (set_op i o (PAwait (l_gen l)) s, []) end
      end
  | PAwait g =>
      (* l.132-137 *)
      if c_lock s then None
      else if g =? c_gen s then Some (set_op i o (PWait g (c_gen s)) s, [])
      else Some (set_op i o (PGot (c_sess s) (c_gen s)) s, [])
  | PWait g n =>
      (* l.141-142: the channel is closed *)
      if n =? c_gen s then None else Some (set_op i o (PAwait g) s, [])
  | PGot sess g =>
      (* l.307-309 *)
      if l_lock l then None
      else Some (set_op i o PGet (set_link j (Lnk (l_closed l) g sess (l_rcv l) (l_snd l) false) s), [])
  | PGet =>
      (* l.358-364, 372-378 *)
      if l_lock l then None else
      match part (o_kind o) l with
      | (g, Some ob) =>
          if g =? l_gen l then Some (set_op i o (PUse ob g) s, [EvUse i j ob g])
          else match l_curr l with
               | Some sid => Some (set_op i o PCreate (set_link j (locked true l) s), [EvNew i j sid (l_gen l)])
               | None => Some (cs_panic s, [EvPanic i j])
               end
      | (_, None) =>
          match l_curr l with
          | Some sid => Some (set_op i o PCreate (set_link j (locked true l) s), [EvNew i j sid (l_gen l)])
          | None => Some (cs_panic s, [EvPanic i j])
          end
      end
  | PFail e =>
      (* l.342-350 *)
      if bool_decide (o_ctx o <> None /\ Some e = ECtx <$> o_ctx o) then fails i o e s
      else if bool_decide (e = EClosed) then fails i o e s
      else Some (set_op i o (PReport (l_gen l) e) s, [])
  | PReport g e =>
      if length (c_errs s) <? errs_cap then Some (set_op i o (PClear e) (cs_errs (c_errs s ++ [g]) s), [EvReport i j g]) else None
  | PClear e =>
      (* l.352-355 *)
      if l_lock l then None
      else fails i o e (set_link j (Lnk (l_closed l) (l_gen l) None (fst (l_rcv l), None) (fst (l_snd l), None) false) s)
  | PCreate | PUse _ _ | PClosing | PDone _ => None
  end.

(** A call of the network returns. *)
Definition net_step (s : cstate) (i : nat) (o : op) (l : lnk) (r : net) : option (cstate * list cev) :=
  let j := o_link o in
  match o_pc o with
  | PCreate =>
      match r with
      | NErr e => Some (set_op i o (PFail (net_err e)) (set_link j (locked false l) s), [EvNetErr i j (l_gen l)])
      | NOk =>
          match l_curr l with
          | Some sid => Some (set_op i o (PUse sid (l_gen l)) (set_link j (locked false (set_part (o_kind o) (l_gen l, Some sid) l)) s), [EvUse i j sid (l_gen l)])
          | None => None
          end
      end
  | PUse _ g =>
      match o_kind o, r with
      | KNext, NOk => ret i o ROk s
      | KAccept, NOk => ret i o ROk (report_ok g s)
      | KAccept, NErr e => ret i o (RErr (net_err e)) s
      | KSend, NOk => ret i o ROk (report_ok g s)
      | (KNext | KSend), NErr e => Some (set_op i o (PFail (net_err e)) s, [EvNetErr i j g])
      | KClose, _ => None
      end
  | PClosing => ret i o (match r with NOk => ROk | NErr e => RErr (net_err e) end) (set_link j (locked false l) s)
  | _ => None
  end.

Definition sstep (s : cstate) (lb : clabel) : option (cstate * list cev) :=
  if c_panic s then None else
  match lb with
  | LCCancel c =>
      match c_ctx s with
      | None => Some (CState (c_pc s) (c_local s) (c_prev s) (c_sess s) (c_gen s) (c_lock s) (Some c) (c_errs s) (c_oks s) (c_links s) (c_ops s) false, [EvCancel])
      | Some _ => None
      end
  | LLink =>
      (* l.255-269 *)
      if c_lock s then None
      else Some (cs_links (c_links s ++ [Lnk false (c_gen s) (c_sess s) (0, None) (0, None) false]) s, [EvLink (length (c_links s))])
  | LOp j k =>
      match c_links s !! j with
      | Some _ => Some (cs_ops (c_ops s ++ [Op j k None PStart]) s, [EvCall (length (c_ops s)) j k])
      | None => None
      end
  | LCtx i c =>
      match c_ops s !! i with
      | Some o => match o_ctx o with
          | None => Some (cs_ops (<[i := Op (o_link o) (o_kind o) (Some c) (o_pc o)]> (c_ops s)) s, [])
          | Some _ => None end
      | None => None
      end
  | LStep i =>
      match c_ops s !! i with
      | Some o => match c_links s !! o_link o with Some l => op_step s i o l | None => None end
      | None => None
      end
  | LWaitCtx i =>
      (* l.139-140 *)
      match c_ops s !! i with
      | Some o => match o_pc o, o_ctx o with PWait _ _, Some c => Some (set_op i o (PFail (ECtx c)) s, []) | _, _ => None end
      | None => None
      end
  | LNet i r =>
      match c_ops s !! i with
      | Some o => match c_links s !! o_link o with Some l => net_step s i o l r | None => None end
      | None => None
      end
  | _ => cont_step s lb
  end.

Notation srun := (run sstep).
