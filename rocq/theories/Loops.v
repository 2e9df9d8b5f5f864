(** Model of the loops that receive messages, over the links of Session.v:
    Client.Listen (eventsource/client.go l.87-137), Manager.listenFlushes
    (eventsource/manager.go l.309-326) and Discovery.Run (eventsource/discovery.go
    l.50-70).

    One loop, the container it uses and everybody else who uses that container.
    The link is the loop's own: nobody else calls its methods.  What happens to a
    message that was handed on is in Client.v, Manager.v and Discovery.v.  go-amqp
    panics when asked to accept a nil message. *)
From Coq Require Import ZArith NArith Ascii String.
From stdpp Require Import base gmap strings list.
From Verif Require Import GoBase Run Session.

Local Open Scope list_scope.

Inductive loop := LpClient | LpFlush | LpBeacon.

(** Where the loop is.  A message is named by the call of Next that returned it;
    None is a nil message. *)
Inductive wpc :=
  | WNew                                 (* before NewReceiver *)
  | WTop                                 (* before Next *)
  | WNext (i : nat)                      (* in Next *)
  | WAccept (m : option nat)             (* before Accept *)
  | WAccepting (i : nat) (m : option nat)
  | WHand (m : option nat)               (* the rest of the body *)
  | WClose                               (* the deferred Close *)
  | WClosing (i : nat)
  | WEnded.

Record wstate := W {
  w_s : cstate;
  w_ctx : option ctx_err;                (* the loop's context *)
  w_link : nat;
  w_pc : wpc;
  w_crash : bool;
}.

Inductive wlabel := WSess (lb : clabel) | WCancel (c : ctx_err) | WGo.

Inductive wev :=
  | WE (e : cev)                         (* of the container *)
  | WGot (i : nat)                       (* Next returned a message *)
  | WCalls (j : nat) (m : option nat)    (* Accept of that message is called *)
  | WHanded (m : option nat)             (* decoded and given to handlers, taken for a flush request, observed *)
  | WCrash                               (* a nil message was to be accepted *)
  | WReturned.

Definition current (p : wpc) : option nat := match p with WNext i | WAccepting i _ | WClosing i => Some i | _ => None end.

(** A call of a method with the loop's context. *)
Definition calls (s : wstate) (k : kind) (p : nat -> wpc) (ev : nat -> list wev) : option (wstate * list wev) :=
  let i := length (c_ops (w_s s)) in
  match run sstep (w_s s) (LOp (w_link s) k :: match w_ctx s with Some c => [LCtx i c] | None => [] end) with
  | Some (s', e) => Some (W s' (w_ctx s) (w_link s) (p i) (w_crash s), (WE <$> e) ++ ev i)
  | None => None
  end.

(** The result of the call, if it returned. *)
Definition result (s : wstate) (i : nat) : option rslt :=
  match c_ops (w_s s) !! i with Some o => match o_pc o with PDone r => Some r | _ => None end | None => None end.
Definition to (p : wpc) (s : wstate) : wstate := W (w_s s) (w_ctx s) (w_link s) p (w_crash s).

(** errors.Is(err, ctx.Err()). *)
Definition is_own (s : wstate) (e : lerr) : bool := match w_ctx s with Some c => bool_decide (e = ECtx c) | None => false end.

(** What follows a call of Next: client.go l.103-110, manager.go l.313-320,
    discovery.go l.57-61. *)
Definition after_next (k : loop) (s : wstate) (i : nat) (r : rslt) : wpc * list wev :=
  match r with
  | ROk => (WAccept (Some i), [WGot i])
  | RErr e =>
      match k with
      | LpClient => (if is_own s e then WClose else WTop, [])
      | LpFlush => (if is_own s e then WClose else WAccept None, [])
      | LpBeacon => (WClose, [])
      end
  end.
(** What follows a call of Accept: client.go l.111-117, manager.go l.320,
    discovery.go l.61-63. *)
Definition after_accept (k : loop) (s : wstate) (m : option nat) (r : rslt) : wpc :=
  match k, r with
  | LpClient, RErr e => if is_own s e then WClose else WTop
  | _, _ => WHand m
  end.

Definition wstep (k : loop) (s : wstate) (l : wlabel) : option (wstate * list wev) :=
  if w_crash s then None else
  match l with
  | WSess lb =>
      (* the others', and the steps of the call that is running *)
      if match lb with
         | LOp j _ => match w_pc s with WNew => true | _ => negb (j =? w_link s) end
         | LCtx i _ => bool_decide (current (w_pc s) <> Some i)
         | _ => true
         end then
        match sstep (w_s s) lb with
        | Some (s', e) =>
            let crash := match w_pc s with WAccepting i None => existsb (fun x => match x with EvUse i' _ _ _ => i' =? i | _ => false end) e | _ => false end in
            Some (W s' (w_ctx s) (w_link s) (w_pc s) crash, (WE <$> e) ++ if crash then [WCrash] else [])
        | None => None
        end
      else None
  | WCancel c =>
      match w_ctx s with
      | Some _ => None
      | None =>
          match current (w_pc s) with
          | None => Some (W (w_s s) (Some c) (w_link s) (w_pc s) (w_crash s), [])
          | Some i =>
              match sstep (w_s s) (LCtx i c) with
              | Some (s', e) => Some (W s' (Some c) (w_link s) (w_pc s) (w_crash s), WE <$> e)
              | None => None
              end
          end
      end
  | WGo =>
      match w_pc s with
      | WNew =>
          match sstep (w_s s) LLink with
          | Some (s', e) => Some (W s' (w_ctx s) (length (c_links (w_s s))) WTop (w_crash s), WE <$> e)
          | None => None
          end
      | WTop => calls s KNext WNext (fun _ => [])
      | WNext i => match result s i with Some r => let x := after_next k s i r in Some (to x.1 s, x.2) | None => None end
      | WAccept m => calls s KAccept (fun j => WAccepting j m) (fun j => [WCalls j m])
      | WAccepting i m => match result s i with Some r => Some (to (after_accept k s m r) s, []) | None => None end
      | WHand m => Some (to WTop s, [WHanded m])
      | WClose => calls s KClose WClosing (fun _ => [])
      | WClosing i => match result s i with Some _ => Some (to WEnded s, [WReturned]) | None => None end
      | WEnded => None
      end
  end.

Definition w_init : wstate := W c_init None 0 WNew false.
Notation wrun k := (run (wstep k)).
