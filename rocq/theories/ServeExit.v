(** Model of how the tool's HTTP commands end (cmd/vanflow-tool/serve.go l.39-43,
    l.111-120, l.181-203; fixture.go l.24-69; session/container.go l.219-229) with
    what of net/http's Server they use: ListenAndServe, Serve and Shutdown.

    Requests are numbers.  Shutdown looks for idle connections now and then: it
    may return as soon as none is left.  A connection is open while its request is
    answered.  Logging is left out. *)
From Coq Require Import ZArith.
From stdpp Require Import base list.
From Verif Require Import Run.

Local Open Scope list_scope.
Local Open Scope Z_scope.

(** The command's goroutine: at l.197, at l.201, in Shutdown, at l.202, returned. *)
Inductive mainpc := MWait | MAbout (deadline : Z) | MShut (deadline : Z) | MJoin | MGone.
(** The server's goroutine: before it looks at the server's flag (net/http
    ListenAndServe); before Serve registers the listener; accepting; returned, with
    ErrServerClosed or with another error. *)
Inductive srvpc := SNew | SBound | SServing | SClosed | SFailed.
(** The discovery's container, as far as its last error goes: running; about to
    call the handler of l.113; done. *)
Inductive ctrpc := CRuns | CFinal | CDone.

Record xstate := XState {
  x_now : Z;
  x_ctx : bool;          (* the context of l.41 has ended *)
  x_main : mainpc;
  x_var : bool;          (* l.199 assigns the variable of l.41 that the handler of l.113 uses *)
  x_grace : bool;        (* the context of l.199 was cancelled *)
  x_flag : bool;         (* Shutdown was called: new connections are refused *)
  x_srv : srvpc;
  x_open : list nat;     (* requests being answered *)
  x_ctr : ctrpc;
}.

Inductive xlabel :=
  | XTime (dt : Z)
  | XSignal                     (* main.go l.145 *)
  | XGiveUp                     (* the container's strategy has come to its end *)
  | XEnd                        (* the container returns because of the context *)
  | XHandler                    (* l.113-117 with the last error *)
  | XListen (ok : bool)
  | XServe
  | XAcceptFails
  | XAccept (r : nat)
  | XAnswer (r : nat)
  | XStopServing
  | XWake | XShutdown | XIdle | XExpired | XExit.

Inductive xev :=
  | EAccept (r : nat)
  | EAnswer (r : nat)
  | EStop (t : Z)               (* the context ended *)
  | EShut (t : Z)               (* the server was told to shut down *)
  | EExit (t : Z) (cut : list nat).   (* the program ended, with these requests unanswered *)

Definition second : Z := 1000000000.

Definition x_goto (m : mainpc) (s : xstate) : xstate := XState (x_now s) (x_ctx s) m (x_var s) (x_grace s) (x_flag s) (x_srv s) (x_open s) (x_ctr s).
Definition x_serve (p : srvpc) (s : xstate) : xstate := XState (x_now s) (x_ctx s) (x_main s) (x_var s) (x_grace s) (x_flag s) p (x_open s) (x_ctr s).
Definition x_with (rs : list nat) (s : xstate) : xstate := XState (x_now s) (x_ctx s) (x_main s) (x_var s) (x_grace s) (x_flag s) (x_srv s) rs (x_ctr s).
Definition x_ctrgo (c : ctrpc) (s : xstate) : xstate := XState (x_now s) (x_ctx s) (x_main s) (x_var s) (x_grace s) (x_flag s) (x_srv s) (x_open s) c.

(** cancel of l.41. *)
Definition end_ctx (s : xstate) : xstate * list xev :=
  (XState (x_now s) true (x_main s) (x_var s) (x_grace s) (x_flag s) (x_srv s) (x_open s) (x_ctr s), if x_ctx s then [] else [EStop (x_now s)]).

Definition xstep (s : xstate) (l : xlabel) : option (xstate * list xev) :=
  match x_main s with MGone => None | _ =>
  match l with
  | XTime dt => if 0 <=? dt then Some (XState (x_now s + dt) (x_ctx s) (x_main s) (x_var s) (x_grace s) (x_flag s) (x_srv s) (x_open s) (x_ctr s), []) else None
  | XSignal => Some (end_ctx s)
  | XGiveUp => match x_ctr s with CRuns => if x_ctx s then None else Some (x_ctrgo CFinal s, []) | _ => None end
  | XEnd => match x_ctr s with CRuns => if x_ctx s then Some (x_ctrgo CDone s, []) else None | _ => None end
  | XHandler =>
      (* l.116: whichever cancel the variable holds now *)
      match x_ctr s with
      | CFinal =>
          let s1 := x_ctrgo CDone s in
          if x_var s then Some (XState (x_now s1) (x_ctx s1) (x_main s1) (x_var s1) true (x_flag s1) (x_srv s1) (x_open s1) (x_ctr s1), [])
          else Some (end_ctx s1)
      | _ => None
      end
  | XListen ok =>
      match x_srv s with
      | SNew => Some (x_serve (if x_flag s then SClosed else if ok then SBound else SFailed) s, [])
      | _ => None
      end
  | XServe => match x_srv s with SBound => Some (x_serve (if x_flag s then SClosed else SServing) s, []) | _ => None end
  | XAcceptFails => match x_srv s with SServing => if x_flag s then None else Some (x_serve SFailed s, []) | _ => None end
  | XAccept r =>
      match x_srv s with SServing => if x_flag s || bool_decide (r ∈ x_open s) then None else Some (x_with (r :: x_open s) s, [EAccept r]) | _ => None end
  | XAnswer r => if bool_decide (r ∈ x_open s) then Some (x_with (List.filter (fun q => negb (Nat.eqb q r)) (x_open s)) s, [EAnswer r]) else None
  | XStopServing => match x_srv s with SServing => if x_flag s then Some (x_serve SClosed s, []) else None | _ => None end
  | XWake =>
      (* l.197-199 *)
      match x_main s with
      | MWait => if x_ctx s then Some (XState (x_now s) (x_ctx s) (MAbout (x_now s + second)) true (x_grace s) (x_flag s) (x_srv s) (x_open s) (x_ctr s), []) else None
      | _ => None
      end
  | XShutdown =>
      match x_main s with
      | MAbout d => Some (XState (x_now s) (x_ctx s) (MShut d) (x_var s) (x_grace s) true (x_srv s) (x_open s) (x_ctr s), [EShut (x_now s)])
      | _ => None
      end
  | XIdle => match x_main s, x_open s with MShut _, [] => Some (x_goto MJoin s, []) | _, _ => None end
  | XExpired => match x_main s with MShut d => if (d <=? x_now s) || x_grace s then Some (x_goto MJoin s, []) else None | _ => None end
  | XExit =>
      (* l.202 and the end of main *)
      match x_main s, x_srv s with
      | MJoin, (SClosed | SFailed) => Some (x_goto MGone s, [EExit (x_now s) (x_open s)])
      | _, _ => None
      end
  end end.

Definition x_init : xstate := XState 0 false MWait false false false SNew [] CRuns.
Notation xrun := (run xstep).
