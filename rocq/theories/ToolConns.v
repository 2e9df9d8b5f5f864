(** Model of the tool's connections (cmd/vanflow-tool/serve.go l.111-132 and
    l.178-203, log.go l.44-61, main.go l.123-147): which containers it starts,
    when they end, and which of their errors stop the tool.

    A composition: discovery, its handlers and watches are in Collector.v; of a
    container the pacing of Backoff.v is kept (with the one strategy main.go
    gives to all), what it does meanwhile is in Session.v.  Container 0 is the
    discovery's, the others are the clients'.  Run's receiver fails, and contexts
    end, only when the tool is told to stop (C102: while its context lasts, Next
    of a link nobody closed does not return an error). *)
From Coq Require Import ZArith NArith Ascii String.
From stdpp Require Import base gmap strings list functions.
From Verif Require Import GoBase Encoding Records Messages Run Keepalive Discovery Collector Backoff.

Local Open Scope list_scope.

Record tstate := TState {
  t_v : vstate;
  t_b : st;
  t_up : bool;              (* l.112: the discovery's container is started *)
  t_reg : bool;             (* l.113: and its error handler registered *)
  t_of : list string;       (* the sources for which containers 1, 2, ... were made *)
  t_made : bool;            (* the running handler is past l.126 *)
  t_stop : bool;            (* the context has ended *)
  t_ended : list nat;       (* the containers that returned because of it *)
}.

Inductive tlabel :=
  | TStart | TRegister
  | TColl (l : vlabel)
  | TMake                   (* l.125-126: the handler starts a container *)
  | TNet (lb : label)       (* a container *)
  | TTime (dt : Z)
  | TSignal                 (* main.go l.145 *)
  | TEnd (i : nat).

Inductive tev :=
  | TV (e : vev)
  | TB (e : event)
  | TMade (i : nat) (id : string)
  | TStops
  | TEnded (i : nat).

(** One strategy for all (main.go l.123-128, factory.go l.37-39). *)
Definition one_for_all (i : nat) : nat := 0.
Definition tool_step : st -> label -> option (st * list event) := step tool_cfg one_for_all.

(** Steps that take the end of the context. *)
Definition needs_stop (l : vlabel) : bool :=
  match l with VIn (LRunErr | LDCancel | LWCancel _) => true | _ => false end.
Definition passes_time (l : vlabel) : bool := match l with VIn (LDTime _) => true | _ => false end.
(** The handler at l.125 and at l.131. *)
Definition about_to_watch (s : vstate) : option string :=
  match d_hand (v_d s), v_at s with HRunning Disc x, HFresh => Some (i_id (ds_info x)) | _, _ => None end.

Definition acts (l : label) : option nat :=
  match l with Connected i | Success i | Failure i _ | Retry i => Some i | _ => None end.

(** The handler of the discovery's container (l.113-120): a non-retryable error,
    the last of a container, cancels the context.  Handlers of clients only log;
    in log.go they have none. *)
Definition on_errors (reg : bool) (ev : list event) : bool :=
  reg && existsb (fun e => match e with GivesUp 0 => true | _ => false end) ev.

Definition tstep (s : tstate) (l : tlabel) : option (tstate * list tev) :=
  match l with
  | TStart =>
      if t_up s then None else
      match tool_step (t_b s) (Start 0) with
      | Some (b, ev) => Some (TState (t_v s) b true (t_reg s) (t_of s) (t_made s) (t_stop s) (t_ended s), TB <$> ev)
      | None => None
      end
  | TRegister =>
      if t_up s && negb (t_reg s) then Some (TState (t_v s) (t_b s) true true (t_of s) (t_made s) (t_stop s) (t_ended s), []) else None
  | TColl l =>
      if t_reg s && negb (passes_time l) && (t_stop s || negb (needs_stop l)) then
        match l, about_to_watch (t_v s) with
        | VBody, Some _ =>
            if t_made s then
              match vstep (t_v s) VBody with
              | Some (v, ev) => Some (TState v (t_b s) (t_up s) (t_reg s) (t_of s) false (t_stop s) (t_ended s), TV <$> ev)
              | None => None
              end
            else None
        | _, _ =>
            match vstep (t_v s) l with
            | Some (v, ev) => Some (TState v (t_b s) (t_up s) (t_reg s) (t_of s) (t_made s) (t_stop s) (t_ended s), TV <$> ev)
            | None => None
            end
        end
      else None
  | TMake =>
      match about_to_watch (t_v s) with
      | Some id =>
          if t_made s then None else
          match tool_step (t_b s) (Start (S (length (t_of s)))) with
          | Some (b, ev) => Some (TState (t_v s) b (t_up s) (t_reg s) (t_of s ++ [id]) true (t_stop s) (t_ended s), TMade (S (length (t_of s))) id :: (TB <$> ev))
          | None => None
          end
      | None => None
      end
  | TNet lb =>
      match acts lb with
      | Some i =>
          if bool_decide (i ∈ t_ended s) then None else
          match tool_step (t_b s) lb with
          | Some (b, ev) =>
              let stop := on_errors (t_reg s) ev in
              Some (TState (t_v s) b (t_up s) (t_reg s) (t_of s) (t_made s) (t_stop s || stop) (t_ended s),
                    (TB <$> ev) ++ (if stop then [TStops] else []))
          | None => None
          end
      | None => None
      end
  | TTime dt =>
      match tool_step (t_b s) (Tick dt), vstep (t_v s) (VIn (LDTime dt)) with
      | Some (b, _), Some (v, _) => Some (TState v b (t_up s) (t_reg s) (t_of s) (t_made s) (t_stop s) (t_ended s), [])
      | _, _ => None
      end
  | TSignal => Some (TState (t_v s) (t_b s) (t_up s) (t_reg s) (t_of s) (t_made s) true (t_ended s), [TStops])
  | TEnd i =>
      (* container.go l.197, l.219 and the context given to the strategy *)
      if t_stop s && negb (bool_decide (i ∈ t_ended s)) && (match s_phase (t_b s) i with PTrying | PUp | PWaiting _ => true | _ => false end)
      then Some (TState (t_v s) (t_b s) (t_up s) (t_reg s) (t_of s) (t_made s) (t_stop s) (i :: t_ended s), [TEnded i])
      else None
  end.

Definition t_init : tstate := TState (v_init 0) (init tool_cfg) false false [] false false [].
Notation trun := (run tstep).
