(** Model of sendKeepalives and sendWithTimeout (eventsource/manager.go
    l.228-303, l.325-340): beacons and heartbeats.  Time is in nanoseconds
    since the epoch. *)
From Coq Require Import ZArith NArith Ascii String.
From stdpp Require Import base gmap strings list.
From Verif Require Import GoBase Encoding Records Messages Run.

Local Open Scope list_scope.

(** eventsource/source.go l.8-15, Info without LastSeen. *)
Record info := Info { i_id : string; i_version : Z; i_type : string; i_address : string; i_direct : string }.

(** eventsource/manager.go l.16-27, ManagerConfig as far as used here. *)
Record kcfg := KCfg { kc_info : info; kc_beacon : Z; kc_heartbeat : Z; kc_alternate : bool }.

(** l.229-236. *)
Definition beacon_interval (c : kcfg) : Z := if (kc_beacon c <=? 0)%Z then 10000000000 else kc_beacon c.
Definition heartbeat_interval (c : kcfg) : Z := if (kc_heartbeat c <=? 0)%Z then 2000000000 else kc_heartbeat c.

(** l.238-246; Info.Version is an int, the message's a uint32. *)
Definition to_u32 (z : Z) : N := Z.to_N (z mod 2^32).
Definition to_u64 (z : Z) : N := Z.to_N (z mod 2^64).
Definition beacon_message (c : kcfg) : beacon :=
  let i := kc_info c in
  Beacon (MsgProps beacon_address "" "") (to_u32 (i_version i)) (i_type i) (i_address i) (i_direct i) (i_id i).
(** l.247-250 and l.285; UnixMicro rounds down. *)
Definition heartbeat_message (c : kcfg) (now : Z) : heartbeat :=
  let i := kc_info c in
  Heartbeat (MsgProps "" "" "") (i_id i) (to_u32 (i_version i)) (to_u64 (now / 1000)).

(** client.go l.15-19. *)
Definition suffix_flows : string := ".flows".
Definition suffix_logs : string := ".logs".
Definition suffix_heartbeats : string := ".heartbeats".

(** l.252-255. *)
Definition heartbeat_address (c : kcfg) : string :=
  if kc_alternate c then String.append (i_address (kc_info c)) suffix_heartbeats else i_address (kc_info c).

(** l.271-274. *)
Definition delivery_timeout (c : kcfg) : Z :=
  if (beacon_interval c <? heartbeat_interval c)%Z then beacon_interval c else heartbeat_interval c.

Inductive kind := Bcn | Hbt.
Global Instance kind_eq_dec : EqDecision kind.
Proof. solve_decision. Defined.
Definition interval (c : kcfg) (k : kind) : Z := match k with Bcn => beacon_interval c | Hbt => heartbeat_interval c end.

(** A context: the one given to Run, or one derived from it with a deadline. *)
Inductive kctx := CtxRun | CtxTimeout (deadline : Z).

(** What Send returns: nil, or an error that wraps context.DeadlineExceeded,
    context.Canceled, or neither. *)
Inductive outcome := Sent | SendDeadline | SendCanceled | SendError.
Global Instance outcome_eq_dec : EqDecision outcome.
Proof. solve_decision. Defined.

(** Where the goroutine is: before a call of Send for the initial beacon; in a
    call of Send, for the initial beacon or not, with the deadline of
    requestCtx and the context the call was given; in the select; returned. *)
Inductive kpc :=
  | KInitial
  | KSend (initial : bool) (k : kind) (deadline : Z) (cx : kctx)
  | KSelect
  | KStopped.

(** A time.Ticker: when it fires next, and whether its channel of capacity one
    is full. *)
Record ticker := Ticker { t_next : Z; t_full : bool }.

Record kstate := KState {
  k_pc : kpc;
  k_now : Z;
  k_cancelled : bool;
  k_tickers : option (ticker * ticker);   (* beacon and heartbeat; none before l.276 *)
  k_timeouts : Z;                         (* heartbeatTimeouts *)
  k_first : bool;                         (* firstHeartbeatSent *)
}.

Definition k_init (now : Z) : kstate := KState KInitial now false None 0 false.

Inductive kev :=
  | KStart (now : Z) (k : kind) (addr : string) (m : amqp_msg)   (* Send called *)
  | KReturn (k : kind) (o : outcome)                             (* Send returned *)
  | KLoop (now : Z)                                              (* the tickers start *)
  | KEnd.                                                        (* senders closed, returned *)

Inductive klabel :=
  | LTime (d : Z)          (* time passes *)
  | LFire (k : kind)       (* a ticker fires *)
  | LCancelRun             (* the context of Run is cancelled *)
  | LCall                  (* the initial beacon is sent *)
  | LTake (k : kind)       (* the select takes a tick *)
  | LDone                  (* the select takes ctx.Done() *)
  | LReturn (o : outcome). (* Send returns *)

Definition k_set_pc (p : kpc) (s : kstate) : kstate :=
  KState p (k_now s) (k_cancelled s) (k_tickers s) (k_timeouts s) (k_first s).

(** l.327-330, sendWithTimeout up to the call of Send: the call is given ctx,
    not requestCtx. *)
Definition send_with_timeout (c : kcfg) (initial : bool) (k : kind) (timeout : Z) (s : kstate) : kstate * list kev :=
  (k_set_pc (KSend initial k (k_now s + timeout) CtxRun) s,
   [match k with
    | Bcn => KStart (k_now s) Bcn beacon_address (encode_beacon (beacon_message c))
    | Hbt => KStart (k_now s) Hbt (heartbeat_address c) (encode_heartbeat (heartbeat_message c (k_now s)))
    end]).

(** l.331-335: is the error turned into errSendTimeoutExceeded?  requestCtx.Err()
    is nil before the deadline unless ctx is done. *)
Definition timed_out (s : kstate) (deadline : Z) (o : outcome) : bool :=
  bool_decide (o = SendDeadline) && (deadline <=? k_now s)%Z && negb (k_cancelled s).

(** l.262-269, l.276-279, l.285-301: back from Send. *)
Definition returned (c : kcfg) (initial : bool) (k : kind) (deadline : Z) (o : outcome) (s : kstate) : kstate * list kev :=
  if initial then
    match o with
    | Sent =>
        (KState KSelect (k_now s) (k_cancelled s)
           (Some (Ticker (k_now s + beacon_interval c) false, Ticker (k_now s + heartbeat_interval c) false))
           (k_timeouts s) (k_first s), [KReturn k o; KLoop (k_now s)])
    | _ => (k_set_pc KInitial s, [KReturn k o])
    end
  else
    match k with
    | Bcn => (k_set_pc KSelect s, [KReturn k o])
    | Hbt =>
        if timed_out s deadline o && (k_timeouts s <? 3)%Z && negb (k_first s) then
          (KState KSelect (k_now s) (k_cancelled s) (k_tickers s) (k_timeouts s + 1) (k_first s), [KReturn k o])
        else (KState KSelect (k_now s) (k_cancelled s) (k_tickers s) (k_timeouts s) true, [KReturn k o])
    end.

Definition ticker_of (k : kind) (t : ticker * ticker) : ticker := match k with Bcn => t.1 | Hbt => t.2 end.
Definition set_ticker (k : kind) (x : ticker) (t : ticker * ticker) : ticker * ticker :=
  match k with Bcn => (x, t.2) | Hbt => (t.1, x) end.

Definition k_set_ticker (k : kind) (x : ticker) (s : kstate) : kstate :=
  KState (k_pc s) (k_now s) (k_cancelled s) (set_ticker k x <$> k_tickers s) (k_timeouts s) (k_first s).

(** Steps.  Time does not pass a tick without the ticker firing; a ticker
    drops the tick if its channel is full. *)
Definition kstep (c : kcfg) (s : kstate) (l : klabel) : option (kstate * list kev) :=
  match l with
  | LTime d =>
      let ok := match k_tickers s with
                | None => true
                | Some t => (k_now s + d <=? t_next t.1)%Z && (k_now s + d <=? t_next t.2)%Z
                end in
      if (0 <? d)%Z && ok then
        Some (KState (k_pc s) (k_now s + d) (k_cancelled s) (k_tickers s) (k_timeouts s) (k_first s), [])
      else None
  | LFire k =>
      match k_tickers s with
      | Some t =>
          if (t_next (ticker_of k t) =? k_now s)%Z then
            Some (k_set_ticker k (Ticker (k_now s + interval c k) true) s, [])
          else None
      | None => None
      end
  | LCancelRun => Some (KState (k_pc s) (k_now s) true (k_tickers s) (k_timeouts s) (k_first s), [])
  | LCall =>
      match k_pc s with
      | KInitial => Some (send_with_timeout c true Bcn (beacon_interval c) s)
      | _ => None
      end
  | LTake k =>
      match k_pc s, k_tickers s with
      | KSelect, Some t =>
          if t_full (ticker_of k t) then
            Some (send_with_timeout c false k (delivery_timeout c) (k_set_ticker k (Ticker (t_next (ticker_of k t)) false) s))
          else None
      | _, _ => None
      end
  | LDone =>
      match k_pc s with
      | KSelect => if k_cancelled s then Some (k_set_pc KStopped s, [KEnd]) else None
      | _ => None
      end
  | LReturn o =>
      match k_pc s with
      | KSend initial k deadline _ => Some (returned c initial k deadline o s)
      | _ => None
      end
  end.

Notation krun c := (run (kstep c)).
