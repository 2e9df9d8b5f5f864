(** Model of handlers that call the client they were registered with
    (eventsource/client.go l.61-161), over Client.v.

    A handler given by the user runs on its listener's goroutine (l.122-131);
    there it may call OnRecord, OnHeartbeat, Listen, SendFlush and Close, one
    after the other, and returns when it likes.  A call that needs the client's
    lock waits while Close has it.  What else handlers do is left out. *)
From Coq Require Import ZArith NArith Ascii String.
From stdpp Require Import base gmap strings list fin_maps.
From Verif Require Import GoBase Encoding Records Messages Run Keepalive Client.

Local Open Scope list_scope.

(** What a handler may call: client.go l.61-161 (OnRecord, OnHeartbeat, Listen,
    SendFlush, Close). *)
Inductive rcall := RReg (k : hkind) (n : nat) | RListen (p : provider) | RSendFlush | RClose.

(** Where the handler running on a listener is: between calls; about to make one;
    in Listen between wg.Add and the lock (l.88-91); in Close after its loop
    (l.146). *)
Inductive hst := HBody | HWant (q : rcall) | HAdded (p : provider) | HInClose.

(** The client and the handlers running on its listeners' goroutines
    (client.go l.122-131). *)
Record rstate := R {
  r_s : cstate;
  r_in : gmap nat hst;            (* the handlers of the user that are running, by listener *)
  r_out : nat;                    (* calls of Listen by others between wg.Add and the lock *)
}.
Definition r_init : rstate := R c_init ∅ 0.

(** Steps: of the client (client.go l.61-161), a handler making a call, and that
    call going on; what happens. *)
Inductive rlabel := RBase (lb : clabel) | RCall (i : nat) (q : rcall) | RGo (i : nat).
Inductive rcev := RE (e : cev) | RAsk (i : nat) (q : rcall) | RBack (i : nat) (q : rcall).

(** A user's handler was called (client.go l.124, 129); a Close returned (l.146). *)
Definition called (ev : list cev) : bool := existsb (fun e => match e with CCall _ (User _) _ => true | _ => false end) ev.
Definition returned (ev : list cev) : bool := existsb (fun e => match e with CClosed => true | _ => false end) ev.

(** Close returned: if a handler had called it, it goes on (the lock is held by
    one Close at a time). *)
Definition release (m : gmap nat hst) : gmap nat hst := (fun h => match h with HInClose => HBody | _ => h end) <$> m.
Definition closers (m : gmap nat hst) : list nat := omap (fun x => match snd x with HInClose => Some (fst x) | _ => None end) (map_to_list m).

(** One step: client.go l.61-161, the calls of handlers included. *)
Definition rstep (c : info) (s : rstate) (l : rlabel) : option (rstate * list rcev) :=
  match l with
  | RBase lb =>
      if match lb with
         | LLRun i => match r_in s !! i with None | Some HBody => true | _ => false end   (* the previous handler returned *)
         | LListen _ => 0 <? r_out s
         | _ => true
         end then
        match cstep c (r_s s) lb with
        | Some (s', ev) =>
            Some (R s'
                    (match lb with
                     | LLRun i => if called ev then <[i := HBody]> (r_in s) else delete i (r_in s)
                     | _ => if returned ev then release (r_in s) else r_in s
                     end)
                    (match lb with LListenAdd => S (r_out s) | LListen _ => pred (r_out s) | _ => r_out s end),
                  (RE <$> ev) ++ if returned ev then (fun i => RBack i RClose) <$> closers (r_in s) else [])
        | None => None
        end
      else None
  | RCall i q =>
      if c_crashed (r_s s) then None else
      match r_in s !! i with
      | Some HBody => Some (R (r_s s) (<[i := HWant q]> (r_in s)) (r_out s), [RAsk i q])
      | _ => None
      end
  | RGo i =>
      let via lb h back :=
        match cstep c (r_s s) lb with
        | Some (s', ev) => Some (R s' (<[i := h]> (r_in s)) (r_out s), (RE <$> ev) ++ back)
        | None => None
        end in
      match r_in s !! i with
      | Some (HWant (RReg k n)) => via (LReg k n) HBody [RBack i (RReg k n)]
      | Some (HWant (RListen p)) => via LListenAdd (HAdded p) []
      | Some (HAdded p) => via (LListen p) HBody [RBack i (RListen p)]
      | Some (HWant RSendFlush) => via LSendFlush HBody [RBack i RSendFlush]
      | Some (HWant RClose) => via LCloseBegin HInClose []
      | _ => None
      end
  end.

Notation rrun c := (run (rstep c)).
