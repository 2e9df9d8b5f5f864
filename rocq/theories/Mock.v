(** The mock router and containers: session/mock.go, as a state machine.  A label
    is a call by the user, or the next step of a call in progress; one step is
    what happens between two points at which a goroutine can be interrupted with
    visible effect.
    Simplified: messages are numbers (the code passes pointers and never looks
    inside); the router's map of topics (l.71-80) is a total map, since creating
    an empty topic under the router's mutex has no visible effect; Start,
    OnSessionError and Accept do nothing in the code (l.22-26, 145-147) and are
    left out; Next, which waits at a single select, is the step in which that
    select proceeds. *)
From Coq Require Import ZArith NArith Ascii String.
From stdpp Require Import base gmap strings list.
From Verif Require Import GoBase Run.

Local Open Scope list_scope.

(** session/mock.go l.28-39 and 120-124.  [r_sub]: NewReceiver has returned it. *)
Record mrcv := MRcv { r_addr : string; r_cap : nat; r_sub : bool; r_closed : bool; r_buf : list nat }.
(** l.29-32. *)
Definition credit (c : Z) : nat := if (c <=? 0)%Z then 256 else Z.to_nat c.
(** l.154-159. *)
Record msnd := MSnd { s_addr : string; s_closed : bool }.
(** l.82-86.  [t_ver] counts the update channels closed so far. *)
Record topic := Topic { t_lock : bool; t_subs : list nat; t_ver : nat }.
(** l.88-90. *)
Definition no_topic : topic := Topic false [] 0.

(** What Send returned: nil, "sender closed", or the context's error. *)
Inductive mres := MOk | MClosed | MCtx.
Global Instance mres_eq_dec : EqDecision mres. Proof. solve_decision. Defined.

(** Where a call of Send is. *)
Inductive mpc :=
| SStart                                            (* l.162, before the select *)
| SLock                                             (* l.93, before the lock *)
| SEach (ver : nat) (sent : bool) (rem : list nat)  (* l.96, with the lock, [rem] to come *)
| SPut (ver : nat) (r : nat) (rem : list nat)       (* l.131, with the lock, for receiver [r] *)
| SWait (ver : nat)                                 (* l.102-107 *)
| SDone (r : mres).
Record mcall := MCall { k_snd : nat; k_addr : string; k_msg : nat; k_ctx : bool; k_pc : mpc }.

Record mst := MSt { m_rcv : list mrcv; m_top : gmap string topic; m_snd : list msnd; m_calls : list mcall }.
Definition m_init : mst := MSt [] ∅ [] [].
Definition topic_of (s : mst) (a : string) : topic := default no_topic (m_top s !! a).

Inductive mlabel :=
| MNewSender (a : string) | MNewReceiver (a : string) (credit : Z) | MSubscribe (r : nat)
| MSend (s m : nat) | MEndCtx (i : nat) | MStep (i : nat) | MStepCtx (i : nat)
| MNext (r : nat) (ctx : bool) | MNextClosed (r : nat) | MCloseR (r : nat) | MCloseS (s : nat).

Inductive mev :=
| EvSub (r : nat) (a : string)              (* NewReceiver returned receiver [r] *)
| EvSend (i s : nat) (a : string) (m : nat) (* the [i]th call of Send, with sender [s] for [a] *)
| EvPut (i : nat) (a : string) (r m : nat)  (* it handed the message to receiver [r] *)
| EvSent (i : nat) (a : string) (r : mres)  (* it returned *)
| EvGot (r m : nat)                         (* Next returned a message *)
| EvNone (r : nat)                          (* Next returned an error *)
| EvCloseR (r : nat) | EvCloseS (s : nat).

Definition set_call (i : nat) (c : mcall) (p : mpc) (s : mst) : mst :=
  MSt (m_rcv s) (m_top s) (m_snd s) (<[i := MCall (k_snd c) (k_addr c) (k_msg c) (k_ctx c) p]> (m_calls s)).
Definition set_top (a : string) (t : topic) (s : mst) : mst := MSt (m_rcv s) (<[a := t]> (m_top s)) (m_snd s) (m_calls s).
Definition set_rcv (r : nat) (x : mrcv) (s : mst) : mst := MSt (<[r := x]> (m_rcv s)) (m_top s) (m_snd s) (m_calls s).

(** The next step of Send: l.161-170, 92-110, 126-133. *)
Definition send_step (s : mst) (i : nat) (c : mcall) : option (mst * list mev) :=
  let a := k_addr c in
  let t := topic_of s a in
  let done r := Some (set_call i c (SDone r) s, [EvSent i a r]) in
  match k_pc c with
  | SStart =>
      (* l.162-169: default only when nothing else is ready *)
      match m_snd s !! k_snd c with
      | Some x => if s_closed x then done MClosed else if k_ctx c then done MCtx else Some (set_call i c SLock s, [])
      | None => None
      end
  | SLock => if t_lock t then None else Some (set_call i c (SEach (t_ver t) false (t_subs t)) (set_top a (Topic true (t_subs t) (t_ver t)) s), [])
  | SEach v sent [] =>
      (* l.100-109 *)
      let s' := set_top a (Topic false (t_subs t) (t_ver t)) s in
      if sent then Some (set_call i c (SDone MOk) s', [EvSent i a MOk]) else Some (set_call i c (SWait v) s', [])
  | SEach v _ (r :: rem) =>
      (* l.97-98, 127-131 *)
      match m_rcv s !! r with
      | Some x => if r_closed x then Some (set_call i c (SEach v true rem) s, []) else Some (set_call i c (SPut v r rem) s, [])
      | None => None
      end
  | SPut v r rem =>
      (* l.131: the channel has room *)
      match m_rcv s !! r with
      | Some x =>
          if length (r_buf x) <? r_cap x
          then Some (set_call i c (SEach v true rem) (set_rcv r (MRcv (r_addr x) (r_cap x) (r_sub x) (r_closed x) (r_buf x ++ [k_msg c])) s), [EvPut i a r (k_msg c)])
          else None
      | None => None
      end
  | SWait v => if v =? t_ver t then None else Some (set_call i c SLock s, [])
  | SDone _ => None
  end.

Definition mstep (s : mst) (lb : mlabel) : option (mst * list mev) :=
  match lb with
  | MNewSender a =>
      (* l.41-47 *)
      Some (MSt (m_rcv s) (m_top s) (m_snd s ++ [MSnd a false]) (m_calls s), [])
  | MNewReceiver a cr =>
      (* l.28-37, up to the topic's lock *)
      Some (MSt (m_rcv s ++ [MRcv a (credit cr) false false []]) (m_top s) (m_snd s) (m_calls s), [])
  | MSubscribe r =>
      (* l.112-118 *)
      match m_rcv s !! r with
      | Some x =>
          let t := topic_of s (r_addr x) in
          if r_sub x || t_lock t then None
          else Some (set_top (r_addr x) (Topic false (t_subs t ++ [r]) (S (t_ver t))) (set_rcv r (MRcv (r_addr x) (r_cap x) true (r_closed x) (r_buf x)) s), [EvSub r (r_addr x)])
      | None => None
      end
  | MSend n m =>
      match m_snd s !! n with
      | Some x => Some (MSt (m_rcv s) (m_top s) (m_snd s) (m_calls s ++ [MCall n (s_addr x) m false SStart]), [EvSend (length (m_calls s)) n (s_addr x) m])
      | None => None
      end
  | MEndCtx i =>
      match m_calls s !! i with
      | Some c => Some (MSt (m_rcv s) (m_top s) (m_snd s) (<[i := MCall (k_snd c) (k_addr c) (k_msg c) true (k_pc c)]> (m_calls s)), [])
      | None => None
      end
  | MStep i => match m_calls s !! i with Some c => send_step s i c | None => None end
  | MStepCtx i =>
      (* l.165-166 when both are ready, l.103-104 *)
      match m_calls s !! i with
      | Some c =>
          match k_pc c with
          | SStart | SWait _ => if k_ctx c then Some (set_call i c (SDone MCtx) s, [EvSent i (k_addr c) MCtx]) else None
          | _ => None
          end
      | None => None
      end
  | MNext r ctx =>
      (* l.136-137, 140-141 *)
      match m_rcv s !! r with
      | Some x =>
          if r_sub x then
            if ctx then Some (s, [EvNone r])
            else match r_buf x with
                 | m :: q => Some (set_rcv r (MRcv (r_addr x) (r_cap x) true (r_closed x) q) s, [EvGot r m])
                 | [] => None
                 end
          else None
      | None => None
      end
  | MNextClosed r =>
      (* l.138-139 *)
      match m_rcv s !! r with Some x => if r_sub x && r_closed x then Some (s, [EvNone r]) else None | None => None end
  | MCloseR r =>
      (* l.149-152 *)
      match m_rcv s !! r with
      | Some x => if r_sub x then Some (set_rcv r (MRcv (r_addr x) (r_cap x) true true (r_buf x)) s, [EvCloseR r]) else None
      | None => None
      end
  | MCloseS n =>
      (* l.172-175 *)
      match m_snd s !! n with
      | Some x => Some (MSt (m_rcv s) (m_top s) (<[n := MSnd (s_addr x) true]> (m_snd s)) (m_calls s), [EvCloseS n])
      | None => None
      end
  end.
Notation mrun := (run mstep).
