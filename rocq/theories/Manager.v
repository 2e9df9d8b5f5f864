(** Model of eventsource/manager.go without the keepalives: the goroutines
    serve, sendRecords and listenFlushes, and the channels between them.  A
    step is taken by one goroutine, by a publisher, or by the environment. *)
From Coq Require Import ZArith NArith Ascii String.
From stdpp Require Import base gmap strings list.
From Verif Require Import GoBase Encoding Records Messages Env SyncMap Tokens Cache Dispatch Diff.

Local Open Scope list_scope.

(** eventsource/manager.go l.16-43, ManagerConfig as far as used here: which
    stores (with their configurations), whether UpdateBufferTime and FlushDelay
    are positive, and the two batch sizes. *)
Record mcfg := MCfg {
  mc_stores : list nat;
  mc_store_cfg : nat -> config;
  mc_buffers : bool;
  mc_batch : Z;
  mc_delays : bool;
  mc_flush_batch : Z;
}.

(** The records of a RecordMessage; its To is left empty by serve. *)
Notation mmsg := (list (option vrec)).

(** Where serve is (eventsource/manager.go l.144-226). *)
Inductive spc :=
  | SIdle                                           (* l.146, the outer select *)
  | SBuffer (buf : list rec_update)                 (* l.153, in nextN; [buf] starts with [update] *)
  | SSend (m : mmsg)                                (* l.173, sending an update message *)
  | SDrain (n : Z)                                  (* l.183, in nextN with [n] flushes read *)
  | SPass (q : list nat) (tok : string)             (* l.195, flushStoreQ and selector.Continue *)
  | SPassSend (m : mmsg) (q : list nat) (tok : string) (* l.218, sending a flush message *)
  | SStopped.                                       (* returned *)

(** The channels (l.59-67), the goroutines, the context and the stores. *)
Record mstate := MState {
  m_changes : list rec_update;   (* changeQueue, capacity 256 *)
  m_flushes : Z;                 (* length of flushQueue, capacity 8 *)
  m_sends : list mmsg;           (* sendQueue, capacity 256 *)
  m_serve : spc;
  m_listening : bool;            (* listenFlushes has not returned *)
  m_sending : bool;              (* sendRecords has not returned *)
  m_cancelled : bool;            (* the context is done *)
  m_crashed : bool;              (* some goroutine panicked *)
  m_stores : stores;
}.

(** l.59-78, NewManager and Run. *)
Definition m_init (w : stores) : mstate := MState [] 0 [] SIdle true true false false w.

(** What happens, as seen from outside. *)
Inductive mev :=
  | MPublished (u : rec_update)              (* PublishUpdate returned *)
  | MQueued (update : bool) (m : mmsg)       (* serve queued a message: of updates, or of a flush *)
  | MFlushReq                                (* a flush message was received *)
  | MFlushFail                               (* receiving failed *)
  | MPassStart
  | MPassEnd
  | MSent (m : mmsg) (am : amqp_msg) (ok : bool)  (* Send was called *)
  | MSkipped (m : mmsg).                     (* the message did not encode *)

(** What serve does next: take from a channel in the outer select, receive one
    more in nextN, see the context of nextN done, see the manager's context
    done, or the one thing there is to do. *)
Inductive act := ATakeUpdate | ATakeFlush | AMore | ATimeout | AStop | ADo.

Inductive mlabel :=
  | LPublish (u : rec_update)
  | LServe (e : env) (a : act)
  | LRecv (ok : bool)           (* listenFlushes: Next returned a message, or an error *)
  | LListenStop
  | LSend (ok : bool)           (* sendRecords: the outcome of Send *)
  | LSendStop
  | LCancel
  | LStore (i : nat) (e : env) (o : op).   (* somebody calls a store *)

Definition set_serve (p : spc) (s : mstate) : mstate :=
  MState (m_changes s) (m_flushes s) (m_sends s) p (m_listening s) (m_sending s) (m_cancelled s) (m_crashed s) (m_stores s).
Definition set_changes (l : list rec_update) (s : mstate) : mstate :=
  MState l (m_flushes s) (m_sends s) (m_serve s) (m_listening s) (m_sending s) (m_cancelled s) (m_crashed s) (m_stores s).
Definition set_flushes (n : Z) (s : mstate) : mstate :=
  MState (m_changes s) n (m_sends s) (m_serve s) (m_listening s) (m_sending s) (m_cancelled s) (m_crashed s) (m_stores s).
Definition set_sends (l : list mmsg) (s : mstate) : mstate :=
  MState (m_changes s) (m_flushes s) l (m_serve s) (m_listening s) (m_sending s) (m_cancelled s) (m_crashed s) (m_stores s).
Definition set_listening (b : bool) (s : mstate) : mstate :=
  MState (m_changes s) (m_flushes s) (m_sends s) (m_serve s) b (m_sending s) (m_cancelled s) (m_crashed s) (m_stores s).
Definition set_sending (b : bool) (s : mstate) : mstate :=
  MState (m_changes s) (m_flushes s) (m_sends s) (m_serve s) (m_listening s) b (m_cancelled s) (m_crashed s) (m_stores s).
Definition set_cancelled (s : mstate) : mstate :=
  MState (m_changes s) (m_flushes s) (m_sends s) (m_serve s) (m_listening s) (m_sending s) true (m_crashed s) (m_stores s).
Definition set_crashed (s : mstate) : mstate :=
  MState (m_changes s) (m_flushes s) (m_sends s) (m_serve s) (m_listening s) (m_sending s) (m_cancelled s) true (m_stores s).
Definition set_stores (w : stores) (s : mstate) : mstate :=
  MState (m_changes s) (m_flushes s) (m_sends s) (m_serve s) (m_listening s) (m_sending s) (m_cancelled s) (m_crashed s) w.

(** l.161-169: the records of an update message; [None] if diffRecord panics.
    One environment serves the whole batch. *)
Fixpoint batch_records (e : env) (buf : list rec_update) : option mmsg :=
  match buf with
  | [] => Some []
  | u :: buf' =>
      match diff_record e u with
      | DPanic => None
      | DNone => batch_records e buf'
      | DRec r => cons r <$> batch_records e buf'
      end
  end.

(** l.159-172. *)
Definition finish_batch (e : env) (buf : list rec_update) (s : mstate) : mstate :=
  match batch_records e buf with
  | None => set_crashed s
  | Some [] => set_serve SIdle s
  | Some m => set_serve (SSend m) s
  end.

(** l.155-157: back from nextN with a buffer. *)
Definition buffered (e : env) (buf : list rec_update) (s : mstate) : mstate :=
  if m_cancelled s then set_serve SStopped s else finish_batch e buf s.

(** l.189-194. *)
Definition start_pass (c : mcfg) (s : mstate) : mstate * list mev :=
  (set_serve (SPass (mc_stores c) "") s, [MPassStart]).

(** l.185-187: back from draining flushes. *)
Definition drained (c : mcfg) (s : mstate) : mstate * list mev :=
  if m_cancelled s then (set_serve SStopped s, []) else start_pass c s.

(** l.196-217, one round of the loop over the stores.  The errors List can
    return are not context errors, so they lead to another try. *)
Definition list_next (c : mcfg) (e : env) (i : nat) (q : list nat) (tok : string) (s : mstate) : mstate :=
  let sel := Selector 0 (mc_flush_batch c) tok Ascending in
  match (run_op (mc_store_cfg c i) e (store_at (m_stores s) i) (OList (Some sel))).1.2 with
  | OutSet l tok' None =>
      let q' := if bool_decide (tok' = ""%string) then q else i :: q in
      match l with
      | [] => set_serve (SPass q' tok') s
      | _ => set_serve (SPassSend (e_rec <$> l) q' tok') s
      end
  | OutPanic => set_crashed s
  | _ => s
  end.

(** l.144-226, serve. *)
Definition serve_step (c : mcfg) (e : env) (a : act) (s : mstate) : option (mstate * list mev) :=
  match m_serve s, a with
  | SIdle, AStop => if m_cancelled s then Some (set_serve SStopped s, []) else None
  | SIdle, ATakeUpdate =>
      match m_changes s with
      | [] => None
      | u :: q =>
          let s1 := set_changes q s in
          if mc_buffers c && (1 <? mc_batch c)%Z then Some (set_serve (SBuffer [u]) s1, [])
          else Some (finish_batch e [u] s1, [])
      end
  | SIdle, ATakeFlush =>
      if (0 <? m_flushes s)%Z then
        let s1 := set_flushes (m_flushes s - 1) s in
        if mc_delays c then Some (set_serve (SDrain 0) s1, []) else Some (start_pass c s1)
      else None
  | SBuffer buf, AMore =>
      match m_changes s with
      | [] => None
      | u :: q =>
          let s1 := set_changes q s in
          let buf' := buf ++ [u] in
          if (Z.of_nat (length buf') =? mc_batch c)%Z then Some (buffered e buf' s1, [])
          else Some (set_serve (SBuffer buf') s1, [])
      end
  | SBuffer buf, ATimeout => Some (buffered e buf s, [])
  | SSend m, ADo =>
      if (Z.of_nat (length (m_sends s)) <? 256)%Z then
        Some (set_serve SIdle (set_sends (m_sends s ++ [m]) s), [MQueued true m])
      else None
  | SSend _, AStop => if m_cancelled s then Some (set_serve SStopped s, []) else None
  | SDrain n, AMore =>
      if (0 <? m_flushes s)%Z then
        let s1 := set_flushes (m_flushes s - 1) s in
        if (n + 1 =? 2048)%Z then Some (drained c s1) else Some (set_serve (SDrain (n + 1)) s1, [])
      else None
  | SDrain _, ATimeout => Some (drained c s)
  | SPass [] _, ADo => Some (set_serve SIdle s, [MPassEnd])
  | SPass (i :: q) tok, ADo => Some (list_next c e i q tok s, [])
  | SPassSend m q tok, ADo =>
      if (Z.of_nat (length (m_sends s)) <? 256)%Z then
        Some (set_serve (SPass q tok) (set_sends (m_sends s ++ [m]) s), [MQueued false m])
      else None
  | SPassSend _ _ _, AStop => if m_cancelled s then Some (set_serve SStopped s, []) else None
  | _, _ => None
  end.

(** l.80-99, one round of sendRecords; messages.go l.190-206 for encoding. *)
Definition send_step (ok : bool) (s : mstate) : option (mstate * list mev) :=
  match m_sends s with
  | [] => None
  | m :: q =>
      let s1 := set_sends q s in
      match encode_record_msg (RecordMsg (MsgProps "" "" "") m) with
      | Ok am => Some (s1, [MSent m am ok])
      | Err _ => Some (s1, [MSkipped m])
      | Panic => Some (set_crashed s1, [])
      end
  end.

(** l.309-326, one round of listenFlushes.  After an error other than the
    context's it goes on as if a message had come. *)
Definition recv_step (ok : bool) (s : mstate) : mstate * list mev :=
  (if (m_flushes s <? 8)%Z then set_flushes (m_flushes s + 1) s else s, [if ok then MFlushReq else MFlushFail]).

(** A step; none if it cannot be taken. *)
Definition mstep (c : mcfg) (s : mstate) (l : mlabel) : option (mstate * list mev) :=
  if m_crashed s then None
  else match l with
  | LPublish u =>
      if (Z.of_nat (length (m_changes s)) <? 256)%Z
      then Some (set_changes (m_changes s ++ [u]) s, [MPublished u]) else None
  | LServe e a => serve_step c e a s
  | LRecv ok => if m_listening s then Some (recv_step ok s) else None
  | LListenStop => if m_listening s && m_cancelled s then Some (set_listening false s, []) else None
  | LSend ok => if m_sending s then send_step ok s else None
  | LSendStop => if m_sending s && m_cancelled s then Some (set_sending false s, []) else None
  | LCancel => Some (set_cancelled s, [])
  | LStore i e o =>
      let '(s', _, _) := run_op (mc_store_cfg c i) e (store_at (m_stores s) i) o in
      Some (set_stores (<[i := s']> (m_stores s)) s, [])
  end.

(** A run, with what happened. *)
Fixpoint mrun (c : mcfg) (s : mstate) (ls : list mlabel) : option (mstate * list mev) :=
  match ls with
  | [] => Some (s, [])
  | l :: ls' =>
      match mstep c s l with
      | None => None
      | Some (s1, ev1) =>
          match mrun c s1 ls' with
          | None => None
          | Some (s2, ev2) => Some (s2, ev1 ++ ev2)
          end
      end
  end.
