(** Model of the collector of cmd/vanflow-tool (serve.go l.38-176): one store,
    and for each source discovered a client with a watch, whose records its
    dispatcher puts into the store.

    On top of WatchClient.v: handler number 1 of every client is the Dispatch of
    the dispatcher made for its source.  A call of it takes a step for each
    record, and one to return; its listener waits for that.  The logging of
    errors is left out. *)
From Coq Require Import ZArith NArith String.
From stdpp Require Import base gmap strings list pretty.
From Verif Require Import GoBase Encoding Records Messages Env SyncMap Cache Tool Run Keepalive Client WatchClient.
From Verif Require Dispatch.

Local Open Scope list_scope.

(** serve.go l.136-140: the reference to a source; fmt.Sprint of an int. *)
Definition source_of (i : info) : source_ref := SourceRef (pretty (i_version i)) (i_type i) (i_id i).

(** serve.go l.43-48: the calls of RegisterStore, for store 0. *)
Definition tool_registers (flows logs : bool) : list Dispatch.cmd :=
  (fun t => Dispatch.CRegister (Some (VRec false t (zero_value t))) 0) <$> tool_types flows logs.

(** The type keys and their store, as every dispatcher has them (dispatch.go
    l.29-38; that NewDispatcher makes this map is proved, C114_routes). *)
Definition tool_routes (flows logs : bool) : gmap string nat :=
  list_to_map ((fun t => (type_meta_string (default (TypeMeta "" "") (get_type_meta t)), 0)) <$> tool_types flows logs).

(** The clients and watches; the store; what each listener that runs a
    dispatcher has still to dispatch. *)
Record tstate := TState {
  t_j : jstate;
  t_w : Dispatch.stores;
  t_todo : gmap (nat * nat) (list (option vrec));
  t_crashed : bool;
}.

(** serve.go l.38-48 and 113-124: no source yet. *)
Definition t_init (n : nat) (now : Z) : tstate := TState (j_init n now) ∅ ∅ false.

(** The store the tool serves (serve.go l.44). *)
Definition t_store (s : tstate) : simap entry := Dispatch.store_at (t_w s) 0.

Inductive tev :=
  | TEv (e : jev)
  | TDisp (j i : nat) (e : env) (r : option vrec)    (* a record was dispatched *)
  | TRet (j i : nat).                                (* Dispatch returned *)

Inductive tlabel :=
  | TJ (l : jlabel)
  | TPut (j i : nat) (e : env)       (* the next record is dispatched *)
  | TReturn (j i : nat).

(** Dispatch is called (client.go l.122-126): by which client and listener,
    with which records. *)
Definition dispatching (ev : list jev) : option (nat * nat * list (option vrec)) :=
  match ev with
  | [JEC j (CCall i (User 1) (MsgRecord rm))] => Some (j, i, rm_records rm)
  | _ => None
  end.

(** Whether the step is one of a listener that runs a dispatcher. *)
Definition t_held (s : tstate) (l : jlabel) : bool :=
  match l with
  | JC j (LLRun i) => match t_todo s !! (j, i) with Some _ => true | None => false end
  | _ => false
  end.

(** One step; [infos] are the sources of the clients (serve.go l.125-176). *)
Definition tstep (flows logs : bool) (infos : nat -> info) (s : tstate) (lb : tlabel) : option (tstate * list tev) :=
  if t_crashed s then None else
  match lb with
  | TJ l =>
      if t_held s l then None else
      match jstep infos (t_j s) l with
      | None => None
      | Some (js, ev) =>
          Some (TState js (t_w s) (match dispatching ev with Some (j, i, rs) => <[(j, i) := rs]> (t_todo s) | None => t_todo s end) false,
                TEv <$> ev)
      end
  | TPut j i e =>
      (* dispatch.go l.48-61 *)
      if j_crashed (t_j s) then None else
      match t_todo s !! (j, i) with
      | Some (r :: rs) =>
          let '(w, _, p) := Dispatch.dispatch (fun _ => fixture_config) (tool_routes flows logs) (source_of (infos j)) [(e, r)] (t_w s) in
          Some (TState (t_j s) w (<[(j, i) := rs]> (t_todo s)) p, [TDisp j i e r])
      | _ => None
      end
  | TReturn j i =>
      if j_crashed (t_j s) then None else
      match t_todo s !! (j, i) with
      | Some [] => Some (TState (t_j s) (t_w s) (delete (j, i) (t_todo s)) false, [TRet j i])
      | _ => None
      end
  end.

Notation trun flows logs infos := (run (tstep flows logs infos)).

(** What concerns the clients and watches. *)
Definition jevs (tr : list tev) : list jev := omap (fun e => match e with TEv x => Some x | _ => None end) tr.
