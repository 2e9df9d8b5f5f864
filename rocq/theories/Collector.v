(** Model of the tool's collector (cmd/vanflow-tool/serve.go l.77-182): the
    handlers it gives to discovery and its list of sources.

    A layer over Discovery.v.  Nobody else calls the discovery: sources become
    known by beacons and are forgotten by watches.  Left out: the HTTP server,
    the containers, what clients receive (Client.v, Dispatch.v; activity of a
    watch is a label of Discovery.v), flushes, and logging.  Of what is listed
    only the source's details are kept (SourceRef is made of them).
    NewWatchClient is one step: it looks the source up under the lock and
    registers the watch, which nobody sees before it runs. *)
From Coq Require Import ZArith NArith Ascii String.
From stdpp Require Import base gmap strings list.
From Verif Require Import GoBase Encoding Records Messages Run Keepalive Discovery.

Local Open Scope list_scope.

(** Where the running handler is: before NewWatchClient, or before Delete;
    before Store; before its end. *)
Inductive stage := HFresh | HGot | HFin.

Record vstate := VState {
  v_d : dstate;
  v_at : stage;
  v_src : gmap string info;     (* l.77, the sync.Map *)
}.

(** l.131, with no grace period and the default interval. *)
Definition tool_watch (id : string) : wcfg := WCfg id 30000000000 0 0.

Inductive vlabel :=
  | VIn (lb : dlabel)            (* discovery, a watch, or the network *)
  | VTake (k : note)             (* the handler goroutine takes a notification *)
  | VBody.                       (* the next step of the handler *)
Inductive vev :=
  | VD (e : dev)
  | VListed (id : string)
  | VUnlisted (id : string).

(** What is not a step of the handler; the tool makes no other calls (l.77-203). *)
Definition inside (lb : dlabel) : bool :=
  match lb with LUser _ | LTake _ | LHandlerRet | LHandlerCall _ | LHandlerOp | LWatch _ => false | _ => true end.

(** l.123-181: a step of the handler. *)
Definition body (s : vstate) : option (vstate * list vev) :=
  match d_hand (v_d s), v_at s with
  | HRunning Disc x, HFresh =>
      (* l.124-135 *)
      match dstep (v_d s) (LWatch (tool_watch (i_id (ds_info x)))) with
      | Some (d, ev) => Some (VState d (match ev with [DWatch _ _] => HGot | _ => HFin end) (v_src s), VD <$> ev)
      | None => None
      end
  | HRunning Disc x, HGot =>
      (* l.137-178: what follows Store does not touch discovery *)
      Some (VState (v_d s) HFin (<[i_id (ds_info x) := ds_info x]> (v_src s)), [VListed (i_id (ds_info x))])
  | HRunning Forg x, HFresh =>
      (* l.178-181 *)
      Some (VState (v_d s) HFin (delete (i_id (ds_info x)) (v_src s)), [VUnlisted (i_id (ds_info x))])
  | HRunning _ _, HFin =>
      match dstep (v_d s) LHandlerRet with
      | Some (d, ev) => Some (VState d HFresh (v_src s), VD <$> ev)
      | None => None
      end
  | _, _ => None
  end.

(** The tool; a notification starts its handler (Discovery.v). *)
Definition vstep (s : vstate) (l : vlabel) : option (vstate * list vev) :=
  match l with
  | VIn lb =>
      if inside lb then
        match dstep (v_d s) lb with Some (d, ev) => Some (VState d (v_at s) (v_src s), VD <$> ev) | None => None end
      else None
  | VTake k =>
      match dstep (v_d s) (LTake k) with Some (d, ev) => Some (VState d HFresh (v_src s), VD <$> ev) | None => None end
  | VBody => body s
  end.

(** l.77 and l.121. *)
Definition v_init (now : Z) : vstate := VState (d_init now) HFresh ∅.
Notation vrun := (run vstep).
