(** Model of the fixture server of cmd/vanflow-tool (fixture.go l.24-184,
    l.191-253): the loop that replaces one set of managers by another, the
    requests for and changes of its state, and the goroutines that replay
    flows.  What a replay publishes is in Tool.v and what a manager does in
    Manager.v; here a manager only takes updates from its queue while its
    context lasts. *)
From Coq Require Import ZArith String.
From stdpp Require Import base gmap strings list.
From Verif Require Import GoBase Cache Diff Tool Run.

Local Open Scope list_scope.

(** fixture.go l.30, l.97, l.135: the three values of status. *)
Inductive fstatus := Pending | Reconfiguring | Running.

(** A manager: the number of the configuration it is from and its source
    name. *)
Notation mgr := (nat * string)%type.

(** fixture.go l.83-141, the loop of Start: where it is.  A configuration is
    the list of its sources, in the order the map is ranged over. *)
Inductive floop :=
| LIdle                                  (* l.90 *)
| LTaken (cfg : list source_ref)         (* received, l.92-93 *)
| LCancelled (cfg : list source_ref)     (* before l.97 *)
| LBuild (todo : list source_ref) (cfg : list source_ref)   (* l.105 *)
| LStart (todo : gset string)            (* l.131 *)
| LPublish                               (* before l.137 *)
| LEnded.                                (* returned, l.91 *)

(** A replay (goroutine of l.255): the updates it has still to publish and to
    which manager, and the number of flows to add to the counter at its end. *)
Record replay := Replay { rp_todo : list (mgr * rec_update); rp_flows : Z }.

(** fixture.go l.71-79, fixtureServer, with the contexts, connections and
    goroutines it has started. *)
Record fstate := FState {
  fs_done : bool;                            (* the server's context has ended *)
  fs_loop : floop;
  fs_lock : option nat;                      (* the request to /flows that holds the mutex *)
  fs_status : fstatus;
  fs_managers : option nat;                  (* f.managers: the configuration's number, or nil *)
  fs_processed : Z;
  fs_accepted : list (list source_ref);      (* the configurations received, oldest first *)
  fs_cancelled : nat;                        (* manageCancel has been called for those below *)
  fs_conns : list (nat * source_ref);        (* containers started, by configuration *)
  fs_started : list mgr;                     (* managers whose Run was called *)
  fs_posts : gmap nat (list source_ref * fstatus);  (* waiting at l.182 *)
  fs_queue : gmap mgr (list rec_update);     (* changeQueues *)
  fs_replays : gmap nat replay;
}.

(** fixture.go l.28-32; main.go has ended no context yet. *)
Definition fixture0 : fstate :=
  FState false LIdle None Pending None 0 [] 0 [] [] ∅ ∅ ∅.

(** What can happen. *)
Inductive flabel :=
| Stop                                         (* the context ends *)
| GetStatus (r : nat)                          (* GET /, l.143-151 *)
| Post (r : nat) (cfg : list source_ref)       (* POST / reaches l.182 *)
| Take (r : nat)                               (* the loop receives from it, l.92 *)
| LoopEnd                                      (* the loop sees the context's end, l.90 *)
| Loop                                         (* the loop's next step *)
| StartOne (n : string)                        (* l.131-136 for one manager *)
| FlowsBegin (r : nat)                         (* /flows takes the mutex, l.193 *)
| FlowsEnd (r : nat) (new : list (nat * (list (string * rec_update) * Z)))
                                               (* ... and returns, having started replays, l.238-252 *)
| Publish (k : nat)                            (* a replay publishes its next update *)
| Consume (m : mgr)                            (* a manager takes an update *)
| ReplayEnd (k : nat).                         (* a replay returns, l.256-260 *)

(** What can be seen. *)
Inductive fevent :=
| EvStatus (r : nat) (st : fstatus)            (* answer to GET / *)
| EvAnswer (r : nat) (st : fstatus)            (* answer to POST / *)
| EvReplayed (k : nat).

(** manager.go l.62: the capacity of changeQueue. *)
Definition queue_cap : nat := 256.

(** The names a configuration gives managers for (l.105-117). *)
Definition cfg_names (cfg : list source_ref) : gset string := list_to_set (sr_name <$> cfg).

(** The manager's context has not ended: l.102, l.93. *)
Definition ctx_live (s : fstate) (m : mgr) : Prop := fs_done s = false /\ fs_cancelled s <= m.1.
Global Instance ctx_live_dec s m : Decision (ctx_live s m).
Proof. unfold ctx_live. apply _. Defined.

(** The manager is at work. *)
Definition live (s : fstate) (m : mgr) : Prop := m ∈ fs_started s /\ ctx_live s m.
Global Instance live_dec s m : Decision (live s m).
Proof. unfold live. apply _. Defined.

Definition set_loop (l : floop) (s : fstate) : fstate :=
  FState (fs_done s) l (fs_lock s) (fs_status s) (fs_managers s) (fs_processed s) (fs_accepted s) (fs_cancelled s)
    (fs_conns s) (fs_started s) (fs_posts s) (fs_queue s) (fs_replays s).
Definition set_lock (l : option nat) (s : fstate) : fstate :=
  FState (fs_done s) (fs_loop s) l (fs_status s) (fs_managers s) (fs_processed s) (fs_accepted s) (fs_cancelled s)
    (fs_conns s) (fs_started s) (fs_posts s) (fs_queue s) (fs_replays s).
Definition set_view (st : fstatus) (ms : option nat) (s : fstate) : fstate :=
  FState (fs_done s) (fs_loop s) (fs_lock s) st ms (fs_processed s) (fs_accepted s) (fs_cancelled s)
    (fs_conns s) (fs_started s) (fs_posts s) (fs_queue s) (fs_replays s).
Definition set_posts (p : gmap nat (list source_ref * fstatus)) (s : fstate) : fstate :=
  FState (fs_done s) (fs_loop s) (fs_lock s) (fs_status s) (fs_managers s) (fs_processed s) (fs_accepted s)
    (fs_cancelled s) (fs_conns s) (fs_started s) p (fs_queue s) (fs_replays s).
Definition set_replays (q : gmap mgr (list rec_update)) (rs : gmap nat replay) (n : Z) (s : fstate) : fstate :=
  FState (fs_done s) (fs_loop s) (fs_lock s) (fs_status s) (fs_managers s) n (fs_accepted s) (fs_cancelled s)
    (fs_conns s) (fs_started s) (fs_posts s) q rs.

(** The last configuration received (its number is one less than their
    count). *)
Definition current (s : fstate) : nat := pred (length (fs_accepted s)).

(** fixture.go l.92-139: the loop's steps, apart from starting managers. *)
Definition loop_step (s : fstate) : option fstate :=
  match fs_loop s with
  | LTaken cfg =>
      (* l.94-96: cancel the previous managers, if any *)
      Some (FState (fs_done s) (LCancelled cfg) (fs_lock s) (fs_status s) (fs_managers s) (fs_processed s)
        (fs_accepted s) (current s) (fs_conns s) (fs_started s) (fs_posts s) (fs_queue s) (fs_replays s))
  | LCancelled cfg =>
      (* l.97-104 *)
      match fs_lock s with
      | None => Some (set_loop (LBuild cfg cfg) (set_view Reconfiguring None s))
      | Some _ => None
      end
  | LBuild (src :: todo) cfg =>
      (* l.105-128: a container of its own, started with the server's context *)
      Some (FState (fs_done s) (LBuild todo cfg) (fs_lock s) (fs_status s) (fs_managers s) (fs_processed s)
        (fs_accepted s) (fs_cancelled s) (fs_conns s ++ [(current s, src)]) (fs_started s) (fs_posts s) (fs_queue s) (fs_replays s))
  | LBuild [] cfg => Some (set_loop (LStart (cfg_names cfg)) s)
  | LStart todo => if bool_decide (todo = ∅) then Some (set_loop LPublish s) else None
  | LPublish =>
      (* l.137-140 *)
      match fs_lock s with
      | None => Some (set_loop LIdle (set_view Running (Some (current s)) s))
      | Some _ => None
      end
  | LIdle | LEnded => None
  end.

(** fixture.go l.221-240: each replay's updates go to the managers its flows
    name; a replay that names none ends the process (C82) and is no step
    here. *)
Fixpoint targets (s : fstate) (l : list (string * rec_update)) : option (list (mgr * rec_update)) :=
  match l with
  | [] => Some []
  | (n, u) :: l' =>
      match fs_managers s with
      | Some g =>
          if bool_decide (n ∈ cfg_names (default [] (fs_accepted s !! g))) then
            (fun r => ((g, n), u) :: r) <$> targets s l'
          else None
      | None => None
      end
  end.
Fixpoint start_replays (s : fstate) (new : list (nat * (list (string * rec_update) * Z))) (rs : gmap nat replay)
    : option (gmap nat replay) :=
  match new with
  | [] => Some rs
  | (k, (l, n)) :: new' =>
      match rs !! k, targets s l with
      | None, Some todo => start_replays s new' (<[k := Replay todo n]> rs)
      | _, _ => None
      end
  end.

(** One step.  Identifiers of requests and replays are not used twice at a
    time; a POST whose body does not parse is answered at once and left out.
    The request to /flows keeps the mutex until it has written its answer
    (l.194). *)
Definition fstep (s : fstate) (l : flabel) : option (fstate * list fevent) :=
  match l with
  | Stop =>
      Some (FState true (fs_loop s) (fs_lock s) (fs_status s) (fs_managers s) (fs_processed s) (fs_accepted s)
        (fs_cancelled s) (fs_conns s) (fs_started s) (fs_posts s) (fs_queue s) (fs_replays s), [])
  | GetStatus r => match fs_lock s with None => Some (s, [EvStatus r (fs_status s)]) | Some _ => None end
  | Post r cfg =>
      match fs_lock s, fs_posts s !! r with
      | None, None => if bool_decide (NoDup cfg) then Some (set_posts (<[r := (cfg, fs_status s)]> (fs_posts s)) s, []) else None
      | _, _ => None
      end
  | Take r =>
      match fs_loop s, fs_posts s !! r with
      | LIdle, Some (cfg, st) =>
          Some (FState (fs_done s) (LTaken cfg) (fs_lock s) (fs_status s) (fs_managers s) (fs_processed s)
            (fs_accepted s ++ [cfg]) (fs_cancelled s) (fs_conns s) (fs_started s) (delete r (fs_posts s)) (fs_queue s) (fs_replays s),
            [EvAnswer r st])
      | _, _ => None
      end
  | LoopEnd =>
      match fs_loop s with
      | LIdle => if fs_done s then Some (set_loop LEnded s, []) else None
      | _ => None
      end
  | Loop => (fun s' => (s', [])) <$> loop_step s
  | StartOne n =>
      match fs_loop s with
      | LStart todo =>
          if bool_decide (n ∈ todo) then
            Some (FState (fs_done s) (LStart (todo ∖ {[n]})) (fs_lock s) (fs_status s) (fs_managers s) (fs_processed s)
              (fs_accepted s) (fs_cancelled s) (fs_conns s) (fs_started s ++ [(current s, n)]) (fs_posts s) (fs_queue s) (fs_replays s), [])
          else None
      | _ => None
      end
  | FlowsBegin r => match fs_lock s with None => Some (set_lock (Some r) s, []) | Some _ => None end
  | FlowsEnd r new =>
      match fs_lock s with
      | Some r' =>
          if bool_decide (r = r') then
            match start_replays s new (fs_replays s) with
            | Some rs => Some (set_lock None (set_replays (fs_queue s) rs (fs_processed s) s), [])
            | None => None
            end
          else None
      | None => None
      end
  | Publish k =>
      (* manager.go l.69-71 *)
      match fs_replays s !! k with
      | Some (Replay ((m, u) :: todo) n) =>
          let q := default [] (fs_queue s !! m) in
          if bool_decide (length q < queue_cap) then
            Some (set_replays (<[m := q ++ [u]]> (fs_queue s)) (<[k := Replay todo n]> (fs_replays s)) (fs_processed s) s, [])
          else None
      | _ => None
      end
  | Consume m =>
      (* manager.go l.145-147 *)
      if bool_decide (live s m) then
        match fs_queue s !! m with
        | Some (_ :: q) => Some (set_replays (<[m := q]> (fs_queue s)) (fs_replays s) (fs_processed s) s, [])
        | _ => None
        end
      else None
  | ReplayEnd k =>
      match fs_lock s, fs_replays s !! k with
      | None, Some (Replay [] n) =>
          Some (set_replays (fs_queue s) (delete k (fs_replays s)) (fs_processed s + n)%Z s, [EvReplayed k])
      | _, _ => None
      end
  end.

Notation frun := (run fstep).
