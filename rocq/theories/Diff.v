(** Model of diffRecord (eventsource/manager.go) and of a collector that
    dispatches the record messages it receives. *)
From Coq Require Import ZArith NArith Ascii String.
From stdpp Require Import base gmap strings list.
From Verif Require Import GoBase Encoding Records Messages Env SyncMap Tokens Cache Dispatch.

Local Open Scope list_scope.

(** eventsource/manager.go l.45-48, RecordUpdate; nil interfaces are [None]. *)
Record rec_update := RecUpdate { ru_prev : option vrec; ru_curr : option vrec }.

(** What diffRecord returns: nothing to send, a record (possibly nil), or a
    panic. *)
Inductive diffres := DNone | DRec (r : option vrec) | DPanic.

(** eventsource/manager.go l.128-131: type and identity stay in the delta. *)
Definition identifying (k : akey) : bool :=
  match k with KU32 c => (c <? 2)%N | _ => false end.

(** eventsource/manager.go l.117-132, the loop over [next]. *)
Fixpoint diff_loop (prev : attrset) (l : list (akey * attr)) (delta : attrset) (is_diff : bool) : attrset * bool :=
  match l with
  | [] => (delta, is_diff)
  | (k, v) :: l' =>
      match prev !! k with
      | None => diff_loop prev l' (<[k := v]> delta) true
      | Some pv =>
          let '(delta1, d1) := if bool_decide (v = pv) then (delta, is_diff) else (<[k := v]> delta, true) in
          let delta2 := if identifying k then <[k := v]> delta1 else delta1 in
          diff_loop prev l' delta2 d1
      end
  end.

(** eventsource/manager.go l.101-142, diffRecord. *)
Definition diff_record (e : env) (u : rec_update) : diffres :=
  match ru_prev u with
  | None => DRec (ru_curr u)
  | Some p =>
      match Encode vanflow_registry (vrec_any p) with
      | EncPanic => DPanic
      | EncErr _ _ => DNone
      | EncOk prev =>
          match Encode vanflow_registry (rec_any (ru_curr u)) with
          | EncPanic => DPanic
          | EncErr _ _ => DNone
          | EncOk next =>
              let '(delta, is_diff) := diff_loop prev (env_iter e "diff" _ (map_to_list next)) ∅ false in
              if is_diff then
                match Decode vanflow_registry (Some delta) with
                | Ok x => match as_record x with Some r => DRec (Some r) | None => DPanic end
                | Err _ => DNone
                | Panic => DPanic
                end
              else DNone
          end
      end
  end.

(** ** A collector *)

(** eventsource/client.go l.118-128 with Dispatcher.Dispatch as record handler:
    messages that do not decode are skipped; [es] are the environments of the
    Accumulate calls. *)
Definition collect_one (cfs : nat -> config) (m : gmap string nat) (src : source_ref)
    (es : list env) (am : amqp_msg) (w : stores) : stores * bool :=
  match decode_msg (Some am) with
  | RDone (Some (MsgRecord rm)) None => let '(w', _, p) := dispatch cfs m src (zip es (rm_records rm)) w in (w', p)
  | RDone _ _ => (w, false)
  | RPanic => (w, true)
  end.

(** A list of messages; the flag reports a panic. *)
Fixpoint collect (cfs : nat -> config) (m : gmap string nat) (src : source_ref)
    (l : list (list env * amqp_msg)) (w : stores) : stores * bool :=
  match l with
  | [] => (w, false)
  | (es, am) :: l' =>
      match collect_one cfs m src es am w with
      | (w', true) => (w', true)
      | (w', false) => collect cfs m src l' w'
      end
  end.
