(** Dispatching: C35 and C36.  [routed m src i l] lists the records of [l] whose
    type is registered for store [i], as Accumulate calls from [src];
    [last_registered cs k st] says that the last registration of type [k] in
    [cs] named [st]. *)
From Coq Require Import ZArith NArith Ascii String.
From stdpp Require Import base gmap strings list.
From Verif Require Import GoBase Encoding SpecEncoding Records Messages SpecMessages MessageFacts
  Env SyncMap Tokens Cache SpecStore EventFacts StoreExamples Dispatch DispatchFacts.

Local Open Scope list_scope.
Local Opaque vanflow_registry builtin_types record_types Encode Decode attrs_of.

(** ** C35: routing *)

(** Every store ends as if its own records, and only those, had been
    accumulated in message order; its events are those of these calls. *)
Theorem C35_routing cfs m src l w w' evs i : dispatch cfs m src l w = (w', evs, false) ->
  store_at w' i = (run_from (cfs i) (store_at w i) (routed m src i l)).1.1 /\
  events_of i evs = (run_from (cfs i) (store_at w i) (routed m src i l)).2.
Proof. exact (dispatch_routes cfs m src l w w' evs i). Qed.

(** With usable records nothing stops it, whatever calls fail. *)
Theorem C35_completes cfs m src l w : (forall i, usual_key (cfs i)) ->
  (forall i, reachable (cfs i) (store_at w i)) -> (forall i, well_keyed (contents (store_at w i))) ->
  Forall (fun '(e, r) => env_ok e /\ exists r', r = Some r' /\ good_record r') l ->
  exists w' evs, dispatch cfs m src l w = (w', evs, false).
Proof. exact (dispatch_total cfs m src l w). Qed.

(** It panics only at a nil record or in Accumulate, having handled exactly the
    records before. *)
Theorem C35_panic cfs m src l w w' evs : dispatch cfs m src l w = (w', evs, true) ->
  exists l1 e r l2 w1 ev1, l = l1 ++ (e, r) :: l2 /\ dispatch cfs m src l1 w = (w1, ev1, false) /\
    ((r = None /\ w' = w1 /\ evs = ev1) \/
     exists r' i s', r = Some r' /\ m !! type_key r' = Some i /\ w' = <[i := s']> w1 /\
       (run_op (cfs i) e (store_at w1 i) (OAccumulate src (Some r'))).1 = (s', OutPanic)).
Proof. exact (dispatch_panic cfs m src l w w' evs). Qed.

(** The registry keeps the record types apart. *)
Theorem C35_types_apart r r' : vr_type r ∈ record_types -> vr_type r' ∈ record_types ->
  type_key r = type_key r' -> vr_type r = vr_type r'.
Proof. exact (type_key_inj r r'). Qed.

Example C35_example : (
  (forall i : nat, usual_key ex_cf) /\
  (forall i, reachable ex_cf (store_at (∅ : stores) i)) /\ (forall i, well_keyed (contents (store_at (∅ : stores) i))) /\
  Forall (fun '(e, r) => env_ok e /\ exists r', r = Some r' /\ good_record r') ex_msg) /\
  routed ex_map ex_src 0 ex_msg =
    [(at_time 1, OAccumulate ex_src (Some (ex_site "s1"))); (at_time 3, OAccumulate ex_src (Some (ex_site "s2")))] /\
  routed ex_map ex_src 1 ex_msg = [] /\
  exists w evs, dispatch (fun _ => ex_cf) ex_map ex_src
    [(at_time 1, None); (at_time 2, Some (ex_site "s1"))] ∅ = (w, evs, true) /\ w = ∅.
Proof.
  split; [exact ex_dispatch_premises|]. destruct ex_routed as [H1 H2].
  split; [exact H1|]. split; [exact H2|]. exact ex_nil_record.
Qed.

Print Assumptions C35_routing.
Print Assumptions C35_completes.
Print Assumptions C35_panic.
Print Assumptions C35_types_apart.

(** ** C36: dispatchers are snapshots *)

(** The dispatcher made after the commands [pre] uses, whatever follows, the
    last store registered in [pre] for each type. *)
Theorem C36_snapshot pre e src post : cmds_ok (pre ++ CNew e src :: post) ->
  exists a, d_disp (run_cmds (pre ++ CNew e src :: post)) !! length (filter is_new pre) = Some (src, a) /\
    forall k st, deref (run_cmds (pre ++ CNew e src :: post)) a !! k = Some st <-> last_registered pre k st.
Proof. exact (dispatcher_snapshot pre e src post). Qed.

(** Dispatching with it routes every record as the registrations of [pre] say,
    from its own source, whatever follows. *)
Theorem C36_dispatches cfs pre e src post l w w' evs : cmds_ok (pre ++ CNew e src :: post) ->
  dispatch_with cfs (run_cmds (pre ++ CNew e src :: post)) (length (filter is_new pre)) l w =
    Some (w', evs, false) ->
  exists m, (forall k st, m !! k = Some st <-> last_registered pre k st) /\
    forall i, store_at w' i = (run_from (cfs i) (store_at w i) (routed m src i l)).1.1 /\
      events_of i evs = (run_from (cfs i) (store_at w i) (routed m src i l)).2.
Proof.
  intros Hok Hd. destruct (dispatcher_snapshot pre e src post Hok) as (a & Ha & Hm).
  unfold dispatch_with in Hd. rewrite Ha in Hd. injection Hd as Hd.
  eexists. split; [exact Hm|]. intros i. exact (dispatch_routes _ _ _ _ _ _ _ i Hd).
Qed.

(** The dispatcher is there; with usable records it completes. *)
Theorem C36_completes cfs pre e src post l w : cmds_ok (pre ++ CNew e src :: post) ->
  (forall i, usual_key (cfs i)) ->
  (forall i, reachable (cfs i) (store_at w i)) -> (forall i, well_keyed (contents (store_at w i))) ->
  Forall (fun '(e, r) => env_ok e /\ exists r', r = Some r' /\ good_record r') l ->
  exists w' evs,
    dispatch_with cfs (run_cmds (pre ++ CNew e src :: post)) (length (filter is_new pre)) l w =
      Some (w', evs, false).
Proof.
  intros Hok Hk Hr Hw Hl. destruct (dispatcher_snapshot pre e src post Hok) as (a & Ha & _).
  unfold dispatch_with. rewrite Ha.
  destruct (dispatch_total cfs (deref (run_cmds (pre ++ CNew e src :: post)) a) src l w Hk Hr Hw Hl)
    as (w' & evs & E).
  exists w', evs. by rewrite E.
Qed.

Example C36_example : cmds_ok ex_cmds /\ ex_route 0 = Some (Some 0, None) /\ ex_route 1 = Some (Some 2, Some 1).
Proof. split; [exact ex_cmds_ok|exact ex_routes]. Qed.

Print Assumptions C36_snapshot.
Print Assumptions C36_dispatches.
Print Assumptions C36_completes.
