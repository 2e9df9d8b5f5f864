(** The tool's collector: C98 and C99.  The vocabulary is at the top of
    CollectorFacts.v (live, lives, is_known, is_listed, waits, handled_now,
    unwatched, stops) and of CollectorList.v (in_order, quiet, stuck, forgets). *)
From Coq Require Import ZArith NArith Ascii String Lia.
From stdpp Require Import base gmap strings list.
From Verif Require Import GoBase Encoding Records Messages Run Keepalive Discovery DiscoveryFacts DiscoveryLive DiscoveryProgress Collector CollectorFacts CollectorList.

Local Open Scope list_scope.

(** ** C98 *)
(** Until watches are stopped, a known source has either a discovery that waits
    or whose handler is yet to call NewWatchClient, or exactly one watch; a
    source that is not known has none of these; and NewWatchClient does not fail. *)
Theorem C98_watched now ls s evs : vrun (v_init now) ls = Some (s, evs) -> Forall (fun l => ~ stops l) ls ->
  (forall id, VD (DNoWatch id) ∉ evs) /\
  forall id, count_id id (waiting Disc (v_d s)) + unwatched s id + lives id (d_watches (v_d s)) = match d_map (v_d s) !! id with Some _ => 1 | None => 0 end.
Proof. intros Hr HF. destruct (one_run _ _ _ _ Hr HF). done. Qed.
(** What is listed is known, or its removal waits or is under way. *)
Theorem C98_listed now ls s evs id : vrun (v_init now) ls = Some (s, evs) -> is_listed s id -> is_known s id \/ waits Forg s id \/ handled_now Forg s id.
Proof. intros Hr Hl. apply (list_run _ _ _ _ Hr). by left. Qed.
(** The details listed for a source that is known are those it is known by, or a
    newer discovery waits or is under way. *)
Theorem C98_details now ls s evs id i x : vrun (v_init now) ls = Some (s, evs) -> Forall (fun l => ~ stops l) ls ->
  v_src s !! id = Some i -> d_map (v_d s) !! id = Some x -> ~ waits Disc s id -> ~ handled_now Disc s id -> ds_info x = i.
Proof. exact (details now ls s evs id i x). Qed.
(** What is known is listed, or that waits or is under way, provided that
    notifications are taken in order. *)
Theorem C98_in_order now ls s evs id : vrun (v_init now) ls = Some (s, evs) -> in_order now ls -> is_known s id ->
  is_listed s id \/ waits Disc s id \/ handled_now Disc s id.
Proof. intros Hr Ho Hk. destruct (order_vrun _ _ _ _ Hr Ho id Hk) as [H|([H|H] & _)]; auto. Qed.
(** Then, whenever nothing is left to do, the list is exactly what is known, and
    there is one watch for each. *)
Theorem C98_settled now ls s evs : vrun (v_init now) ls = Some (s, evs) -> quiet s ->
  (forall id, is_listed s id -> is_known s id) /\
  (in_order now ls -> forall id, is_known s id -> is_listed s id) /\
  (Forall (fun l => ~ stops l) ls -> forall id, lives id (d_watches (v_d s)) = match d_map (v_d s) !! id with Some _ => 1 | None => 0 end).
Proof.
  intros Hr (Q1 & Q2 & Q3 & Q4).
  assert (forall k id, ~ waits k s id) as Hw by (intros k id; unfold waits, waiting; rewrite Q2; destruct k; cbn [chan_of]; rewrite ?Q3, ?Q4; cbn; lia).
  assert (forall k id, ~ handled_now k s id) as Hn by (intros k id; unfold handled_now; rewrite Q1; by intros []).
  split; [|split].
  - intros id Hl. destruct (C98_listed _ _ _ _ _ Hr Hl) as [H|[H|H]]; [done|by apply Hw in H|by apply Hn in H].
  - intros Ho id Hk. destruct (C98_in_order _ _ _ _ _ Hr Ho Hk) as [H|[H|H]]; [done|by apply Hw in H|by apply Hn in H].
  - intros HF id. destruct (C98_watched _ _ _ _ Hr HF) as [_ Hc]. specialize (Hc id). unfold unwatched in Hc. rewrite Q1 in Hc. specialize (Hw Disc id). unfold waits in Hw. lia.
Qed.

(** A source that announces itself, falls silent for thirty seconds, and comes
    back before the handlers have run. *)
Definition ex_bcn (id : string) : amqp_msg := encode_beacon (Beacon (MsgProps "" "" "") 1 "ROUTER" ("mc/sfe." +:+ id) ("sfe." +:+ id) id).
Definition announce (id : string) : list vlabel := [VIn (LRunMsg (ex_bcn id)); VIn LObserve].
Definition handle_disc : list vlabel := [VTake Disc; VBody; VBody; VBody].
Definition handle_forg : list vlabel := [VTake Forg; VBody; VBody].
Definition silence (w : nat) : list vlabel :=
  [VIn (LWStart w); VIn (LWLook w); VIn (LDTime 30000000000); VIn (LWFire w); VIn (LWTakeTimer w); VIn (LWForget w); VIn (LWEnd w)].
Definition ex_back : list vlabel := VIn LRun :: announce "a" ++ handle_disc ++ announce "b" ++ handle_disc ++ silence 0 ++ announce "a".

(** To check examples. *)
Definition ends_with (P : vstate -> bool) (ls : list vlabel) : bool := match vrun (v_init 0) ls with Some (s, _) => P s | None => false end.
Lemma ends_with_run P ls : ends_with P ls = true -> exists s evs, vrun (v_init 0) ls = Some (s, evs) /\ P s = true.
Proof. unfold ends_with. destruct (vrun (v_init 0) ls) as [[s evs]|]; [|discriminate]. intros H. by exists s, evs. Qed.
Definition is_nil {A} (l : list A) : bool := match l with [] => true | _ => false end.
Definition quiet_b (s : vstate) : bool :=
  match d_hand (v_d s), d_held (v_d s) with HSelect, None => is_nil (d_disc (v_d s)) && is_nil (d_forg (v_d s)) | _, _ => false end.
Lemma quiet_b_true s : quiet_b s = true -> quiet s.
Proof.
  unfold quiet_b, quiet. destruct (d_hand (v_d s)); try discriminate. destruct (d_held (v_d s)); [discriminate|]. intros [H1 H2]%andb_prop.
  destruct (d_disc (v_d s)); [|discriminate H1]. destruct (d_forg (v_d s)); [|discriminate H2]. done.
Qed.
Definition some_b {A} (o : option A) : bool := match o with Some _ => true | None => false end.
Definition stuck_b (s : vstate) : bool :=
  match d_held (v_d s), d_run (v_d s), d_hand (v_d s), v_at s with
  | Some (_, k, _), (RNext | RBlocked), HRunning Disc _, HFresh => negb (roomy (v_d s) k)
  | _, _, _, _ => false
  end.
Lemma stuck_b_true s : stuck_b s = true -> stuck s.
Proof.
  unfold stuck_b, stuck. destruct (d_held (v_d s)) as [[[c k] x]|]; [|discriminate]. intros H.
  destruct (d_run (v_d s)); try discriminate H; destruct (d_hand (v_d s)) as [| |[] y| | |]; try discriminate H; destruct (v_at s); try discriminate H;
    apply negb_true_iff in H; (split; [by exists c, k, x|]; split; [done|]; split; [by exists y|done]).
Qed.

(** Its second discovery may be handled before its removal, so that the list
    lacks a source that is known and watched, until it is forgotten again. *)
Theorem C98_missing_refuted : exists s evs, vrun (v_init 0) (ex_back ++ handle_disc ++ handle_forg) = Some (s, evs) /\
  Forall (fun l => ~ stops l) (ex_back ++ handle_disc ++ handle_forg) /\
  quiet s /\ is_known s "a" /\ lives "a" (d_watches (v_d s)) = 1 /\ ~ is_listed s "a" /\
  forall ls s' evs', vrun s ls = Some (s', evs') -> Forall (fun e => ~ forgets "a" e) evs' -> is_known s' "a" /\ ~ is_listed s' "a".
Proof.
  pose (P := fun s => quiet_b s && (some_b (d_map (v_d s) !! "a") && (Nat.eqb (lives "a" (d_watches (v_d s))) 1 && negb (some_b (v_src s !! "a"))))).
  destruct (ends_with_run P (ex_back ++ handle_disc ++ handle_forg)) as (s & evs & E & HP); [vm_compute; reflexivity|].
  exists s, evs. split; [exact E|]. unfold P in HP. clear P. apply andb_prop in HP as [Hq HP]. apply andb_prop in HP as [Hk HP]. apply andb_prop in HP as [Hl Hs].
  apply quiet_b_true in Hq. apply Nat.eqb_eq in Hl.
  assert (is_Some (d_map (v_d s) !! "a")) as Hk' by (destruct (d_map (v_d s) !! "a"); [by eexists|discriminate Hk]). clear Hk. rename Hk' into Hk.
  assert (v_src s !! "a" = None) as Hs' by (destruct (v_src s !! "a"); [discriminate Hs|done]). clear Hs. rename Hs' into Hs.
  assert (~ is_listed s "a") as Hnl by (unfold is_listed; rewrite Hs; by intros [? ?]).
  split; [repeat (constructor; [exact id|]); constructor|]. pose proof (ground_run _ _ _ _ E) as Hg. clear E.
  split; [exact Hq|]. split; [exact Hk|]. split; [exact Hl|]. split; [exact Hnl|].
  intros ls s' evs' Hr HF. destruct (missing_run s ls s' evs' "a" Hg) as (H1 & H2 & _); [|exact Hr|exact HF|exact (conj H1 H2)].
  destruct Hq as (Q1 & Q2 & Q3 & Q4). split; [exact Hk|]. split; [exact Hnl|]. split.
  - unfold waits, waiting. rewrite Q2. cbn [chan_of]. rewrite Q3. cbn. lia.
  - unfold handled_now. rewrite Q1. by intros [].
Qed.

(** In order, the same beacons lead to a complete list. *)
Definition sources_of (s : vstate) : list string := (map_to_list (v_src s)).*1.
Definition vglimpse (ls : list vlabel) : option (list string * list string * list nat) :=
  match vrun (v_init 0) ls with Some (s, _) => Some ((map_to_list (d_map (v_d s))).*1, sources_of s, (fun id => lives id (d_watches (v_d s))) <$> ["a"; "b"]) | None => None end.
Example C98_example :
  vglimpse (ex_back ++ handle_forg ++ handle_disc) = Some (["b"; "a"], ["b"; "a"], [1; 1]) /\
  in_order 0 (ex_back ++ handle_forg ++ handle_disc) /\
  vglimpse (ex_back ++ handle_disc ++ handle_forg) = Some (["b"; "a"], ["b"], [1; 1]).
Proof.
  split; [vm_compute; reflexivity|]. split; [|vm_compute; reflexivity].
  intros s1 s2 x Ht Hx.
  pose (P := fun (s1 : vstate) (l : vlabel) (s2 : vstate) =>
    match l, d_hand (v_d s2) with VTake Disc, HRunning Disc x => Nat.eqb (count_id (i_id (ds_info x)) (waiting Forg (v_d s1))) 0 | _, _ => true end).
  assert (P s1 (VTake Disc) s2 = true) as H.
  { eapply transitions_check; [|exact Ht]. vm_compute. reflexivity. }
  unfold P in H. rewrite Hx in H. apply Nat.eqb_eq in H. unfold waits. lia.
Qed.

(** ** C99 *)
(** Thirty-four sources that announce themselves before the handler of the first
    has called NewWatchClient bring the collector to a stop: whatever happens
    then, nothing is discovered, forgotten, watched, listed or removed, and no
    handler is called or returns. *)
Definition nth_id (i : nat) : string := String (Ascii.ascii_of_nat (40 + i)) "".
Definition ex_many (n : nat) : list vlabel := VIn LRun :: announce (nth_id 0) ++ [VTake Disc] ++ mjoin ((fun i => announce (nth_id i)) <$> seq 1 n).
Theorem C99_stuck_refuted : exists s evs, vrun (v_init 0) (ex_many 33) = Some (s, evs) /\ d_crashed (v_d s) = false /\ stuck s /\ v_src s = ∅ /\
  forall ls s' evs', vrun s ls = Some (s', evs') -> d_map (v_d s') = d_map (v_d s) /\ v_src s' = ∅ /\ stuck s' /\
    Forall (fun e => match e with VD (DOp _ _ _ | DRet _ | DHandle _ _) | VListed _ | VUnlisted _ => False | _ => True end) evs'.
Proof.
  pose (P := fun s => stuck_b s && (negb (d_crashed (v_d s)) && is_nil (map_to_list (v_src s)))).
  destruct (ends_with_run P (ex_many 33)) as (s & evs & E & HP); [vm_compute; reflexivity|].
  exists s, evs. split; [exact E|]. unfold P in HP. clear P. apply andb_prop in HP as [Hst HP]. apply andb_prop in HP as [Hc Hs]. apply stuck_b_true in Hst. apply negb_true_iff in Hc.
  clear E. assert (v_src s = ∅) as Hs' by (apply map_to_list_empty_iff; destruct (map_to_list (v_src s)); [done|discriminate Hs]). clear Hs. rename Hs' into Hs.
  split; [done|]. split; [done|]. split; [done|]. intros ls s' evs' Hr. destruct (stuck_forever _ _ _ _ Hst Hr) as (H1 & H2 & H3 & H4).
  split; [done|]. split; [congruence|]. split; [done|]. eapply Forall_impl; [exact H4|]. intros [[]| |]; done.
Qed.
(** It takes thirty-four known sources, or thirty-three that were forgotten. *)
Theorem C99_needs now ls s evs : vrun (v_init now) ls = Some (s, evs) -> Forall (fun l => ~ stops l) ls -> stuck s ->
  34 <= size (d_map (v_d s)) \/ 33 <= length (waiting Forg (v_d s)).
Proof. intros Hr HF. by destruct (one_run _ _ _ _ Hr HF) as [Hi _]; apply stuck_needs. Qed.
(** Otherwise, while Run goes on, everything is handled. *)
Theorem C99_goes_on now ls s evs : vrun (v_init now) ls = Some (s, evs) -> Forall (fun l => ~ ends_run l) ls -> VIn LRun ∈ ls -> d_crashed (v_d s) = false -> ~ stuck s ->
  exists ls' s' evs', Forall handling ls' /\ vrun s ls' = Some (s', evs') /\ quiet s'.
Proof. intros Hr HF Hin Hc Hs. destruct (serving_run _ _ _ _ Hr HF Hin) as [H1 H2]. apply vdrain; try done. by eapply ground_run. Qed.

Example C99_example : exists s evs, vrun (v_init 0) (ex_many 32) = Some (s, evs) /\ Forall (fun l => ~ ends_run l) (ex_many 32) /\ VIn LRun ∈ ex_many 32 /\
  d_crashed (v_d s) = false /\ ~ stuck s /\ length (d_disc (v_d s)) = 32 /\ size (d_map (v_d s)) = 33.
Proof.
  pose (P := fun s => negb (some_b (d_held (v_d s))) && (negb (d_crashed (v_d s)) && (Nat.eqb (length (d_disc (v_d s))) 32 && Nat.eqb (size (d_map (v_d s))) 33))).
  destruct (ends_with_run P (ex_many 32)) as (s & evs & E & HP); [vm_compute; reflexivity|].
  exists s, evs. split; [exact E|]. split; [repeat (constructor; [exact id|]); constructor|]. split; [left|].
  unfold P in HP. apply andb_prop in HP as [Hh HP]. apply andb_prop in HP as [Hc HP]. apply andb_prop in HP as [Hd Hm].
  apply negb_true_iff in Hc. apply Nat.eqb_eq in Hd, Hm. split; [exact Hc|]. split; [|split; [exact Hd|exact Hm]].
  intros ((? & ? & ? & H & _) & _). rewrite H in Hh. discriminate Hh.
Qed.

Print Assumptions C98_watched.
Print Assumptions C98_listed.
Print Assumptions C98_details.
Print Assumptions C98_in_order.
Print Assumptions C98_settled.
Print Assumptions C98_missing_refuted.
Print Assumptions C98_example.
Print Assumptions C99_stuck_refuted.
Print Assumptions C99_needs.
Print Assumptions C99_goes_on.
Print Assumptions C99_example.
