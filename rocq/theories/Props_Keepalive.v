(** Keepalives: C44-C46.  The vocabulary is at the top of KeepaliveFacts.v. *)
From Coq Require Import ZArith NArith Ascii String Lia.
From stdpp Require Import base gmap strings list.
From Verif Require Import GoBase Encoding Records Messages Run Keepalive KeepaliveFacts KeepaliveLive.

Local Open Scope list_scope.
Local Opaque encode_beacon encode_heartbeat.

Definition ex_info : info := Info "me" 1 "CONTROLLER" "mc/sfe.me" "sfe.me".
(** The default intervals. *)
Definition ex_kc : kcfg := KCfg ex_info 0 0 true.
Definition second : Z := 1000000000.

(** The first beacon fails, the second does not; two heartbeats follow. *)
Definition ex_beat : list klabel := [LTime (2 * second); LFire Hbt; LTake Hbt; LReturn Sent].
Definition ex_keep : list klabel := [LCall; LReturn SendError; LTime 5; LCall; LReturn Sent] ++ ex_beat ++ ex_beat.

(** ** C44: beacon first, then both kinds at their pace *)

Theorem C44_beacon_first c now ls s evs a t ad m b : krun c (k_init now) ls = Some (s, evs) ->
  evs = a ++ KStart t Hbt ad m :: b -> KReturn Bcn Sent ∈ a.
Proof. exact (beacon_first c now ls s evs a t ad m b). Qed.

(** Every message sent at time [t] has the right address and content. *)
Theorem C44_contents c now ls s evs t k ad m : krun c (k_init now) ls = Some (s, evs) -> KStart t k ad m ∈ evs ->
  let i := kc_info c in
  match k with
  | Bcn => ad = "mc/sfe.all"%string /\ decode_msg (Some m) =
      RDone (Some (MsgBeacon (Beacon (MsgProps "mc/sfe.all" "BEACON" "") (Z.to_N (i_version i mod 2 ^ 32)%Z) (i_type i)
        (i_address i) (i_direct i) (i_id i)))) None
  | Hbt => ad = (if kc_alternate c then String.append (i_address i) ".heartbeats" else i_address i) /\ decode_msg (Some m) =
      RDone (Some (MsgHeartbeat (Heartbeat (MsgProps (String.append "mc/sfe." (i_id i)) "HEARTBEAT" "")
        (i_id i) (Z.to_N (i_version i mod 2 ^ 32)%Z) (Z.to_N ((t / 1000) mod 2 ^ 64)%Z)))) None
  end.
Proof. exact (contents_of c now ls s evs t k ad m). Qed.

(** Since the loop started at [t0], as many messages of each kind as intervals
    have passed, if sends take no time, and never more. *)
Theorem C44_pace c now ls s evs t0 k : krun c (k_init now) ls = Some (s, evs) -> KLoop t0 ∈ evs ->
  exists a b, evs = a ++ KLoop t0 :: b /\ no_loop a /\ no_loop b /\
    ((starts k b + pending k s) * interval c k <= k_now s - t0)%Z /\
    (prompt c (k_init now) ls -> k_now s - t0 <= (starts k b + pending k s + 1) * interval c k)%Z.
Proof. exact (pace c now ls s evs t0 k). Qed.

Theorem C44_defaults i b h alt : (b <= 0)%Z -> (h <= 0)%Z ->
  interval (KCfg i b h alt) Bcn = (10 * second)%Z /\ interval (KCfg i b h alt) Hbt = (2 * second)%Z.
Proof.
  intros Hb Hh. cbn [interval]. unfold beacon_interval, heartbeat_interval. cbn [kc_beacon kc_heartbeat].
  apply Z.leb_le in Hb, Hh. rewrite Hb, Hh. split; reflexivity.
Qed.
Theorem C44_configured i b h alt : (0 < b)%Z -> (0 < h)%Z ->
  interval (KCfg i b h alt) Bcn = b /\ interval (KCfg i b h alt) Hbt = h.
Proof.
  intros Hb Hh. cbn [interval]. unfold beacon_interval, heartbeat_interval. cbn [kc_beacon kc_heartbeat].
  apply Z.leb_gt in Hb, Hh. rewrite Hb, Hh. split; reflexivity.
Qed.

(** Whatever sends return, the goroutine does not end before it is cancelled,
    and always sends a beacon, waits for Send to return, or waits for ticks and
    can take each one. *)
Theorem C44_goes_on c now ls s evs : krun c (k_init now) ls = Some (s, evs) -> LCancelRun ∉ ls ->
  ~ KEnd ∈ evs /\ clock_runs c s /\
  (is_Some (kstep c s LCall) \/ (forall o, is_Some (kstep c s (LReturn o))) \/ attentive c s).
Proof. exact (goes_on c now ls s evs). Qed.

Definition idleb (s : kstate) : bool :=
  match k_pc s with KSelect => (pending Bcn s =? 0)%Z && (pending Hbt s =? 0)%Z | _ => false end.
Lemma ex_prompt : prompt ex_kc (k_init 0) ex_keep.
Proof.
  intros s1 d s2 Ht Hn.
  apply (transitions_check _ (fun s l _ => match l, k_tickers s with LTime _, Some _ => idleb s | _, _ => true end)) in Ht;
    [|vm_compute; reflexivity].
  cbn beta iota in Ht. destruct (k_tickers s1) eqn:E; [|congruence]. unfold idleb in Ht. unfold idle.
  destruct (k_pc s1); try discriminate Ht. rewrite andb_true_iff, !Z.eqb_eq in Ht. tauto.
Qed.

(** What there is to see of a run. *)
Definition kview (r : option (kstate * list kev)) : option (list Z * Z * Z * Z * bool * bool) :=
  match r with
  | Some (s, evs) =>
      Some (omap (fun x => match x with KLoop t => Some t | _ => None end) evs, starts Bcn evs, starts Hbt evs, k_now s,
            k_cancelled s, match k_pc s with KSelect => true | _ => false end)
  | None => None
  end.
Lemma kview_spec r l nb nh now ca se : kview r = Some (l, nb, nh, now, ca, se) ->
  exists s evs, r = Some (s, evs) /\ (forall t, t ∈ l -> KLoop t ∈ evs) /\ starts Bcn evs = nb /\ starts Hbt evs = nh /\
    k_now s = now /\ k_cancelled s = ca /\ (se = true -> k_pc s = KSelect).
Proof.
  destruct r as [[s evs]|]; [|discriminate]. intros [= Hl Hb Hh Hn Hc Hs]. exists s, evs. split; [reflexivity|]. split.
  - intros t. rewrite <- Hl, elem_of_list_omap. intros (x & Hx & E). destruct x; try discriminate E. injection E as ->. exact Hx.
  - do 4 (split; [assumption|]). intros ->. destruct (k_pc s); try discriminate Hs. reflexivity.
Qed.

(** A beacon of the loop fails; the goroutine is back in its select. *)
Definition ex_fail : list klabel := ex_keep ++ [LTime (2 * second); LFire Hbt; LTake Hbt; LReturn SendError; LTime (2 * second); LFire Hbt; LTime (2 * second); LFire Bcn; LTake Bcn; LReturn SendDeadline].
Example C44_example_goes_on : LCancelRun ∉ ex_fail /\
  (match krun ex_kc (k_init 0) ex_fail with Some (s, _) => Some (k_pc s, pending Hbt s, k_now s) | None => None end) = Some (KSelect, 1%Z, 10000000005%Z).
Proof.
  split; [|vm_compute; reflexivity]. intros H. unfold ex_fail, ex_keep, ex_beat in H. cbn [app] in H.
  repeat (apply elem_of_cons in H as [H|H]; [discriminate H|]). by apply elem_of_nil in H.
Qed.

Example C44_example : prompt ex_kc (k_init 0) ex_keep /\
  exists s evs, krun ex_kc (k_init 0) ex_keep = Some (s, evs) /\ KLoop 5 ∈ evs /\
    starts Bcn evs = 2%Z /\ starts Hbt evs = 2%Z /\ k_now s = 4000000005%Z.
Proof.
  split; [exact ex_prompt|].
  destruct (kview_spec (krun ex_kc (k_init 0) ex_keep) [5%Z] 2 2 4000000005 false true) as (s & evs & H1 & H2 & H3 & H4 & H5 & _);
    [vm_compute; reflexivity|].
  exists s, evs. split; [exact H1|]. split; [apply H2; left|]. split; [exact H3|]. split; [exact H4|exact H5].
Qed.

Print Assumptions C44_beacon_first.
Print Assumptions C44_contents.
Print Assumptions C44_pace.
Print Assumptions C44_defaults.
Print Assumptions C44_configured.
Print Assumptions C44_goes_on.

(** ** C45: cancellation stops the loop *)

(** Not before the first beacon is out: as long as sends fail, the goroutine
    neither ends nor waits, cancelled or not... *)
Theorem C45_refuted c s ls s' evs : starting s -> k_cancelled s = true ->
  Forall (fun l => l <> LReturn Sent) ls -> krun c s ls = Some (s', evs) ->
  starting s' /\ ~ KEnd ∈ evs /\ exists l s2 ev, own l = true /\ l <> LReturn Sent /\ kstep c s' l = Some (s2, ev).
Proof. exact (fun H1 _ => spins c s ls s' evs H1). Qed.

(** ... it sends any number of beacons after the cancellation, in no time. *)
Theorem C45_spins_refuted c now n : exists s evs, krun c (k_init now) (LCancelRun :: spin n) = Some (s, evs) /\
  starting s /\ k_cancelled s = true /\ k_now s = now /\ starts Bcn evs = Z.of_nat n.
Proof.
  destruct (spin_run c (KState KInitial now true None 0 false) n eq_refl) as (s & evs & H1 & H2 & H3 & H4 & H5).
  exists s, evs. split; [cbn [run kstep k_init k_pc k_now k_tickers k_timeouts k_first]; rewrite H1; reflexivity|].
  split; [unfold starting; rewrite H2; exact I|]. split; [rewrite H4; reflexivity|]. split; [rewrite H3; reflexivity|exact H5].
Qed.

(** Once the loop started, the goroutine ends after a bounded number of its
    steps (two more for each tick), and can always end or is waiting for Send
    to return. *)
Theorem C45_stops c now ls0 s ev0 t0 ls s' evs : krun c (k_init now) ls0 = Some (s, ev0) -> KLoop t0 ∈ ev0 ->
  k_cancelled s = true -> krun c s ls = Some (s', evs) ->
  (count_labels own ls <= 6 + 2 * count_labels fires ls)%Z /\
  (k_pc s' = KStopped \/ is_Some (kstep c s' LDone) \/ forall o, is_Some (kstep c s' (LReturn o))).
Proof. exact (fun H0 Hl => stops c s ls s' evs (loop_not_starting c now ls0 s ev0 t0 H0 Hl)). Qed.

Example C45_example : exists s ev0, krun ex_kc (k_init 0) (ex_keep ++ [LCancelRun]) = Some (s, ev0) /\ KLoop 5 ∈ ev0 /\
  k_cancelled s = true /\ exists s' evs, krun ex_kc s [LDone] = Some (s', evs) /\ k_pc s' = KStopped /\ evs = [KEnd].
Proof.
  destruct (kview_spec (krun ex_kc (k_init 0) (ex_keep ++ [LCancelRun])) [5%Z] 2 2 4000000005 true true)
    as (s & evs & H1 & H2 & _ & _ & _ & H3 & H4); [vm_compute; reflexivity|].
  exists s, evs. split; [exact H1|]. split; [apply H2; left|]. split; [exact H3|].
  rewrite run_one. cbn [kstep]. rewrite (H4 eq_refl), H3. eexists _, _. split; [reflexivity|]. split; reflexivity.
Qed.

Print Assumptions C45_refuted.
Print Assumptions C45_spins_refuted.
Print Assumptions C45_stops.

(** ** C46: sends are bounded by the timeout *)

(** A sender that returns as soon as its context is done can keep the goroutine
    for any time. *)
Theorem C46_refuted c now D : (0 < D)%Z -> exists s evs, krun c (k_init now) [LCall; LTime D] = Some (s, evs) /\
  polite c (k_init now) [LCall; LTime D] /\ k_cancelled s = false /\
  exists m, KStart now Bcn "mc/sfe.all" m ∈ evs /\ k_now s = (now + D)%Z /\ k_pc s = KSend true Bcn (now + beacon_interval c) CtxRun.
Proof. exact (hangs c now D). Qed.

(** With such senders the timeout is never seen: the allowance for the first
    heartbeats is never used. *)
Theorem C46_never_seen c now ls s evs : polite c (k_init now) ls -> krun c (k_init now) ls = Some (s, evs) ->
  forall k, ~ KReturn k SendDeadline ∈ evs.
Proof. exact (never_times_out c now ls s evs). Qed.

Print Assumptions C46_refuted.
Print Assumptions C46_never_seen.
