(** Properties C105 and C106: the tool's connections, and which errors stop it.
    The vocabulary is at the top of ToolConnsFacts.v. *)
From Coq Require Import ZArith NArith Ascii String Lia.
From stdpp Require Import base gmap strings list functions.
From Verif Require Import GoBase Encoding Records Messages Run Keepalive Discovery Collector CollectorFacts Backoff BackoffFacts ToolConns ToolConnsFacts.

Local Open Scope list_scope.

(** ** C105: the connections of forgotten sources are released *)

(** One connection is made for each discovery taken up, in order. *)
Theorem C105_one_each ls s evs : trun t_init ls = Some (s, evs) -> exists w, taken_up evs = made_for evs ++ w /\ length w <= 1.
Proof. exact (one_each ls s evs). Qed.
(** It lasts until its container gives up, or returns because the tool stops;
    that its source is forgotten does not matter. *)
Theorem C105_lasts ls s evs i id : trun t_init ls = Some (s, evs) -> TMade i id ∈ evs ->
  (runs s i <-> TB (GivesUp i) ∉ evs /\ TEnded i ∉ evs) /\ (TEnded i ∈ evs -> TStops ∈ evs).
Proof. intros Hr Hm. split; [exact (keeps_running ls s evs i id Hr Hm)|exact (ended_stopped ls s evs i Hr)]. Qed.
(** One that has its session keeps it unless it fails. *)
Theorem C105_stays ls s evs l s2 ev i : trun t_init ls = Some (s, evs) -> connected s i -> tstep s l = Some (s2, ev) ->
  (forall d, l <> TNet (Failure i d)) -> l <> TEnd i -> connected s2 i.
Proof.
  intros _ [Hp Hn] Hs Hf He.
  assert (forall lb b2 e2, tool_step (t_b s) lb = Some (b2, e2) -> (forall d, lb <> Failure i d) -> s_phase b2 i = PUp) as Hb.
  { intros lb b2 e2 Hb Hd. assert (does i lb \/ ~ does i lb) as [Hdo|Hdo] by (destruct lb; cbn; tauto || (destruct (decide (i0 = i)); tauto) || lia).
    - unfold tool_step in Hb. destruct lb; cbn [does] in Hdo; subst; cbn [step] in Hb; rewrite ?Hp in Hb; try done.
      + by injection Hb as <- _.
      + by destruct (Hd d).
    - by rewrite (phase_other _ _ _ _ _ _ i Hb Hdo). }
  destruct (tstep_kind _ _ _ _ Hs) as [ev' -> Eu H -> E| -> Eu Er -> E|lv ev' m -> Er _ Hst Hv' -> Hmm E|id ev' -> Ea Em H -> E|lb j ev' -> Ha Hi H -> E|dt -> H Hv' -> E| -> -> E|j -> Es Hrun -> E];
    unfold connected; rewrite E; cbn [t_b t_ended].
  - split; [by eapply Hb|done].
  - done.
  - done.
  - split; [by eapply Hb|done].
  - split; [eapply Hb; [done|]|done]. intros d ->. by destruct (Hf d).
  - split; [by eapply Hb|done].
  - done.
  - split; [done|]. rewrite elem_of_cons. intros [->|?]; done.
Qed.
(** So a source that comes and goes any number of times leaves as many
    connections, when nothing is known, watched or listed any more. *)
Theorem C105_refuted n : exists ls s evs, trun t_init ls = Some (s, evs) /\ TStops ∉ evs /\
  d_map (v_d (t_v s)) = ∅ /\ v_src (t_v s) = ∅ /\ length (taken_up evs) = n /\ forall i, i <= n -> connected s i.
Proof.
  destruct (many_run n) as (s & evs & Hr & b & ws & now & of & -> & Hw & Ho & Hup & Hnew).
  exists (many_visits n), (TState (VState (DState ∅ [] [] None RNext HSelect false ws now false) HFresh ∅) b true true of false false []), evs.
  pose proof (tinv_run _ _ _ Hr) as [_ _ Ht Hof _ _ _ _ _ Hs _ _ _]. cbn [t_stop t_of] in *.
  split; [exact Hr|]. split; [rewrite <- Hs; done|]. split; [done|]. split; [done|]. split.
  - rewrite Ht. unfold unmade, about_to_watch. cbn. rewrite app_nil_r, <- Hof. done.
  - intros i Hi. split; [by apply Hup|]. apply not_elem_of_nil.
Qed.
(** When the tool stops all can end. *)
Theorem C105_all_end ls s evs : trun t_init ls = Some (s, evs) -> TStops ∈ evs ->
  exists ls' s' ev, Forall (fun l => match l with TEnd _ => True | _ => False end) ls' /\ trun s ls' = Some (s', ev) /\ forall i, ~ runs s' i.
Proof. exact (all_end ls s evs). Qed.

Example C105_example : exists s evs, trun t_init (many_visits 2 ++ [TNet (Failure 1 300000000); TSignal; TEnd 1]) = Some (s, evs) /\
  taken_up evs = ["a"; "a"]%string /\ connected s 0 /\ connected s 2 /\ ~ runs s 1 /\ TMade 2 "a" ∈ evs.
Proof.
  eexists _, _. split; [vm_compute; reflexivity|]. split; [vm_compute; reflexivity|].
  split; [split; [vm_compute; reflexivity|vm_compute; intros H; by inversion H as [|? ? ? H']; inversion H']|].
  split; [split; [vm_compute; reflexivity|vm_compute; intros H; by inversion H as [|? ? ? H']; inversion H']|].
  split; [intros (_ & _ & H); apply H; vm_compute; left|]. repeat (left || right).
Qed.

(** ** C106: a failing connection does not stop the tool while it can recover *)

(** An error stops the tool exactly if the discovery's container gives up; that
    is, if sixty seconds have passed since the last start or success of any
    container, counting the pause it would have to make. *)
Theorem C106_exactly ls s evs d s' ev : trun t_init ls = Some (s, evs) -> TRegister ∈ ls -> tstep s (TNet (Failure 0 d)) = Some (s', ev) ->
  exists t, last_reset (fun _ => 0) 0 (pacing 0 ls) t /\
    (ev = [TB (GivesUp 0); TStops] /\ (60000000000 < clock (pacing 0 ls) - t + d)%Z \/
     ev = [TB (Delay 0 d)] /\ (clock (pacing 0 ls) - t + d <= 60000000000)%Z).
Proof. exact (own_failure ls s evs d s' ev). Qed.
Theorem C106_only ls s evs l s' ev : trun t_init ls = Some (s, evs) -> tstep s l = Some (s', ev) -> TStops ∈ ev ->
  l = TSignal \/ exists d, l = TNet (Failure 0 d) /\ ev = [TB (GivesUp 0); TStops].
Proof. intros _ Hs Hin. destruct (stop_step _ _ _ _ Hs Hin) as [->|(d & -> & -> & _)]; eauto. Qed.

(** In particular it goes on if no container has failed since then, and less than
    fifty-nine seconds have passed. *)
Theorem C106_survives ls s evs d s' ev t : trun t_init ls = Some (s, evs) -> TRegister ∈ ls -> unfailed (fun _ => 0) 0 (pacing 0 ls) t -> (clock (pacing 0 ls) - t < 59000000000)%Z ->
  tstep s (TNet (Failure 0 d)) = Some (s', ev) -> ev = [TB (Delay 0 d)] /\ t_stop s' = t_stop s.
Proof.
  intros Hr Hreg Hu Hc Hs. pose proof (pacing_run _ _ _ _ Hr) as Hp. cbn [t_b t_init t_of length] in Hp.
  destruct (tstep_kind _ _ _ _ Hs) as [ev' [=]|[=]|lv ev' m [=]|id ev' [=]|lb j ev' [= <-] Ha Hi Hb -> E|dt [=]|[=]|j [=]].
  assert (2 * (clock (pacing 0 ls) - t) + 3 * b_init tool_cfg + 2 <= 2 * b_limit tool_cfg)%Z as Hl by (cbn [tool_cfg b_init b_limit]; lia).
  destruct (first_failure tool_cfg one_for_all 0 d _ _ _ t _ _ Hp Hu Hl Hb) as (_ & -> & _).
  rewrite E. cbn [t_stop]. unfold on_errors. cbn. rewrite andb_false_r. cbn. by rewrite orb_false_r.
Qed.

(** Twelve sources, all connections just made and used.  They all fail at once,
    and the tool stops without one attempt to connect again. *)
Definition nth_bcn (i : nat) : amqp_msg := encode_beacon (Beacon (MsgProps "" "" "") 1 "ROUTER" "mc/sfe.x" "sfe.x" (String (Ascii.ascii_of_nat (64 + i)) "")).
Definition arrives (i : nat) : list tlabel :=
  [TColl (VIn (LRunMsg (nth_bcn i))); TColl (VIn LObserve); TColl (VTake Disc); TMake; TNet (Connected i); TColl VBody; TColl VBody; TColl VBody; TNet (Success i)].
Definition all_up : list tlabel := [TStart; TNet (Connected 0); TRegister; TColl (VIn LRun)] ++ flat_map arrives (seq 1 12) ++ [TNet (Success 0)].
Definition ms (n : Z) : Z := n * 1000000.
Definition fails_at (i : nat) (n : Z) : tlabel := TNet (Failure i (ms n)).
Definition router_gone : list tlabel :=
  [fails_at 1 300; fails_at 2 500; fails_at 3 800; fails_at 4 1200; fails_at 5 1800; fails_at 6 2700; fails_at 7 4000; fails_at 8 6000; fails_at 9 9000;
   fails_at 10 14000; fails_at 11 20000; fails_at 12 30000; fails_at 0 61000].
Theorem C106_refuted : exists s evs s' evs', trun t_init all_up = Some (s, evs) /\ (forall i, i <= 12 -> connected s i) /\
  trun s router_gone = Some (s', evs') /\ TStops ∈ evs' /\ Forall (fun l => match l with TNet (Failure _ _) => True | _ => False end) router_gone.
Proof.
  destruct (trun t_init all_up) as [[s evs]|] eqn:E; [|exfalso; vm_compute in E; discriminate E].
  assert (match trun t_init (all_up ++ router_gone) with Some (_, e) => existsb (fun x => match x with TStops => true | _ => false end) e | None => false end = true) as H1 by (vm_compute; reflexivity).
  assert (match trun t_init all_up with Some (s, e) => forallb (fun i => match s_phase (t_b s) i with PUp => true | _ => false end) (seq 0 13) && (match t_ended s with [] => true | _ => false end)
     && negb (existsb (fun x => match x with TStops => true | _ => false end) e) | None => false end = true) as H2 by (vm_compute; reflexivity).
  rewrite E in H2. rewrite run_app, E in H1. destruct (trun s router_gone) as [[s' evs']|] eqn:E'; [|done]. exists s, evs, s', evs'.
  apply andb_prop in H2 as [H2 H3]. apply andb_prop in H2 as [H2 H4]. apply negb_true_iff in H3.
  split; [exact eq_refl|]. split; [|split; [exact E'|split]].
  - intros i Hi. rewrite forallb_forall in H2. specialize (H2 i). split.
    + destruct (s_phase (t_b s) i); try (discriminate H2; apply in_seq; lia); done.
    + destruct (t_ended s); [apply not_elem_of_nil|discriminate H4].
  - rewrite existsb_app, H3 in H1. cbn [orb] in H1. apply existsb_exists in H1 as (x & Hx & Hxs). destruct x; try discriminate Hxs. by apply elem_of_list_In.
  - repeat constructor.
Qed.

(** After a minute without any traffic the first failure does. *)
Example C106_example : exists s evs, trun t_init ([TStart; TNet (Connected 0); TRegister; TColl (VIn LRun); TNet (Success 0); TTime (ms 61000)]) = Some (s, evs) /\
  option_map snd (tstep s (TNet (Failure 0 (ms 300)))) = Some [TB (GivesUp 0); TStops] /\
  option_map snd (trun t_init [TStart; TNet (Connected 0); TRegister; TColl (VIn LRun); TNet (Success 0); TTime (ms 30000); TNet (Failure 0 (ms 300))]) = Some [TB (Delay 0 (ms 300))].
Proof. eexists _, _. split; [vm_compute; reflexivity|]. split; vm_compute; reflexivity. Qed.

Print Assumptions C105_one_each.
Print Assumptions C105_lasts.
Print Assumptions C105_stays.
Print Assumptions C105_refuted.
Print Assumptions C105_all_end.
Print Assumptions C106_exactly.
Print Assumptions C106_only.
Print Assumptions C106_survives.
Print Assumptions C106_refuted.
