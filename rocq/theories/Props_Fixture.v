(** Properties C90 to C94: the fixture server of the tool. *)
From Coq Require Import ZArith String Lia.
From stdpp Require Import base gmap strings list sets.
From Verif Require Import GoBase Cache Diff Tool Run Fixture SpecFixture FixtureFacts.

Local Open Scope list_scope.

(** Two sources, and an update to replay. *)
Definition src_a : source_ref := SourceRef "v1" "ROUTER" "a".
Definition src_b : source_ref := SourceRef "v1" "CONTROLLER" "b".
Definition upd0 : rec_update := RecUpdate None None.

(** A schedule that puts one configuration into effect. *)
Definition configure (r : nat) (cfg : list source_ref) : list flabel :=
  [Post r cfg; Take r; Loop; Loop] ++ ((fun _ => Loop) <$> cfg) ++ [Loop] ++ ((fun src => StartOne (sr_name src)) <$> cfg) ++ [Loop; Loop].

(** ** C90: one fixture at a time *)

(** Managers at work are all of the last configuration received, or, until
    they are stopped, of the one before. *)
Theorem C90_one_at_a_time ls s evs m m' : frun fixture0 ls = Some (s, evs) ->
  live s m -> live s m' ->
  m.1 = m'.1 /\ exists cfg, received ls !! m.1 = Some cfg /\ named cfg m.2.
Proof.
  intros Hr [Hm [_ Hc]] [Hm' [_ Hc']]. pose proof (finv_run _ _ _ Hr) as [acc Hi].
  destruct (received_run _ _ _ Hr) as (Ha & _). rewrite <- Ha.
  assert (forall rest c cn, common s (acc ++ rest) c cn (full acc) (view_of acc) -> pred (length acc) <= c ->
    m.1 = m'.1 /\ exists cfg, fs_accepted s !! m.1 = Some cfg /\ named cfg m.2) as Hx.
  { intros rest c cn Hco Hle. destruct Hco as [co_accepted0 co_cancelled0 co_conns0 co_started0 co_nodup0 co_view0]. rewrite co_cancelled0 in *. apply co_started0 in Hm, Hm'.
    pose proof (full_lt _ _ Hm). pose proof (full_lt _ _ Hm'). split; [lia|]. destruct Hm as (cfg & Hl & Hn).
    exists cfg. split; [|done]. rewrite co_accepted0. by apply lookup_app_l_Some. }
  unfold inv_at in Hi. destruct (fs_loop s).
  - apply (Hx [] (pred (length acc)) (all_sources acc)); [by rewrite app_nil_r|lia].
  - eapply Hx; [exact Hi|lia].
  - eapply Hx; [exact Hi|lia].
  - destruct Hi as (dn & _ & Hco). destruct Hco as [co_accepted0 co_cancelled0 co_conns0 co_started0 co_nodup0 co_view0]. rewrite co_cancelled0 in *. apply co_started0 in Hm, Hm'. apply full_lt in Hm, Hm'. lia.
  - destruct Hi as (cfg & Hsub & Hco). destruct Hco as [co_accepted0 co_cancelled0 co_conns0 co_started0 co_nodup0 co_view0]. rewrite co_cancelled0 in *. apply co_started0 in Hm, Hm'.
    destruct Hm as [Hm|[Hm Hn]]; [apply full_lt in Hm; lia|]. destruct Hm' as [Hm'|[Hm' Hn']]; [apply full_lt in Hm'; lia|].
    split; [lia|]. exists cfg. rewrite co_accepted0, Hm, lookup_app_r, Nat.sub_diag by lia. split; [done|].
    apply elem_of_cfg_names. set_solver.
  - destruct Hi as (cfg & Hco). destruct Hco as [co_accepted0 co_cancelled0 co_conns0 co_started0 co_nodup0 co_view0]. rewrite co_cancelled0 in *. apply co_started0 in Hm, Hm'.
    apply full_snoc in Hm as [Hm|[Hm Hn]]; [apply full_lt in Hm; lia|].
    apply full_snoc in Hm' as [Hm'|[Hm' Hn']]; [apply full_lt in Hm'; lia|].
    split; [lia|]. exists cfg. rewrite co_accepted0, Hm, lookup_app_r, Nat.sub_diag by lia. done.
  - apply (Hx [] (pred (length acc)) (all_sources acc)); [by rewrite app_nil_r|lia].
Qed.

(** When a configuration is in effect - its loop idle, the server not being
    stopped - exactly one manager is at work for each source name in it, and
    no other. *)
Theorem C90_in_effect ls s evs cfgs cfg : frun fixture0 ls = Some (s, evs) ->
  received ls = cfgs ++ [cfg] -> fs_loop s = LIdle -> fs_done s = false ->
  fs_status s = Running /\ NoDup (fs_started s) /\
  forall m, live s m <-> m.1 = length cfgs /\ named cfg m.2.
Proof.
  intros Hr Hrec Hl Hd. pose proof (finv_run _ _ _ Hr) as [acc Hi].
  destruct (received_run _ _ _ Hr) as (Ha & _). unfold inv_at in Hi. rewrite Hl in Hi. destruct Hi as [co_accepted0 co_cancelled0 co_conns0 co_started0 co_nodup0 co_view0].
  rewrite Ha, Hrec in co_accepted0. subst acc. rewrite app_length in co_cancelled0. simpl in co_cancelled0.
  split; [|split; [done|]].
  - unfold view_of in co_view0. destruct (cfgs ++ [cfg]) eqn:E; [by destruct cfgs|]. by injection co_view0.
  - intros m. unfold live, ctx_live. rewrite co_started0, co_cancelled0, Hd. split.
    + intros [Hm [_ Hle]]. apply full_snoc in Hm as [Hm|Hm]; [apply full_lt in Hm; lia|done].
    + intros [Hm Hn]. split; [|split; [done|lia]]. apply full_snoc. by right.
Qed.

(** "running" is reported only when every source of some received
    configuration has got its manager; then that configuration's are the ones
    flows are replayed by, and none came after it except one just being taken. *)
Theorem C90_running ls s evs r st s' : frun fixture0 ls = Some (s, evs) ->
  fstep s (GetStatus r) = Some (s', [EvStatus r st]) -> st = Running ->
  exists g cfg, fs_managers s = Some g /\ received ls !! g = Some cfg /\ length (received ls) <= g + 2 /\
    forall n, named cfg n -> (g, n) ∈ fs_started s.
Proof.
  intros Hr Hs ->. simpl in Hs. destruct (fs_lock s); [done|]. injection Hs as <- Hst.
  pose proof (finv_run _ _ _ Hr) as Hf. pose proof Hf as [acc Hi]. destruct (received_run _ _ _ Hr) as (Ha & _).
  rewrite <- Ha.
  assert (forall rest c cn, common s (acc ++ rest) c cn (full acc) (view_of acc) -> length rest <= 1 ->
    exists g cfg, fs_managers s = Some g /\ fs_accepted s !! g = Some cfg /\ length (fs_accepted s) <= g + 2 /\
      forall n, named cfg n -> (g, n) ∈ fs_started s) as Hx.
  { intros rest c cn Hco Hle. destruct Hco as [co_accepted0 co_cancelled0 co_conns0 co_started0 co_nodup0 co_view0]. unfold view_of in co_view0. rewrite Hst in co_view0.
    destruct (decide (acc = [])) as [->|Hne]; [done|].
    assert (fs_managers s = Some (pred (length acc))) as Hm by (destruct acc; [done|]; by injection co_view0).
    assert (pred (length acc) < length acc) as Hlt by (destruct acc; simpl; [done|lia]).
    pose proof Hlt as Hlt'. apply lookup_lt_is_Some_2 in Hlt' as [cfg Hcfg].
    exists (pred (length acc)), cfg. split; [done|]. rewrite co_accepted0. split; [by apply lookup_app_l_Some|].
    split; [rewrite app_length; lia|]. intros n Hn. apply co_started0. by exists cfg. }
  unfold inv_at in Hi. destruct (fs_loop s).
  - apply (Hx [] (pred (length acc)) (all_sources acc)); [by rewrite app_nil_r|simpl; lia].
  - eapply Hx; [exact Hi|simpl; lia].
  - eapply Hx; [exact Hi|simpl; lia].
  - destruct Hi as (dn & _ & Hco). destruct Hco as [co_accepted0 co_cancelled0 co_conns0 co_started0 co_nodup0 co_view0]. congruence.
  - destruct Hi as (dn & _ & Hco). destruct Hco as [co_accepted0 co_cancelled0 co_conns0 co_started0 co_nodup0 co_view0]. congruence.
  - destruct Hi as (dn & Hco). destruct Hco as [co_accepted0 co_cancelled0 co_conns0 co_started0 co_nodup0 co_view0]. congruence.
  - apply (Hx [] (pred (length acc)) (all_sources acc)); [by rewrite app_nil_r|simpl; lia].
Qed.

Example C90_example : exists s evs,
  frun fixture0 (configure 1 [src_a] ++ configure 2 [src_a; src_b] ++ [GetStatus 3]) = Some (s, evs) /\
  received (configure 1 [src_a] ++ configure 2 [src_a; src_b] ++ [GetStatus 3]) = [[src_a]; [src_a; src_b]] /\
  evs = [EvAnswer 1 Pending; EvAnswer 2 Running; EvStatus 3 Running] /\
  fs_loop s = LIdle /\ fs_done s = false /\
  live s (1, "a"%string) /\ live s (1, "b"%string) /\ ~ live s (0, "a"%string).
Proof.
  eexists _, _. split; [vm_compute; reflexivity|]. split; [reflexivity|]. split; [reflexivity|]. split; [reflexivity|].
  split; [reflexivity|]. split; [|split].
  - split; [simpl; set_solver|]. split; [reflexivity|vm_compute; lia].
  - split; [simpl; set_solver|]. split; [reflexivity|vm_compute; lia].
  - intros [_ [_ H]]. vm_compute in H. lia.
Qed.

(** ** C91: connections of a replaced fixture are released *)

(** Refuted: with each configuration in effect one connection for every source
    of every configuration ever received has been started with the server's
    context, and none has been ended... *)
Theorem C91_refuted ls s evs : frun fixture0 ls = Some (s, evs) -> fs_loop s = LIdle ->
  fs_conns s = all_sources (received ls).
Proof.
  intros Hr Hl. pose proof (finv_run _ _ _ Hr) as [acc Hi]. destruct (received_run _ _ _ Hr) as (Ha & _).
  unfold inv_at in Hi. rewrite Hl in Hi. destruct Hi as [co_accepted0 co_cancelled0 co_conns0 co_started0 co_nodup0 co_view0]. by rewrite co_conns0, <- Ha, co_accepted0.
Qed.

(** ...while only those of the last are of use to a manager at work. *)
Theorem C91_in_use ls s evs m : frun fixture0 ls = Some (s, evs) -> fs_loop s = LIdle -> live s m ->
  exists src, (m.1, src) ∈ fs_conns s /\ sr_name src = m.2 /\ S m.1 = length (received ls).
Proof.
  intros Hr Hl [Hm [Hd Hc]]. pose proof (finv_run _ _ _ Hr) as [acc Hi]. destruct (received_run _ _ _ Hr) as (Ha & _).
  unfold inv_at in Hi. rewrite Hl in Hi. destruct Hi as [co_accepted0 co_cancelled0 co_conns0 co_started0 co_nodup0 co_view0]. apply co_started0 in Hm.
  pose proof (full_lt _ _ Hm) as Hlt. destruct Hm as (cfg & Hcfg & src & Hs & Hn). exists src.
  split; [|split; [done|]].
  - rewrite co_conns0. unfold all_sources. apply elem_of_list_In, in_concat. exists ((fun src => (m.1, src)) <$> cfg).
    rewrite <- !elem_of_list_In. split; [|apply elem_of_list_fmap; eauto].
    apply elem_of_lookup_imap. eauto.
  - rewrite <- Ha, co_accepted0. rewrite co_cancelled0 in Hc. lia.
Qed.

Example C91_example : exists s evs,
  frun fixture0 (configure 1 [src_a; src_b] ++ configure 2 [] ++ configure 3 [src_a]) = Some (s, evs) /\
  fs_loop s = LIdle /\ live s (2, "a"%string) /\
  fs_conns s = [(0, src_a); (0, src_b); (2, src_a)].
Proof.
  eexists _, _. split; [vm_compute; reflexivity|]. split; [reflexivity|]. split; [|reflexivity].
  split; [simpl; set_solver|]. split; [reflexivity|vm_compute; lia].
Qed.

(** ** C92: a new fixture is taken up and its request answered *)

(** There is one answer for each configuration received, given only when the
    one before is entirely in effect... *)
Theorem C92_answered_in_turn ls s evs r s' st : frun fixture0 ls = Some (s, evs) ->
  length (answers evs) = length (received ls) /\
  (fstep s (Take r) = Some (s', [EvAnswer r st]) ->
   forall g cfg n, received ls !! g = Some cfg -> named cfg n -> (g, n) ∈ fs_started s).
Proof.
  intros Hr. destruct (received_run _ _ _ Hr) as (Ha & Hn & _). split; [done|]. intros Hs g cfg n Hg Hc.
  pose proof (finv_run _ _ _ Hr) as [acc Hi]. unfold inv_at in Hi. simpl in Hs. destruct (fs_loop s); try done.
  destruct Hi as [co_accepted0 co_cancelled0 co_conns0 co_started0 co_nodup0 co_view0]. apply co_started0. exists cfg. simpl. by rewrite <- co_accepted0, Ha.
Qed.

(** A POST is answered with what a GET would have shown when it came in. *)
Theorem C92_status ls s evs r st : frun fixture0 ls = Some (s, evs) -> EvAnswer r st ∈ evs ->
  exists ls1 cfg ls2 s1 ev1, ls = ls1 ++ Post r cfg :: ls2 /\ frun fixture0 ls1 = Some (s1, ev1) /\ fstep s1 (GetStatus r) = Some (s1, [EvStatus r st]).
Proof. exact (answer_status ls s evs r st). Qed.

(** ...and as long as nobody holds the mutex and the loop has not ended, the
    loop's own steps, at most two for each source and five more, lead to where
    the next request is taken; meanwhile some such step is possible. *)
Theorem C92_progress ls s evs : frun fixture0 ls = Some (s, evs) -> fs_lock s = None -> fs_loop s <> LEnded ->
  exists ls' s', Forall own ls' /\ frun s ls' = Some (s', []) /\ fs_loop s' = LIdle /\
    length ls' <= 5 + 2 * length (List.last (received ls) []).
Proof.
  intros Hr Hl He. destruct (own_run_idle s Hl He) as (ls' & s' & Hf & Hrun & Hi & Hlen). exists ls', s'.
  split; [done|]. split; [done|]. split; [done|]. etrans; [exact Hlen|].
  pose proof (finv_run _ _ _ Hr) as [acc Hinv]. destruct (received_run _ _ _ Hr) as (Ha & _).
  assert (forall cfg, fs_accepted s = acc ++ [cfg] -> List.last (received ls) [] = cfg) as Hlast.
  { intros cfg H. rewrite <- Ha, H. apply last_last. }
  pose proof size_cfg_names as Hsz.
  unfold inv_at in Hinv. destruct (fs_loop s); simpl; try lia.
  - destruct Hinv as [co_accepted0 co_cancelled0 co_conns0 co_started0 co_nodup0 co_view0]. rewrite (Hlast _ co_accepted0). specialize (Hsz cfg). lia.
  - destruct Hinv as [co_accepted0 co_cancelled0 co_conns0 co_started0 co_nodup0 co_view0]. rewrite (Hlast _ co_accepted0). specialize (Hsz cfg). lia.
  - destruct Hinv as (dn & Hd & Hco). destruct Hco as [co_accepted0 co_cancelled0 co_conns0 co_started0 co_nodup0 co_view0]. rewrite (Hlast _ co_accepted0). specialize (Hsz cfg). subst cfg. rewrite app_length in *. lia.
  - destruct Hinv as (cfg & Hsub & Hco). destruct Hco as [co_accepted0 co_cancelled0 co_conns0 co_started0 co_nodup0 co_view0]. rewrite (Hlast _ co_accepted0). specialize (Hsz cfg). apply subseteq_size in Hsub. lia.
Qed.

(** Until the server is stopped, a POST that came in is so taken and answered, if
    nobody holds the mutex. *)
Theorem C92_taken ls s evs a r cfg b : frun fixture0 ls = Some (s, evs) -> Stop ∉ ls -> fs_lock s = None ->
  ls = a ++ Post r cfg :: b -> Take r ∉ b ->
  exists ls' s' st, Forall own ls' /\ length ls' <= 5 + 2 * length (List.last (received ls) []) /\
    frun s (ls' ++ [Take r]) = Some (s', [EvAnswer r st]) /\ received (ls ++ ls' ++ [Take r]) = received ls ++ [cfg].
Proof.
  intros Hr Hn Hl E Ht. destruct (goes_on _ _ _ Hr Hn) as [_ He]. destruct (post_waits _ _ _ _ _ _ _ Hr E Ht) as [st Hp].
  destruct (C92_progress _ _ _ Hr Hl He) as (ls' & s1 & Hown & Hrun & Hi & Hlen).
  assert (Take r ∉ ls') as Hnt. { intros Hin. rewrite Forall_forall in Hown. destruct (Hown _ Hin) as [?|[? ?]]; discriminate. }
  pose proof (post_stays _ _ _ _ _ _ Hrun Hnt Hp) as Hp1. exists ls'. destruct (fstep s1 (Take r)) as [[s2 e2]|] eqn:Es; [|cbn in Es; by rewrite Hi, Hp1 in Es].
  assert (fs_accepted s2 = fs_accepted s1 ++ [cfg] /\ e2 = [EvAnswer r st]) as [Ha ->]. { cbn in Es. rewrite Hi, Hp1 in Es. by injection Es as <- <-. }
  assert (frun s (ls' ++ [Take r]) = Some (s2, [EvAnswer r st])) as Hrun2. { rewrite run_app, Hrun. cbn [run]. by rewrite Es. }
  exists s2, st. split; [done|]. split; [done|]. split; [done|].
  assert (frun fixture0 (ls ++ ls' ++ [Take r]) = Some (s2, evs ++ [EvAnswer r st])) as Hr2 by (by rewrite run_app, Hr, Hrun2).
  destruct (received_run _ _ _ Hr2) as (<- & _). rewrite Ha. f_equal.
  assert (frun fixture0 (ls ++ ls') = Some (s1, evs)) as Hr1 by (by rewrite run_app, Hr, Hrun, app_nil_r).
  destruct (received_run _ _ _ Hr1) as (-> & _). unfold received. rewrite fold_left_app. clear -Hown. revert Hown. generalize (fold_left received_step ls (∅, [])).
  induction ls' as [|l ls' IH]; intros a Hown; [done|]. apply Forall_cons_1 in Hown as [Hl Hown]. cbn. rewrite IH by done. destruct Hl as [->|[n ->]]; done.
Qed.

(** Refuted once the server is being stopped: the loop ends, and a request that
    reaches it then is never answered. *)
Theorem C92_refuted_after_stop ls s s' evs : frun s ls = Some (s', evs) -> fs_loop s = LEnded -> answers evs = [].
Proof. exact (ended_run ls s s' evs). Qed.

Example C92_example : exists s evs,
  frun fixture0 (configure 1 [src_a] ++ [Post 2 [src_b]; Stop; LoopEnd]) = Some (s, evs) /\
  fs_loop s = LEnded /\ fs_posts s !! 2 = Some ([src_b], Running) /\ answers evs = [1].
Proof. eexists _, _. split; [vm_compute; reflexivity|]. split; [reflexivity|]. split; reflexivity. Qed.

Example C92_example_progress : exists s evs,
  frun fixture0 [Post 1 [src_a; src_b]; Take 1; Loop; Loop; Loop] = Some (s, evs) /\ fs_lock s = None /\
  fs_loop s <> LEnded /\ fs_loop s <> LIdle.
Proof. eexists _, _. split; [vm_compute; reflexivity|]. split; [reflexivity|]. split; discriminate. Qed.

(** ** C93: a replay ends *)

(** As long as the managers it publishes to are at work and nobody holds the
    mutex, a replay can end, with steps of its own and of managers only, and
    its flows are counted. *)
Theorem C93_ends ls s evs k rp : frun fixture0 ls = Some (s, evs) -> fs_lock s = None ->
  fs_replays s !! k = Some rp -> (forall m u, (m, u) ∈ rp_todo rp -> ctx_live s m) ->
  exists ls' s', Forall (fun l => l = Publish k \/ l = ReplayEnd k \/ exists m, l = Consume m) ls' /\
    length ls' <= 2 * length (rp_todo rp) + 1 /\
    frun s ls' = Some (s', [EvReplayed k]) /\ fs_processed s' = (fs_processed s + rp_flows rp)%Z.
Proof.
  intros Hr Hl Hk Ht. destruct rp as [todo n]. apply replay_can_end; try done; [by eapply queues_run|].
  intros m u Hm. split; [|by eapply Ht]. by apply (targets_run _ _ _ Hr k (Replay todo n) m u).
Qed.

(** Refuted otherwise: a replay whose next update is for a manager that has
    been stopped, and whose queue is full, is blocked for ever... *)
Theorem C93_refuted_blocked ls s evs k m u todo n q ls' s' evs' : frun fixture0 ls = Some (s, evs) ->
  fs_replays s !! k = Some (Replay ((m, u) :: todo) n) -> ~ ctx_live s m ->
  fs_queue s !! m = Some q -> 256 <= length q ->
  frun s ls' = Some (s', evs') ->
  EvReplayed k ∉ evs' /\ exists todo', fs_replays s' !! k = Some (Replay todo' n) /\ todo' <> [].
Proof.
  intros Hr Hk Hd Hq Hc Hr'.
  assert (blocked s k) as Hb0 by (exists m, u, todo, n, q; done).
  destruct (blocked_run _ _ _ _ _ (finv_run _ _ _ Hr) Hr' Hb0) as [Hb He].
  split; [done|].
  assert (forall ls s s' evs, finv s -> frun s ls = Some (s', evs) -> blocked s k ->
    forall t, fs_replays s !! k = Some t -> fs_replays s' !! k = Some t) as Hkeep.
  { clear. induction ls as [|l ls IH]; intros s s' evs Hi Hr Hb t Ht; cbn [run] in Hr; [by injection Hr as <- <-|].
    destruct (fstep s l) as [[s1 e1]|] eqn:E1; [|done]. destruct (frun s1 ls) as [[s2 e2]|] eqn:E2; [|done].
    injection Hr as <- <-. destruct (blocked_step _ _ _ _ _ Hi E1 Hb) as [Hb1 He1].
    apply (IH _ _ _ (finv_step _ _ _ _ Hi E1) E2 Hb1). clear IH E2.
    destruct Hb as (m & u & todo & n & q & Hr & Hd & Hq & Hc). destruct l; simpl in E1.
    - by injection E1 as <- <-.
    - destruct (fs_lock s); [done|]. by injection E1 as <- <-.
    - destruct (fs_lock s); [done|]. destruct (fs_posts s !! r); [done|]. destruct (bool_decide _); [|done].
      by injection E1 as <- <-.
    - destruct (fs_loop s); try done. destruct (fs_posts s !! r) as [[cfg st]|]; [|done]. by injection E1 as <- <-.
    - destruct (fs_loop s); try done. destruct (fs_done s); [|done]. by injection E1 as <- <-.
    - destruct (loop_step s) as [s3|] eqn:E3; [|done]. injection E1 as <- <-.
      apply loop_step_frame in E3 as (_ & _ & _ & _ & _ & -> & _). done.
    - destruct (fs_loop s); try done. destruct (bool_decide _); [|done]. by injection E1 as <- <-.
    - destruct (fs_lock s); [done|]. by injection E1 as <- <-.
    - destruct (fs_lock s) as [r'|]; [|done]. destruct (bool_decide _); [|done].
      destruct (start_replays _ _ _) eqn:Es; [|done]. injection E1 as <- <-. by eapply start_replays_other.
    - destruct (fs_replays s !! k0) as [[[|[m' u'] todo'] n']|] eqn:Ek; try done. destruct (bool_decide _) eqn:Eb; [|done].
      apply bool_decide_eq_true in Eb. injection E1 as <- <-. simpl. destruct (decide (k0 = k)) as [->|Hne].
      + rewrite Hr in Ek. injection Ek as -> -> -> ->. rewrite Hq in Eb. simpl in Eb. lia.
      + by rewrite lookup_insert_ne.
    - destruct (bool_decide _); [|done]. destruct (fs_queue s !! m0) as [[|u' q']|]; try done. by injection E1 as <- <-.
    - destruct (fs_lock s); [done|]. destruct (fs_replays s !! k0) as [[[|] n']|] eqn:Ek; try done.
      injection E1 as <- <-. simpl. rewrite lookup_delete_ne; [done|]. intros ->. congruence. }
  exists ((m, u) :: todo). split; [|done]. eapply Hkeep; [by eapply finv_run|exact Hr'| |done].
  exists m, u, todo, n, q. done.
Qed.

(** ...which happens when a new fixture is posted during a long replay. *)
Definition before_replay : list flabel := configure 1 [src_a] ++ [FlowsBegin 2].
Definition long_replay : list flabel :=
  before_replay ++ FlowsEnd 2 [(0, (repeat ("a"%string, upd0) 300, 75%Z))] :: [Post 3 [src_b]; Take 3; Loop] ++
  repeat (Publish 0) 256.

Theorem C93_refuted_reachable : exists s evs todo q,
  frun fixture0 long_replay = Some (s, evs) /\
  fs_replays s !! 0 = Some (Replay (((0, "a"%string), upd0) :: todo) 75) /\ ~ ctx_live s (0, "a"%string) /\
  fs_queue s !! (0, "a"%string) = Some q /\ 256 <= length q.
Proof.
  assert (exists s ev, frun fixture0 (before_replay ++ FlowsEnd 2 [(0, (repeat ("a"%string, upd0) 300, 75%Z))] :: [Post 3 [src_b]; Take 3; Loop]) = Some (s, ev) /\
    fs_replays s !! 0 = Some (Replay (repeat ((0, "a"%string), upd0) 256 ++ repeat ((0, "a"%string), upd0) 44) 75) /\
    fs_queue s !! (0, "a"%string) = None /\ fs_cancelled s = 1) as (s & ev & Hr & Hk & Hq & Hc).
  { eexists _, _. split; [vm_compute; reflexivity|]. split; [vm_compute; reflexivity|]. split; vm_compute; reflexivity. }
  destruct (publish_many 256 s 0 (0, "a"%string) upd0 (repeat ((0, "a"%string), upd0) 44) 75 []) as (s' & Hr' & Hk' & Hq' & Hc').
  - exact Hk.
  - rewrite Hq. reflexivity.
  - unfold queue_cap. simpl. lia.
  - exists s', ev, (repeat ((0, "a"%string), upd0) 43), (repeat upd0 256). split; [|split; [|split; [|split]]].
    + unfold long_replay. rewrite app_comm_cons, app_assoc, run_app, Hr, Hr'. by rewrite app_nil_r.
    + exact Hk'.
    + intros [_ H]. rewrite Hc', Hc in H. simpl in H. lia.
    + rewrite app_nil_l in Hq'. destruct (fs_queue s' !! (0, "a"%string)) as [q|]; cbn [default] in Hq'; [by f_equal|discriminate Hq'].
    + rewrite repeat_length. lia.
Qed.

Example C93_example : exists s evs rp,
  frun fixture0 (configure 1 [src_a] ++ [FlowsBegin 2; FlowsEnd 2 [(0, (repeat ("a"%string, upd0) 3, 1%Z))]]) = Some (s, evs) /\
  fs_lock s = None /\ fs_replays s !! 0 = Some rp /\ length (rp_todo rp) = 3 /\
  forall m u, (m, u) ∈ rp_todo rp -> ctx_live s m.
Proof.
  eexists _, _, _. split; [vm_compute; reflexivity|]. split; [reflexivity|]. split; [vm_compute; reflexivity|].
  split; [reflexivity|]. intros m u Hm. simpl in Hm.
  repeat (apply elem_of_cons in Hm as [[= -> _]|Hm]; [split; [reflexivity|vm_compute; lia]|]). by apply elem_of_nil in Hm.
Qed.

(** ** C94: a slow client does not affect others *)

(** Refuted: while a client does not take the answer to a request to /flows,
    nobody is told the status, nobody's POST gets as far as the loop, no new
    configuration is taken into effect and no replay ends. *)
Theorem C94_refuted ls s s' evs r : frun s ls = Some (s', evs) -> fs_lock s = Some r ->
  (forall new, FlowsEnd r new ∉ ls) ->
  fs_status s' = fs_status s /\ fs_managers s' = fs_managers s /\ fs_processed s' = fs_processed s /\
  (forall r' st, EvStatus r' st ∉ evs) /\ (forall k, EvReplayed k ∉ evs) /\
  (forall r' x, fs_posts s' !! r' = Some x -> fs_posts s !! r' = Some x).
Proof. intros Hr Hl Hn. by destruct (locked_run _ _ _ _ _ Hr Hl Hn) as (_ & H). Qed.

(** Nothing else holds others up: unless a request to /flows waits for its answer to
    be taken, the status is told and a POST of distinct sources gets as far as the
    loop at once, whatever other clients, replays and the loop are doing.  And when
    that answer is taken, so it is again. *)
Theorem C94_served ls s evs r cfg : frun fixture0 ls = Some (s, evs) -> fs_posts s !! r = None -> NoDup cfg ->
  let free s := (exists st, fstep s (GetStatus r) = Some (s, [EvStatus r st])) /\
                exists s', fstep s (Post r cfg) = Some (s', []) /\ exists st, fs_posts s' !! r = Some (cfg, st) in
  free s \/ exists q a b s', ls = a ++ FlowsBegin q :: b /\ (forall new, FlowsEnd q new ∉ b) /\ fstep s (FlowsEnd q []) = Some (s', []) /\ free s'.
Proof.
  intros Hr Hp Hd free.
  assert (forall s, fs_lock s = None -> fs_posts s !! r = None -> free s) as Hfree.
  { intros x El Ep. split; [exists (fs_status x); cbn; by rewrite El|]. cbn [fstep]. rewrite El, Ep, bool_decide_eq_true_2 by done.
    eexists. split; [reflexivity|]. exists (fs_status x). cbn. by rewrite lookup_insert. }
  destruct (fs_lock s) as [q|] eqn:El; [right|left; by apply Hfree].
  destruct (lock_history ls s evs q Hr El) as (a & b & -> & Hb). exists q, a, b. cbn [fstep]. rewrite El, bool_decide_eq_true_2 by done. cbn [start_replays].
  eexists. split; [done|]. split; [exact Hb|]. split; [reflexivity|]. by apply Hfree.
Qed.

Example C94_example : exists s evs s' evs',
  frun fixture0 (configure 1 [src_a] ++ [Post 3 [src_b]; FlowsBegin 2]) = Some (s, evs) /\ fs_lock s = Some 2 /\
  frun s [Take 3; Loop] = Some (s', evs') /\ fstep s' Loop = None /\ fstep s' (GetStatus 4) = None.
Proof.
  eexists _, _, _, _. split; [vm_compute; reflexivity|]. split; [reflexivity|]. split; [vm_compute; reflexivity|].
  split; vm_compute; reflexivity.
Qed.

Print Assumptions C90_one_at_a_time.
Print Assumptions C90_in_effect.
Print Assumptions C90_running.
Print Assumptions C91_refuted.
Print Assumptions C91_in_use.
Print Assumptions C92_answered_in_turn.
Print Assumptions C92_status.
Print Assumptions C92_progress.
Print Assumptions C92_taken.
Print Assumptions C92_refuted_after_stop.
Print Assumptions C93_ends.
Print Assumptions C93_refuted_blocked.
Print Assumptions C93_refuted_reachable.
Print Assumptions C94_refuted.
Print Assumptions C94_served.
