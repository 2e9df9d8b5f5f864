(** Facts about Restart.v. *)
From Coq Require Import ZArith NArith Ascii String Lia.
From stdpp Require Import base gmap strings list.
From Verif Require Import GoBase Run Session SessionFacts SessionCont Restart.

Local Open Scope list_scope.

(** ** Specification *)

(** What the goroutine of the [r]-th call of Start did. *)
Definition by_run (r : nat) (ev : list (option nat * cev)) : list cev :=
  omap (fun p => if bool_decide (fst p = Some r) then Some (snd p) else None) ev.
(** The number and the session established last, by any of them. *)
Definition newest (ev : list (option nat * cev)) : option (nat * nat) := last (ests (snd <$> ev)).

(** A call does something with the network, or returns. *)
Definition acts (i : nat) (e : cev) : bool :=
  match e with EvNew i' _ _ _ | EvUse i' _ _ _ | EvRet i' _ _ _ => i' =? i | _ => false end.

(** ** Steps *)

Lemma link_load n s lb : link_label lb = true -> sstep (load n s) lb = match sstep s lb with Some (s', ev) => Some (load n s', ev) | None => None end.
Proof.
  intros Hl. unfold sstep. cbn [c_panic load]. destruct (c_panic s) eqn:Ep; [done|]. destruct lb; try done; cbn [c_lock c_links c_ops load].
  - by destruct (c_lock s).
  - by destruct (c_links s !! l).
  - destruct (c_ops s !! i) as [o|]; [|done]. by destruct (o_ctx o).
  - destruct (c_ops s !! i) as [o|]; [|done]. destruct (c_links s !! o_link o) as [l|]; [|done]. unfold op_step, fails, ret, set_op, set_link. cbn [c_lock c_links c_ops c_gen c_sess c_errs load].
    destruct (o_pc o); try done; repeat match goal with |- context [match ?x with _ => _ end] => destruct x; try done end.
  - destruct (c_ops s !! i) as [o|]; [|done]. destruct (o_pc o); try done. by destruct (o_ctx o).
  - destruct (c_ops s !! i) as [o|]; [|done]. destruct (c_links s !! o_link o) as [l|]; [|done]. unfold net_step, ret, set_op, set_link, report_ok. cbn [c_oks load].
    destruct (o_pc o); try done; repeat match goal with |- context [match ?x with _ => _ end] => destruct x; try done end.
Qed.

Lemma load_load n m s : load n (load m s) = load n s.
Proof. done. Qed.
Lemma load_save s : load (save s) s = s.
Proof. by destruct s. Qed.
Lemma load_keep n s : load n (keep s) = load n s.
Proof. done. Qed.

Lemma link_keeps s lb s' ev : link_label lb = true -> sstep s lb = Some (s', ev) ->
  c_sess s' = c_sess s /\ c_gen s' = c_gen s /\ c_lock s' = c_lock s /\ c_pc s' = c_pc s /\ c_local s' = c_local s /\ c_prev s' = c_prev s /\ c_ctx s' = c_ctx s.
Proof.
  intros Hl Hs. pose proof (link_load (save s) s lb Hl) as H. rewrite load_save, Hs in H. injection H as H.
  unfold sstep in Hs. destruct (c_panic s); [done|]. destruct lb; try done.
  - destruct (c_lock s) eqn:E; [done|]. by injection Hs as <- <-.
  - destruct (c_links s !! l); [|done]. by injection Hs as <- <-.
  - destruct (c_ops s !! i) as [o|]; [|done]. destruct (o_ctx o); [done|]. by injection Hs as <- <-.
  - destruct (c_ops s !! i) as [o|]; [|done]. destruct (c_links s !! o_link o) as [l|]; [|done]. unfold op_step, fails, ret, set_op, set_link in Hs.
    clear H. destruct (o_pc o); try done; repeat (match type of Hs with context [match ?x with _ => _ end] => destruct x eqn:?; try discriminate Hs end); by injection Hs as <- <-.
  - destruct (c_ops s !! i) as [o|]; [|done]. destruct (o_pc o); try done. destruct (o_ctx o); [|done]. by injection Hs as <- <-.
  - destruct (c_ops s !! i) as [o|]; [|done]. destruct (c_links s !! o_link o) as [l|]; [|done]. unfold net_step, ret, set_op, set_link, report_ok in Hs.
    clear H. destruct (o_pc o); try done; repeat (match type of Hs with context [match ?x with _ => _ end] => destruct x eqn:?; try discriminate Hs end); by injection Hs as <- <-.
Qed.

(** ** One call of Start *)

Fixpoint starts (ls : list alabel) : nat := match ls with [] => 0 | AStart :: q => S (starts q) | _ :: q => starts q end.

Definition single (a : astate) (s : cstate) : Prop :=
  keep (a_c a) = a_c a /\ ((a_runs a = [] /\ s = a_c a) \/ exists n, a_runs a = [n] /\ s = load n (a_c a)).
Definition to_label (lb : alabel) : clabel := match lb with AStart => LStart | ARun _ lb => lb | ACancel _ c => LCCancel c | ALink lb => lb end.

Lemma starts_app ls ls' : starts (ls ++ ls') = starts ls + starts ls'.
Proof. induction ls as [|[] ls IH]; cbn; lia. Qed.

Lemma cont_sstep s lb : c_panic s = false -> link_label lb = false -> (forall c, lb <> LCCancel c) -> sstep s lb = cont_step s lb.
Proof. intros Hp Hl Hc. unfold sstep. rewrite Hp. destruct lb; try done. by destruct (Hc c). Qed.
Lemma cont_labels s lb s' ev : cont_step s lb = Some (s', ev) -> link_label lb = false /\ (forall c, lb <> LCCancel c).
Proof. destruct lb; intros H; try (by split); unfold cont_step in H; by destruct (c_pc s). Qed.

Lemma runs_count ls a ev : arun a_init ls = Some (a, ev) -> length (a_runs a) = starts ls.
Proof.
  revert a ev. induction ls as [|lb ls IH] using rev_ind; intros a ev Hr; [by injection Hr as <- <-|]. apply run_snoc in Hr as (a1 & ev1 & ev2 & H1 & H2 & ->).
  rewrite starts_app, <- (IH _ _ H1). unfold astep in H2. destruct (c_panic (a_c a1)); [done|]. destruct lb as [|r lb|r c|lb]; cbn [starts].
  - injection H2 as <- <-. cbn [a_runs]. rewrite app_length. cbn. lia.
  - destruct (a_runs a1 !! r); [|done]. destruct (cont_step _ lb) as [[s' ev]|]; [|done]. injection H2 as <- <-. cbn [a_runs]. rewrite insert_length. lia.
  - destruct (a_runs a1 !! r) as [[p k v [|]]|]; try done. injection H2 as <- <-. cbn [a_runs]. rewrite insert_length. lia.
  - destruct (link_label lb); [|done]. destruct (sstep (a_c a1) lb) as [[s' ev]|]; [|done]. injection H2 as <- <-. cbn [a_runs]. lia.
Qed.

Lemma tags {A} (r : A) (ev : list cev) : snd <$> ((fun e => (r, e)) <$> ev) = ev.
Proof. induction ev as [|e ev IH]; [done|]. by rewrite !fmap_cons, IH. Qed.

(** With one call of Start, what happens is what happens in Session.v. *)
Lemma once ls a ev : arun a_init ls = Some (a, ev) -> starts ls <= 1 -> exists s, srun c_init (to_label <$> ls) = Some (s, snd <$> ev) /\ single a s.
Proof.
  revert a ev. induction ls as [|lb ls IH] using rev_ind; intros a ev Hr Hn; [injection Hr as <- <-; exists c_init; split; [done|]; split; [done|by left]|].
  pose proof Hr as Hr0. apply run_snoc in Hr as (a1 & ev1 & ev2 & H1 & H2 & ->). rewrite starts_app in Hn. pose proof (runs_count _ _ _ H1) as Hc. destruct (IH _ _ H1 ltac:(lia)) as (s & Hs & Hk & Hsim).
  rewrite !fmap_app. setoid_rewrite run_app. rewrite Hs. cbn [fmap list_fmap]. setoid_rewrite run_one.
  assert (exists s2, sstep s (to_label lb) = Some (s2, snd <$> ev2) /\ single a s2) as (s2 & E & Hsim2); [|rewrite E; by exists s2].
  unfold astep in H2. destruct (c_panic (a_c a1)) eqn:Ep; [done|]. destruct lb as [|r lb|r c|lb]; cbn [starts to_label] in *.
  - injection H2 as <- <-. destruct Hsim as [[Hr ->]|(n & Hr & ->)]; [|rewrite Hr in Hc; cbn in Hc; lia]. rewrite Hr, <- Hk. unfold sstep. cbn [c_panic keep load]. rewrite Ep. unfold cont_step. cbn [c_pc keep load n_pc].
    eexists. split; [reflexivity|]. split; [done|]. right. by exists (CRun CDial 0 None None).
  - destruct Hsim as [[Hr ->]|(n & Hr & ->)]; rewrite Hr in H2; [done|]. destruct r as [|r]; [|done]. cbn [lookup list_lookup] in H2.
    destruct (cont_step (load n (a_c a1)) lb) as [[s' ev]|] eqn:E; [|done]. injection H2 as <- <-. rewrite tags. destruct (cont_labels _ _ _ _ E) as [El Ec].
    rewrite cont_sstep by done. exists s'. split; [done|]. split; [done|]. right. exists (save s'). split; [done|]. cbn [a_c]. by rewrite load_keep, load_save.
  - destruct Hsim as [[Hr ->]|(n & Hr & ->)]; rewrite Hr in H2; [done|]. destruct r as [|r]; [|done]. cbn [lookup list_lookup] in H2. destruct n as [p k v [|]]; [done|]. injection H2 as <- <-.
    unfold sstep. cbn [c_panic c_ctx load n_ctx]. rewrite Ep. eexists. split; [reflexivity|]. split; [done|]. right. exists (CRun p k v (Some c)). split; [done|]. unfold load. cbn. by rewrite Ep.
  - destruct (link_label lb) eqn:El; [|done]. destruct (sstep (a_c a1) lb) as [[s' ev]|] eqn:E; [|done]. injection H2 as <- <-. rewrite tags.
    assert (keep s' = s') as Hk'. { pose proof (link_load (CRun CIdle 0 None None) (a_c a1) lb El) as H. fold (keep (a_c a1)) in H. rewrite Hk, E in H. by injection H as H. }
    destruct Hsim as [[Hr ->]|(n & Hr & ->)].
    + exists s'. split; [done|]. split; [done|]. by left.
    + rewrite link_load, E by done. exists (load n s'). split; [done|]. split; [done|]. right. by exists n.
Qed.

(** ** What each goroutine does *)

Lemma by_run_app r a b : by_run r (a ++ b) = by_run r a ++ by_run r b.
Proof. apply omap_app. Qed.
Lemma by_run_own r ev : by_run r ((fun e => (Some r, e)) <$> ev) = ev.
Proof. induction ev as [|e ev IH]; [done|]. unfold by_run in *. rewrite fmap_cons. cbn. rewrite bool_decide_eq_true_2 by done. by rewrite IH. Qed.
Lemma by_run_other r x ev : x <> Some r -> by_run r ((fun e => (x, e)) <$> ev) = [].
Proof. intros Hx. induction ev as [|e ev IH]; [done|]. unfold by_run in *. rewrite fmap_cons. cbn. rewrite bool_decide_eq_false_2 by done. by rewrite IH. Qed.
Lemma elem_by_run r e ev : e ∈ by_run r ev <-> (Some r, e) ∈ ev.
Proof.
  unfold by_run. rewrite elem_of_list_omap. split.
  - intros ([x e'] & Hin & H). cbn in H. case_bool_decide; [|done]. by injection H as ->; subst.
  - intros Hin. exists (Some r, e). split; [done|]. cbn. by rewrite bool_decide_eq_true_2.
Qed.

Definition torn_now (p : cpc) : list nat := match p with CTear sid => [sid] | _ => [] end.
Definition run_ok (ev : list cev) (n : crun) : Prop :=
  (fst <$> ests ev = seq 1 (length (ests ev))) /\
  n_local n = length (ests ev) + (match n_pc n with CPublish _ => 1 | _ => 0 end) /\
  (match n_pc n with CDone => tears ev = snd <$> ests ev | p => tears ev ++ option_list (n_prev n) ++ torn_now p = snd <$> ests ev /\ EvStopped ∉ ev end) /\
  (n_ctx n <> None <-> EvCancel ∈ ev) /\
  (match n_pc n with CTear _ | CLoop => length (ests ev) <> 0 | _ => True end).

Definition plain (p : cpc) : bool := match p with CPublish _ | CTear _ | CDone | CIdle => false | _ => true end.
Definition silent (ev : list cev) : Prop := ests ev = [] /\ tears ev = [] /\ EvCancel ∉ ev /\ EvStopped ∉ ev.
Lemma silent_nil : silent [].
Proof. split; [done|]. split; [done|]. split; apply not_elem_of_nil. Qed.
Lemma silent_one e : (match e with EvEst _ _ | EvTear _ | EvCancel | EvStopped => false | _ => true end) = true -> silent [e].
Proof. intros H. destruct e; try done; (split; [done|split; [done|split; by intros ?%elem_of_list_singleton]]). Qed.
Lemma silent_two e e' : silent [e] -> silent [e'] -> silent [e; e'].
Proof. intros (A & B & C & D) (A' & B' & C' & D'). change [e; e'] with ([e] ++ [e']). split; [by rewrite ests_app, A, A'|]. split; [by rewrite tears_app, B, B'|]. split; by intros [?|?]%elem_of_app. Qed.

Lemma quiet_ok ev0 ev p p' k v c : run_ok ev0 (CRun p k v c) -> silent ev -> plain p = true -> plain p' = true -> (p' = CLoop -> p = CLoop) -> run_ok (ev0 ++ ev) (CRun p' k v c).
Proof.
  intros (HE & HL & HP & HC & HZ) (A & B & C & D) Hp Hp' Hl. unfold run_ok in *. cbn [n_pc n_local n_prev n_ctx] in *. rewrite ests_app, tears_app, A, B, !app_nil_r.
  split; [done|]. split; [by destruct p, p'|]. split; [|split].
  - assert (tears ev0 ++ option_list v = snd <$> ests ev0 /\ EvStopped ∉ ev0) as [HP1 HP2] by (destruct p; try done; cbn in HP; by rewrite app_nil_r in HP).
    assert (EvStopped ∉ ev0 ++ ev) by (by intros [?|?]%elem_of_app). destruct p'; try done; cbn; by rewrite app_nil_r.
  - rewrite HC, elem_of_app. split; [by left|]. by intros [?|?].
  - destruct p'; try done. by rewrite Hl in HZ.
Qed.

Lemma run_ok_cont n s lb s' ev0 ev : n_pc n <> CIdle -> run_ok ev0 n -> cont_step (load n s) lb = Some (s', ev) -> run_ok (ev0 ++ ev) (save s') /\ n_pc (save s') <> CIdle.
Proof.
  intros Hi Hok Hs. destruct n as [p k v c]. cbn [n_pc] in Hi.
  unfold cont_step in Hs. cbn [c_pc load n_pc n_local n_prev n_ctx c_local c_prev c_ctx c_lock c_errs c_oks] in Hs.
  assert (forall q ev1, silent ev1 -> plain p = true -> plain q = true -> (q = CLoop -> p = CLoop) -> run_ok (ev0 ++ ev1) (CRun q k v c) /\ q <> CIdle) as Hq.
  { intros q ev1 H1 H2 H3 H4. split; [by apply (quiet_ok _ _ p)|by intros ->]. }
  destruct lb; destruct p as [| |sid|sid| | | | | |ce| | |]; try done.
  - destruct d as [|sid|sid]; injection Hs as <- <-; unfold save; cbn.
    + by apply Hq; [apply silent_nil|..].
    + by apply Hq; [apply silent_two; by apply silent_one|..].
    + split; [|done]. destruct Hok as (HE & HL & HP & HC & HZ). cbn [n_pc n_local n_prev n_ctx] in *. unfold run_ok. rewrite ests_app, tears_app. cbn. rewrite !app_nil_r in *. split; [done|]. split; [lia|]. split; [|split; [|done]].
      * destruct HP as [HP1 HP2]. split; [done|]. intros [?|?%elem_of_list_singleton]%elem_of_app; done.
      * rewrite HC, elem_of_app. split; [by left|]. by intros [?|?%elem_of_list_singleton].
  - destruct (c_lock s); [done|]. injection Hs as <- <-. unfold save. cbn. split; [|done]. destruct Hok as (HE & HL & HP & HC & HZ). cbn [n_pc n_local n_prev n_ctx] in *. unfold run_ok. rewrite ests_app, tears_app. cbn [n_pc n_local n_prev n_ctx].
    change (ests [EvEst k sid]) with [(k, sid)]. change (tears [EvEst k sid]) with (@nil nat). rewrite !fmap_app, app_length, app_nil_r. cbn [fmap list_fmap fst snd length torn_now] in *. rewrite app_nil_r in HP. destruct HP as [HP1 HP2].
    split; [rewrite HE, HL, Nat.add_1_r, seq_S; f_equal; f_equal; lia|]. split; [lia|]. split; [|split; [|lia]].
    + split; [by rewrite app_assoc, HP1|]. by intros [?|?%elem_of_list_singleton]%elem_of_app.
    + rewrite HC, elem_of_app. split; [by left|]. by intros [?|?%elem_of_list_singleton].
  - injection Hs as <- <-. unfold save. cbn. split; [|done]. destruct Hok as (HE & HL & HP & HC & HZ). cbn [n_pc n_local n_prev n_ctx torn_now] in *. unfold run_ok. rewrite ests_app, tears_app. cbn [n_pc n_local n_prev n_ctx torn_now].
    destruct HP as [HP1 HP2]. destruct v as [v|]; cbn [option_list] in *.
    + change (ests [EvTear v]) with (@nil (nat * nat)). change (tears [EvTear v]) with [v]. rewrite !app_nil_r. split; [done|]. split; [done|]. split; [|split; [|done]].
      * split; [by rewrite <- HP1, <- !app_assoc|]. by intros [?|?%elem_of_list_singleton]%elem_of_app.
      * rewrite HC, elem_of_app. split; [by left|]. by intros [?|?%elem_of_list_singleton].
    + rewrite !app_nil_r. cbn. rewrite ?app_nil_r in *. split; [done|]. split; [done|]. by split.
  - destruct (c_oks s) as [|g q]; [done|]. injection Hs as <- <-. unfold save. cbn. apply Hq; try done. destruct (g =? k); [by apply silent_one|apply silent_nil].
  - destruct (c_errs s) as [|h q]; [done|]. destruct (h =? k); injection Hs as <- <-; unfold save; cbn; (apply Hq; try done; by apply silent_one).
  - destruct c; [|done]. injection Hs as <- <-. unfold save. cbn. apply Hq; try done. by apply silent_one.
  - destruct c; [injection Hs as <- <-; unfold save; cbn; apply Hq; try done; apply silent_nil|]. destruct next; [destruct (c_lock s); [done|]|]; injection Hs as <- <-; unfold save; cbn; (apply Hq; try done); [by apply silent_one|apply silent_nil].
  - injection Hs as <- <-. unfold save. cbn. apply Hq; try done. apply silent_nil.
  - injection Hs as <- <-. unfold save. cbn. apply Hq; try done. apply silent_nil.
  - injection Hs as <- <-. unfold save. cbn. apply Hq; try done. apply silent_nil.
  - injection Hs as <- <-. unfold save. cbn. apply Hq; try done. apply silent_nil.
  - destruct c; [|done]. injection Hs as <- <-. unfold save. cbn. apply Hq; try done. apply silent_nil.
  - destruct ce; [injection Hs as <- <-; unfold save; cbn; apply Hq; try done; apply silent_nil|]. destruct (c_lock s); [done|]. injection Hs as <- <-. unfold save. cbn. apply Hq; try done. by apply silent_one.
  - injection Hs as <- <-. unfold save. cbn. apply Hq; try done. apply silent_nil.
  - injection Hs as <- <-. unfold save. cbn. split; [|done]. destruct Hok as (HE & HL & HP & HC & HZ). cbn [n_pc n_local n_prev n_ctx torn_now] in *. unfold run_ok. cbn [n_pc n_local n_prev n_ctx torn_now]. rewrite app_nil_r in HP. destruct HP as [HP1 HP2].
    rewrite !ests_app, !tears_app. change (ests [EvStopped]) with (@nil (nat * nat)). change (tears [EvStopped]) with (@nil nat). rewrite !app_nil_r.
    assert (ests (match v with Some q => [EvTear q] | None => [] end) = []) as -> by (by destruct v). rewrite app_nil_r. split; [done|]. split; [done|]. split; [|split; [|done]].
    + destruct v; exact HP1.
    + rewrite HC, !elem_of_app. split; [by left|]. intros [?|[H|H]]; [done| |]; [destruct v; [by apply elem_of_list_singleton in H|by apply elem_of_nil in H]|by apply elem_of_list_singleton in H].
Qed.

(** ** The whole *)

Definition ainv (a : astate) (ev : list (option nat * cev)) : Prop :=
  (forall r n, a_runs a !! r = Some n -> run_ok (by_run r ev) n /\ n_pc n <> CIdle) /\
  (forall r, length (a_runs a) <= r -> by_run r ev = []) /\
  (match newest ev with Some (g, sid) => c_gen (a_c a) = g /\ c_sess (a_c a) = Some sid /\ g <> 0 | None => c_gen (a_c a) = 0 /\ c_sess (a_c a) = None end) /\
  (forall g, g ∈ c_errs (a_c a) -> exists i l, (None, EvReport i l g) ∈ ev) /\
  (forall i o g n, c_ops (a_c a) !! i = Some o -> o_pc o = PWait g n -> n = g).

Definition waits_ok (s : cstate) : Prop := forall i o g n, c_ops s !! i = Some o -> o_pc o = PWait g n -> n = g.

Lemma waits_upd s i o p : waits_ok s -> (forall g n, p = PWait g n -> n = g) -> waits_ok (set_op i o p s).
Proof.
  intros Hw Hp j o' g n Hj Ho. unfold set_op in Hj. cbn [c_ops cs_ops] in Hj. destruct (decide (j = i)) as [->|Hne].
  - destruct (c_ops s !! i) as [x|] eqn:E; [|rewrite list_insert_ge in Hj by (by apply lookup_ge_None); by rewrite E in Hj].
    rewrite list_lookup_insert in Hj by (by eapply lookup_lt_Some). injection Hj as <-. by apply Hp.
  - rewrite list_lookup_insert_ne in Hj by done. by eapply Hw.
Qed.
Lemma waits_link s j l : waits_ok s -> waits_ok (set_link j l s).
Proof. done. Qed.
Lemma waits_errs s l : waits_ok s -> waits_ok (cs_errs l s).
Proof. done. Qed.
Lemma waits_oks s g : waits_ok s -> waits_ok (report_ok g s).
Proof. unfold report_ok. by destruct (_ <? _). Qed.
Lemma waits_fails s i o e s' ev : waits_ok s -> fails i o e s = Some (s', ev) -> waits_ok s'.
Proof. intros Hw. unfold fails, ret. destruct (o_kind o), (o_ctx o); intros [= <- <-]; by apply waits_upd. Qed.

Lemma waits_step s lb s' ev : link_label lb = true -> waits_ok s -> sstep s lb = Some (s', ev) -> waits_ok s'.
Proof.
  intros Hl Hw Hs. unfold sstep in Hs. destruct (c_panic s); [done|]. destruct lb; try done.
  - destruct (c_lock s); [done|]. by injection Hs as <- <-.
  - destruct (c_links s !! l); [|done]. injection Hs as <- <-. intros i o g n Hi Ho. cbn [c_ops cs_ops] in Hi. apply lookup_app_Some in Hi as [Hi|[_ Hi]]; [by eapply Hw|]. apply list_lookup_singleton_Some in Hi as [_ <-]. done.
  - destruct (c_ops s !! i) as [o|] eqn:Ei; [|done]. destruct (o_ctx o); [done|]. injection Hs as <- <-. intros j o' g n Hj Ho. cbn [c_ops cs_ops] in Hj. destruct (decide (j = i)) as [->|Hne].
    + rewrite list_lookup_insert in Hj by (by eapply lookup_lt_Some). injection Hj as <-. by eapply Hw.
    + rewrite list_lookup_insert_ne in Hj by done. by eapply Hw.
  - destruct (c_ops s !! i) as [o|] eqn:Ei; [|done]. destruct (c_links s !! o_link o) as [l|]; [|done]. unfold op_step in Hs. destruct (o_pc o); try done.
    + destruct (l_lock l); [done|]. destruct (o_kind o); [..|destruct (snd (l_rcv l)); unfold ret in Hs; injection Hs as <- <-; by apply waits_upd];
        (destruct (l_closed l); [injection Hs as <- <-; by apply waits_upd|]; destruct (l_curr l); injection Hs as <- <-; by apply waits_upd).
    + destruct (c_lock s); [done|]. destruct (g =? c_gen s) eqn:E; injection Hs as <- <-; apply waits_upd; try done. intros g' n' [= <- <-]. by apply Nat.eqb_eq in E.
    + destruct (n =? c_gen s); [done|]. injection Hs as <- <-. by apply waits_upd.
    + destruct (l_lock l); [done|]. injection Hs as <- <-. by apply waits_upd.
    + destruct (l_lock l); [done|]. destruct (part (o_kind o) l) as [g [ob|]]; [destruct (g =? l_gen l); [|destruct (l_curr l)]|destruct (l_curr l)]; injection Hs as <- <-; try done; by apply waits_upd.
    + destruct (bool_decide _); [by eapply waits_fails|]. destruct (bool_decide _); [by eapply waits_fails|]. injection Hs as <- <-. by apply waits_upd.
    + destruct (length (c_errs s) <? errs_cap); [|done]. injection Hs as <- <-. by apply waits_upd.
    + destruct (l_lock l); [done|]. by eapply waits_fails; [|exact Hs].
  - destruct (c_ops s !! i) as [o|]; [|done]. destruct (o_pc o); try done. destruct (o_ctx o); [|done]. injection Hs as <- <-. by apply waits_upd.
  - destruct (c_ops s !! i) as [o|]; [|done]. destruct (c_links s !! o_link o) as [l|]; [|done]. unfold net_step, ret in Hs. destruct (o_pc o); try done.
    + destruct r; [destruct (l_curr l); [|done]|]; injection Hs as <- <-; by apply waits_upd.
    + destruct (o_kind o), r; try done; injection Hs as <- <-; apply waits_upd; try done; by apply waits_oks.
    + injection Hs as <- <-. by apply waits_upd.
Qed.

Lemma link_events s lb s' ev : link_label lb = true -> sstep s lb = Some (s', ev) -> ests ev = [] /\ forall g, g ∈ c_errs s' -> g ∈ c_errs s \/ exists i l, EvReport i l g ∈ ev.
Proof.
  intros Hl Hs. unfold sstep in Hs. destruct (c_panic s); [done|]. destruct lb; try done.
  - destruct (c_lock s); [done|]. injection Hs as <- <-. split; [done|by left].
  - destruct (c_links s !! l); [|done]. injection Hs as <- <-. split; [done|by left].
  - destruct (c_ops s !! i) as [o|]; [|done]. destruct (o_ctx o); [done|]. injection Hs as <- <-. split; [done|by left].
  - destruct (c_ops s !! i) as [o|] eqn:Ei; [|done]. destruct (c_links s !! o_link o) as [l|]; [|done]. unfold op_step, fails, ret in Hs. destruct (o_pc o); try done;
      try (repeat (match type of Hs with context [match ?x with _ => _ end] => destruct x eqn:?; try discriminate Hs end); injection Hs as <- <-; (split; [done|by left])).
    destruct (length (c_errs s) <? errs_cap); [|done]. injection Hs as <- <-. split; [done|]. cbn [c_errs set_op cs_ops cs_errs]. intros g' [?|Hx%elem_of_list_singleton]%elem_of_app; [by left|right]. subst g'. exists i, (o_link o). by left.
  - destruct (c_ops s !! i) as [o|]; [|done]. destruct (o_pc o); try done. destruct (o_ctx o); [|done]. injection Hs as <- <-. split; [done|by left].
  - destruct (c_ops s !! i) as [o|]; [|done]. destruct (c_links s !! o_link o) as [l|]; [|done]. unfold net_step, ret, report_ok in Hs.
    destruct (o_pc o); try done; repeat (match type of Hs with context [match ?x with _ => _ end] => destruct x eqn:?; try discriminate Hs end); injection Hs as <- <-; (split; [done|by left]).
Qed.

Lemma cont_rest s lb s' ev : cont_step s lb = Some (s', ev) -> c_links s' = c_links s /\ c_ops s' = c_ops s /\ (forall g, g ∈ c_errs s' -> g ∈ c_errs s) /\ c_panic s' = c_panic s /\
  ((c_sess s' = c_sess s /\ c_gen s' = c_gen s /\ ests ev = []) \/ exists sid, c_pc s = CPublish sid /\ ev = [EvEst (c_local s) sid] /\ c_sess s' = Some sid /\ c_gen s' = c_local s).
Proof.
  intros Hs. unfold cont_step in Hs. destruct lb; destruct (c_pc s) as [| |sid|sid| | | | | |ce| | |] eqn:Ep; try done;
    repeat (match type of Hs with context [match ?x with _ => _ end] => destruct x eqn:?; try discriminate Hs end); injection Hs as <- <-; cbn;
    (split; [done|split; [done|split; [|split; [done|]]]]); try done; try (by left); try (by right; exists sid).
  all: try (intros g Hg; by right).
  all: try (left; split; [done|split; [done|]]; match goal with |- context [c_prev ?x] => by destruct (c_prev x) end).
Qed.

Lemma newest_snoc ev ev2 : newest (ev ++ ev2) = match last (ests (snd <$> ev2)) with Some x => Some x | None => newest ev end.
Proof. unfold newest. rewrite fmap_app, ests_app. destruct (ests (snd <$> ev2)) as [|x l] eqn:E using rev_ind; [by rewrite app_nil_r|]. by rewrite app_assoc, !last_snoc. Qed.

Lemma ainv_init : ainv a_init [].
Proof. split; [done|]. split; [done|]. split; [done|]. split; [by intros g H; apply elem_of_nil in H|done]. Qed.

Lemma ainv_step a ev lb a' ev2 : ainv a ev -> astep a lb = Some (a', ev2) -> ainv a' (ev ++ ev2).
Proof.
  intros (HR & HN & HG & HE & HW) Hs. unfold astep in Hs. destruct (c_panic (a_c a)) eqn:Ep; [done|]. destruct lb as [|r lb|r c|lb].
  - injection Hs as <- <-. rewrite app_nil_r. split; [|split; [|by split; [|split]]].
    + intros r n Hr. cbn [a_runs] in Hr. apply lookup_app_Some in Hr as [Hr|[Hlt Hr]]; [by apply HR|]. apply list_lookup_singleton_Some in Hr as [Hz <-]. rewrite HN by lia. split; [|done].
      split; [done|]. split; [done|]. split; [split; [done|apply not_elem_of_nil]|]. split; [|done]. split; [done|by intros H%elem_of_nil].
    + intros r Hr. cbn [a_runs] in Hr. rewrite app_length in Hr. apply HN. lia.
  - destruct (a_runs a !! r) as [n|] eqn:Er; [|done]. destruct (cont_step (load n (a_c a)) lb) as [[s' ev']|] eqn:E; [|done]. injection Hs as <- <-.
    destruct (cont_rest _ _ _ _ E) as (Hl & Ho & He & Hp & Hg). cbn [load c_links c_ops c_errs c_sess c_gen c_local] in *. destruct (HR r n Er) as [Hok Hid]. split; [|split; [|split; [|split]]]; cbn [a_runs a_c].
    + intros r' n' Hr'. rewrite by_run_app. destruct (decide (r' = r)) as [->|Hne].
      * rewrite list_lookup_insert in Hr' by (by eapply lookup_lt_Some). injection Hr' as <-. rewrite by_run_own. by eapply run_ok_cont.
      * rewrite list_lookup_insert_ne in Hr' by done. rewrite by_run_other by congruence. rewrite app_nil_r. by apply HR.
    + intros r' Hr'. rewrite insert_length in Hr'. rewrite by_run_app, HN, by_run_other; [done| |done]. apply lookup_lt_Some in Er. intros [= ->]. lia.
    + rewrite newest_snoc, tags. cbn [keep load c_gen c_sess]. destruct Hg as [(-> & -> & ->)|(sid & Hpc & -> & -> & ->)]; [exact HG|]. cbn. split; [done|]. split; [done|].
      destruct Hok as (_ & HL & _). cbn in Hpc. rewrite HL, Hpc. lia.
    + intros g Hg'. cbn in Hg'. apply He in Hg'. destruct (HE _ Hg') as (i & l & Hin). exists i, l. apply elem_of_app. by left.
    + intros i o g n' Hi. cbn in Hi. rewrite Ho in Hi. by apply (HW i).
  - destruct (a_runs a !! r) as [[p k v [|]]|] eqn:Er; try done. injection Hs as <- <-. destruct (HR r _ Er) as [(H1 & H2 & H3 & H4 & H5) Hid]. split; [|split; [|split; [|split]]]; cbn [a_runs a_c].
    + intros r' n' Hr'. rewrite by_run_app. change [(Some r, EvCancel)] with ((fun e : cev => (Some r, e)) <$> [EvCancel]). destruct (decide (r' = r)) as [->|Hne].
      * rewrite list_lookup_insert in Hr' by (by eapply lookup_lt_Some). injection Hr' as <-. rewrite by_run_own. split; [|done]. unfold run_ok.
        assert (ests (by_run r ev ++ [EvCancel]) = ests (by_run r ev)) as -> by (rewrite ests_app; apply app_nil_r). assert (tears (by_run r ev ++ [EvCancel]) = tears (by_run r ev)) as -> by (rewrite tears_app; apply app_nil_r). cbn [n_pc n_local n_prev n_ctx] in *.
        split; [done|]. split; [done|]. split; [|split; [|done]].
        -- assert (EvStopped ∉ by_run r ev -> EvStopped ∉ by_run r ev ++ [EvCancel]) as Hs by (intros H [?|?%elem_of_list_singleton]%elem_of_app; done). destruct p; try done; (destruct H3 as [A B]; split; [exact A|by apply Hs]).
        -- split; [intros _; apply elem_of_app; right; by left|done].
      * rewrite list_lookup_insert_ne in Hr' by done. rewrite by_run_other by congruence. rewrite app_nil_r. by apply HR.
    + intros r' Hr'. rewrite insert_length in Hr'. change [(Some r, EvCancel)] with ((fun e : cev => (Some r, e)) <$> [EvCancel]). rewrite by_run_app, HN, by_run_other; [done| |done]. apply lookup_lt_Some in Er. intros [= ->]. lia.
    + rewrite newest_snoc. exact HG.
    + intros g Hg'. destruct (HE _ Hg') as (i & l & Hin). exists i, l. apply elem_of_app. by left.
    + exact HW.
  - destruct (link_label lb) eqn:El; [|done]. destruct (sstep (a_c a) lb) as [[s' ev']|] eqn:E; [|done]. injection Hs as <- <-.
    destruct (link_keeps _ _ _ _ El E) as (Hse & Hge & _). destruct (link_events _ _ _ _ El E) as [Hes Her]. split; [|split; [|split; [|split]]]; cbn [a_runs a_c].
    + intros r n Hr. rewrite by_run_app, by_run_other by done. rewrite app_nil_r. by apply HR.
    + intros r Hr. rewrite by_run_app, by_run_other by done. rewrite app_nil_r. by apply HN.
    + rewrite newest_snoc, tags, Hes. cbn [last]. by rewrite Hse, Hge.
    + intros g Hg. destruct (Her g Hg) as [Hg'|(i & l & Hin)].
      * destruct (HE _ Hg') as (i & l & Hin). exists i, l. apply elem_of_app. by left.
      * exists i, l. apply elem_of_app. right. apply elem_of_list_fmap. by exists (EvReport i l g).
    + by eapply waits_step.
Qed.

Lemma ainv_run ls a ev : arun a_init ls = Some (a, ev) -> ainv a ev.
Proof.
  revert a ev. induction ls as [|lb ls IH] using rev_ind; intros a ev Hr; [injection Hr as <- <-; apply ainv_init|].
  apply run_snoc in Hr as (a1 & ev1 & ev2 & H1 & H2 & ->). eapply ainv_step; [by apply IH|exact H2].
Qed.

(** ** Why sessions end *)

Lemma aeach_app {A} (P : list A -> A -> Prop) x y : (forall a e b, x = a ++ e :: b -> P a e) -> (forall a e b, y = a ++ e :: b -> P (x ++ a) e) -> forall a e b, x ++ y = a ++ e :: b -> P a e.
Proof.
  intros Hx Hy a e b H. apply app_eq_inv in H as [(k & -> & Hk)|(k & -> & Hk)].
  - destruct k as [|e' k].
    + rewrite app_nil_r in Hy. cbn in Hk. pose proof (Hy [] e b (eq_sym Hk)) as Hq. by rewrite app_nil_r in Hq.
    + injection Hk as <- ->. by apply (Hx a e k).
  - by apply (Hy k e b).
Qed.

Lemma cont_ends s lb s' ev g rep : cont_step s lb = Some (s', ev) -> EvEnd g rep ∈ ev ->
  ev = [EvEnd g rep] /\ c_pc s = CLoop /\ g = c_local s /\ match rep with Some h => h = g /\ g ∈ c_errs s | None => c_ctx s <> None end.
Proof.
  intros Hs Hin. unfold cont_step in Hs. destruct lb; destruct (c_pc s) as [| |sid|sid| | | | | |ce| | |] eqn:Ep; try done;
    repeat (match type of Hs with context [match ?x with _ => _ end] => destruct x eqn:?; try discriminate Hs end); injection Hs as <- <-;
    repeat (apply elem_of_cons in Hin as [Hin|Hin]); try discriminate Hin; try (by apply elem_of_nil in Hin).
  - injection Hin as -> ->. apply Nat.eqb_eq in Heqb as ->. split; [done|]. split; [done|]. split; [done|]. split; [done|]. by left.
  - by injection Hin as -> ->.
Qed.

Definition end_ok (a : list (option nat * cev)) (e : option nat * cev) : Prop :=
  match e with
  | (x, EvEnd g rep) => exists r, x = Some r /\ last (fst <$> ests (by_run r a)) = Some g /\
      match rep with Some h => h = g /\ exists i l, (None, EvReport i l g) ∈ a | None => (Some r, EvCancel) ∈ a end
  | _ => True
  end.

Lemma last_seq n : n <> 0 -> last (seq 1 n) = Some n.
Proof. destruct n as [|n]; [done|]. intros _. by rewrite seq_S, last_snoc. Qed.

Lemma ends_ok ls a ev : arun a_init ls = Some (a, ev) -> forall x e y, ev = x ++ e :: y -> end_ok x e.
Proof.
  revert a ev. induction ls as [|lb ls IH] using rev_ind; intros a ev Hr; [injection Hr as <- <-; intros x e y H; symmetry in H; by apply app_eq_nil in H as [_ H]|].
  apply run_snoc in Hr as (a1 & ev1 & ev2 & H1 & H2 & ->). apply (aeach_app end_ok); [by apply (IH _ _ H1)|].
  intros x e y E. destruct (ainv_run _ _ _ H1) as (HR & _ & _ & HE & _).
  destruct e as [w [| | | | |g rep| | | | | | | | | | | |]]; try done. unfold astep in H2. destruct (c_panic (a_c a1)); [done|]. destruct lb as [|r lb|r c|lb].
  - injection H2 as <- <-. by destruct x.
  - destruct (a_runs a1 !! r) as [n|] eqn:Er; [|done]. destruct (cont_step (load n (a_c a1)) lb) as [[s' ev']|] eqn:Ec; [|done]. injection H2 as <- <-.
    assert ((w, EvEnd g rep) ∈ ((fun e => (Some r, e)) <$> ev')) as Hin by (rewrite E; apply elem_of_app; right; by left).
    apply elem_of_list_fmap in Hin as (e' & [= -> <-] & Hin). destruct (cont_ends _ _ _ _ _ _ Ec Hin) as (-> & Hpc & Hg & Hrep). cbn in Hpc, Hg.
    assert (x = []) as ->. { destruct x as [|? [|? ?]]; [done|..]; by injection E. }
    rewrite app_nil_r. exists r. split; [done|]. destruct (HR r n Er) as [(A & B & _ & D & Z) _]. rewrite Hpc in Z, B. split; [rewrite A, last_seq by done; f_equal; lia|].
    destruct rep as [h|]; [destruct Hrep as [-> Hin']; split; [done|]; exact (HE g Hin')|]. apply elem_by_run. by apply D.
  - destruct (a_runs a1 !! r) as [[p k v [|]]|]; try done. injection H2 as <- <-. destruct x as [|? [|? ?]]; by injection E.
  - destruct (link_label lb) eqn:El; [|done]. destruct (sstep (a_c a1) lb) as [[s' ev']|] eqn:Es; [|done]. injection H2 as <- <-. exfalso.
    assert ((w, EvEnd g rep) ∈ ((fun e => (None (A:=nat), e)) <$> ev')) as Hin by (rewrite E; apply elem_of_app; right; by left).
    apply elem_of_list_fmap in Hin as (e' & [= -> <-] & Hin). clear -Es El Hin.
    unfold sstep in Es. destruct (c_panic (a_c a1)); [done|]. destruct lb; try done; unfold op_step, net_step, fails, ret, report_ok in Es;
      repeat (match type of Es with context [match ?x with _ => _ end] => destruct x eqn:?; try discriminate Es end); injection Es as <- <-;
      first [by apply elem_of_nil in Hin|by apply elem_of_list_singleton in Hin].
Qed.

(** ** Calls that wait *)

Definition label_op (lb : clabel) : option nat := match lb with LCtx i _ | LStep i | LWaitCtx i | LNet i _ => Some i | _ => None end.

Lemma link_frame s lb s' ev i o : link_label lb = true -> label_op lb <> Some i -> c_ops s !! i = Some o -> sstep s lb = Some (s', ev) ->
  c_ops s' !! i = Some o /\ Forall (fun e => acts i e = false) ev.
Proof.
  intros Hl Hi Ho Hs. unfold sstep in Hs. destruct (c_panic s); [done|]. destruct lb as [| | | | | | | | | | | | | | | | |l k|j c|j|j|j r]; try done.
  - destruct (c_lock s); [done|]. injection Hs as <- <-. split; [done|]. by repeat constructor.
  - destruct (c_links s !! l); [|done]. injection Hs as <- <-. split; [cbn; by apply lookup_app_l_Some|]. by repeat constructor.
  - destruct (c_ops s !! j) as [o'|]; [|done]. destruct (o_ctx o'); [done|]. injection Hs as <- <-. split; [cbn; rewrite list_lookup_insert_ne; [done|]; intros ->; by apply Hi|]. constructor.
  - assert (j <> i) as Hne by (intros ->; by apply Hi). assert ((j =? i) = false) as Hb by (by apply Nat.eqb_neq).
    destruct (c_ops s !! j) as [o'|]; [|done]. destruct (c_links s !! o_link o') as [l|]; [|done]. unfold op_step, fails, ret, set_op, set_link in Hs.
    repeat (match type of Hs with context [match ?x with _ => _ end] => destruct x eqn:?; try discriminate Hs end); injection Hs as <- <-; cbn [c_ops cs_ops cs_panic];
      (split; [first [exact Ho|rewrite list_lookup_insert_ne by done; exact Ho]|]); repeat constructor; cbn [acts]; exact Hb.
  - assert (j <> i) as Hne by (intros ->; by apply Hi). destruct (c_ops s !! j) as [o'|]; [|done]. destruct (o_pc o'); try done. destruct (o_ctx o'); [|done]. injection Hs as <- <-. cbn. rewrite list_lookup_insert_ne by done. split; [done|constructor].
  - assert (j <> i) as Hne by (intros ->; by apply Hi). assert ((j =? i) = false) as Hb by (by apply Nat.eqb_neq).
    destruct (c_ops s !! j) as [o'|]; [|done]. destruct (c_links s !! o_link o') as [l|]; [|done]. unfold net_step, ret, set_op, set_link, report_ok in Hs.
    repeat (match type of Hs with context [match ?x with _ => _ end] => destruct x eqn:?; try discriminate Hs end); injection Hs as <- <-; cbn [c_ops cs_ops cs_oks cs_links];
      (split; [first [exact Ho|rewrite list_lookup_insert_ne by done; exact Ho]|]); repeat constructor; cbn [acts]; exact Hb.
Qed.

Definition awaits (g : nat) (o : op) : Prop := o_ctx o = None /\ (o_pc o = PAwait g \/ o_pc o = PWait g g).

Lemma await_step a lb a' ev i o g : astep a lb = Some (a', ev) -> c_ops (a_c a) !! i = Some o -> awaits g o -> c_gen (a_c a) = g -> (forall c, lb <> ALink (LCtx i c)) ->
  (forall x g' sid, (x, EvEst g' sid) ∈ ev -> g' = g) -> (exists o', c_ops (a_c a') !! i = Some o' /\ awaits g o') /\ c_gen (a_c a') = g /\ Forall (fun e => acts i (snd e) = false) ev.
Proof.
  intros Hs Ho Hw Hg Hlb Hev. unfold astep in Hs. destruct (c_panic (a_c a)) eqn:Ep; [done|]. destruct lb as [|r lb|r c|lb].
  - injection Hs as <- <-. split; [by exists o|]. split; [done|constructor].
  - destruct (a_runs a !! r) as [n|] eqn:Er; [|done]. destruct (cont_step (load n (a_c a)) lb) as [[s' ev']|] eqn:E; [|done]. injection Hs as <- <-.
    destruct (cont_rest _ _ _ _ E) as (_ & Hop & _ & _ & Hge). cbn in Hop. split; [exists o; cbn; by rewrite Hop|]. split.
    + cbn. destruct Hge as [(_ & Hge & _)|(sid & _ & -> & _ & Hge)]; cbn in Hge; [congruence|]. rewrite Hge. apply (Hev (Some r) _ sid). by left.
    + apply Forall_fmap. clear -E. unfold cont_step in E. destruct lb; destruct (c_pc (load n (a_c a))) as [| |sid|sid| | | | | |ce| | |]; try done;
        repeat (match type of E with context [match ?x with _ => _ end] => destruct x eqn:?; try discriminate E end); injection E as <- <-; try (by repeat constructor).
  - destruct (a_runs a !! r) as [[p k v [|]]|]; try done. injection Hs as <- <-. split; [by exists o|]. split; [done|]. by repeat constructor.
  - destruct (link_label lb) eqn:El; [|done]. destruct (sstep (a_c a) lb) as [[s' ev']|] eqn:Es; [|done]. injection Hs as <- <-. cbn [a_c].
    destruct (link_keeps _ _ _ _ El Es) as (_ & Hge & _). rewrite Hge. split_and!; [|done|].
    + destruct (decide (label_op lb = Some i)) as [Hi|Hi]; [|destruct (link_frame _ _ _ _ _ _ El Hi Ho Es) as [H _]; by exists o].
      unfold sstep in Es. rewrite Ep in Es. destruct Hw as [Hc Hw]. destruct lb; try done; injection Hi as ->.
      * by destruct (Hlb c).
      * rewrite Ho in Es. destruct (c_links (a_c a) !! o_link o) as [l|]; [|done]. unfold op_step in Es. destruct Hw as [Hw|Hw]; rewrite Hw in Es; [|by rewrite Hg, Nat.eqb_refl in Es].
        destruct (c_lock (a_c a)); [done|]. rewrite Hg, Nat.eqb_refl in Es. injection Es as <- <-. cbn. rewrite list_lookup_insert by (by eapply lookup_lt_Some). eexists. split; [done|]. split; [done|]. by right.
      * rewrite Ho, Hc in Es. by destruct (o_pc o).
      * rewrite Ho in Es. destruct (c_links (a_c a) !! o_link o) as [l|]; [|done]. unfold net_step in Es. destruct Hw as [Hw|Hw]; by rewrite Hw in Es.
    + apply Forall_fmap. destruct (decide (label_op lb = Some i)) as [Hi|Hi]; [|by apply (link_frame _ _ _ _ _ _ El Hi Ho Es)].
      unfold sstep in Es. rewrite Ep in Es. destruct Hw as [Hc Hw]. destruct lb; try done; injection Hi as ->.
      * by destruct (Hlb c).
      * rewrite Ho in Es. destruct (c_links (a_c a) !! o_link o) as [l|]; [|done]. unfold op_step in Es. destruct Hw as [Hw|Hw]; rewrite Hw in Es; [|by rewrite Hg, Nat.eqb_refl in Es].
        destruct (c_lock (a_c a)); [done|]. rewrite Hg, Nat.eqb_refl in Es. injection Es as <- <-. constructor.
      * rewrite Ho, Hc in Es. by destruct (o_pc o).
      * rewrite Ho in Es. destruct (c_links (a_c a) !! o_link o) as [l|]; [|done]. unfold net_step in Es. destruct Hw as [Hw|Hw]; by rewrite Hw in Es.
Qed.

Lemma await_run a ls a' ev i o g : arun a ls = Some (a', ev) -> c_ops (a_c a) !! i = Some o -> awaits g o -> c_gen (a_c a) = g -> (forall c, ALink (LCtx i c) ∉ ls) ->
  (forall x g' sid, (x, EvEst g' sid) ∈ ev -> g' = g) -> Forall (fun e => acts i (snd e) = false) ev.
Proof.
  intros Hr Ho Hw Hg Hlb Hev.
  enough ((exists o', c_ops (a_c a') !! i = Some o' /\ awaits g o') /\ c_gen (a_c a') = g /\ Forall (fun e => acts i (snd e) = false) ev) as (_ & _ & H) by exact H.
  revert a' ev Hr Hlb Hev. induction ls as [|lb ls IH] using rev_ind; intros a' ev Hr Hlb Hev; [injection Hr as <- <-; split; [by exists o|]; split; [done|constructor]|].
  apply run_snoc in Hr as (a1 & ev1 & ev2 & H1 & H2 & ->).
  destruct (IH _ _ H1) as ((o1 & Ho1 & Hw1) & Hg1 & HF1); [intros c Hc; apply (Hlb c); apply elem_of_app; by left|intros x g' sid Hx; apply (Hev x g' sid); apply elem_of_app; by left|].
  destruct (await_step _ _ _ _ _ _ _ H2 Ho1 Hw1 Hg1) as (A & B & C); [intros c ->; apply (Hlb c); apply elem_of_app; right; by left|intros x g' sid Hx; apply (Hev x g' sid); apply elem_of_app; by right|].
  split; [done|]. split; [done|]. apply Forall_app. by split.
Qed.

(** ** Links that never work again *)

Definition idle_op (g : nat) (o : op) : Prop :=
  match o_pc o with PStart | PDone _ => True | PAwait g' => g' = g | PWait g' n => g' = g /\ n = g | PFail e => quiet o e | _ => False end.
Definition idle_link (g : nat) (l : lnk) : Prop := l_curr l = None /\ l_gen l = g /\ snd (l_rcv l) = None /\ snd (l_snd l) = None /\ l_lock l = false.
Definition idle_run (errs : list nat) (n : crun) : Prop := n_pc n = CDone \/ (n_pc n = CLoop /\ n_ctx n = None /\ n_local n ∉ errs).
Definition lost (g : nat) (a : astate) : Prop :=
  c_gen (a_c a) = g /\ Forall (idle_run (c_errs (a_c a))) (a_runs a) /\ Forall (idle_link g) (c_links (a_c a)) /\ Forall (idle_op g) (c_ops (a_c a)).

(** Nothing but calls that are made, or that return without having done anything. *)
Definition useless (e : cev) : Prop :=
  match e with EvCall _ _ _ | EvIgnored _ _ | EvReset _ => True | EvRet _ _ k r => k = KClose \/ r <> ROk | _ => False end.

Lemma Forall_set {A} (P : A -> Prop) i x (l : list A) : Forall P l -> P x -> Forall P (<[i := x]> l).
Proof. intros H Hx. by apply Forall_insert. Qed.

Lemma lost_step g a lb a' ev : lost g a -> astep a lb = Some (a', ev) -> lb <> AStart -> lb <> ALink LLink -> (forall r c, lb <> ACancel r c) -> lost g a' /\ Forall (fun e => useless (snd e)) ev.
Proof.
  intros (HG & HR & HL & HO) Hs H1 H2 H3. unfold astep in Hs. destruct (c_panic (a_c a)) eqn:Ep; [done|]. destruct lb as [|r lb|r c|lb]; [done| |by destruct (H3 r c)|].
  - destruct (a_runs a !! r) as [n|] eqn:Er; [|done]. destruct (cont_step (load n (a_c a)) lb) as [[s' ev']|] eqn:E; [|done]. injection Hs as <- <-.
    pose proof (Forall_lookup_1 _ _ _ _ HR Er) as [Hn|(Hn & Hc & Hne)]; unfold cont_step in E; cbn [c_pc load] in E; rewrite Hn in E; destruct lb; try done.
    + cbn [c_oks load c_local] in E. destruct (c_oks (a_c a)) as [|h q]; [done|]. injection E as <- <-. split.
      * split; [done|]. split; [|by split]. cbn. apply Forall_set; [done|]. right. by split_and!.
      * destruct (h =? n_local n); by repeat constructor.
    + cbn [c_errs load c_local] in E. destruct (c_errs (a_c a)) as [|h q] eqn:Eq; [done|]. destruct (h =? n_local n) eqn:Eh; [apply Nat.eqb_eq in Eh as ->; destruct Hne; by left|]. injection E as <- <-. split; [|by repeat constructor].
      split; [done|]. split; [|by split]. cbn. apply Forall_set.
      * eapply Forall_impl; [exact HR|]. intros m [Hm|(Hm & Hmc & Hme)]; [by left|right]. split; [done|]. split; [done|]. intros Hx. apply Hme. by right.
      * right. cbn. split; [done|]. split; [done|]. intros Hx. apply Hne. by right.
    + cbn [c_ctx load] in E. by rewrite Hc in E.
  - destruct (link_label lb) eqn:El; [|done]. destruct (sstep (a_c a) lb) as [[s' ev']|] eqn:Es; [|done]. injection Hs as <- <-. cbn [a_c a_runs].
    assert (forall s2, c_gen s2 = c_gen (a_c a) -> c_errs s2 = c_errs (a_c a) -> Forall (idle_link g) (c_links s2) -> Forall (idle_op g) (c_ops s2) -> lost g (AState s2 (a_runs a))) as Hlost.
    { intros s2 E1 E2 E3 E4. unfold lost. cbn. rewrite E1, E2. by split_and!. }
    unfold sstep in Es. rewrite Ep in Es. destruct lb as [| | | | | | | | | | | | | | | | |l k|j c|j|j|j r]; try done.
    + destruct (c_links (a_c a) !! l); [|done]. injection Es as <- <-. split; [|by repeat constructor]. apply Hlost; try done. cbn. apply Forall_app. split; [done|]. by repeat constructor.
    + destruct (c_ops (a_c a) !! j) as [o|] eqn:Eo; [|done]. destruct (o_ctx o) eqn:Ec; [done|]. injection Es as <- <-. split; [|constructor]. apply Hlost; try done. cbn. apply Forall_set; [done|].
      pose proof (Forall_lookup_1 _ _ _ _ HO Eo) as Hj. unfold idle_op in *. cbn. destruct (o_pc o); try done. destruct Hj as [->|(c' & Hj & _)]; [by left|congruence].
    + destruct (c_ops (a_c a) !! j) as [o|] eqn:Eo; [|done]. destruct (c_links (a_c a) !! o_link o) as [l|] eqn:Ek; [|done].
      pose proof (Forall_lookup_1 _ _ _ _ HO Eo) as Hj. pose proof (Forall_lookup_1 _ _ _ _ HL Ek) as (L1 & L2 & L3 & L4 & L5). unfold op_step in Es. unfold idle_op in Hj.
      destruct (o_pc o) as [|g'|g' n|s0 g'| | |ob g'|e|g' e|e| |rr] eqn:Epc; try done; rewrite ?L5 in Es.
      * destruct (o_kind o) eqn:Ek'; [..|rewrite L3 in Es; unfold ret in Es; injection Es as <- <-; split; [|constructor; [by left|constructor]]; apply Hlost; try done; cbn; apply Forall_set; try done; by split_and!];
          (destruct (l_closed l); [|rewrite L1 in Es]; injection Es as <- <-; (split; [|constructor]); apply Hlost; try done; cbn; (apply Forall_set; [done|]); [by left|exact L2]).
      * destruct (c_lock (a_c a)); [done|]. subst g'. rewrite HG, Nat.eqb_refl in Es. injection Es as <- <-. split; [|constructor]. apply Hlost; try done. cbn. apply Forall_set; [done|]. by split.
      * destruct Hj as [-> ->]. by rewrite HG, Nat.eqb_refl in Es.
      * assert (fails j o e (a_c a) = Some (s', ev')) as Ef.
        { destruct Hj as [->|(c & Hc & ->)].
          - destruct (bool_decide (o_ctx o <> None /\ _)); [done|]. by rewrite bool_decide_eq_true_2 in Es.
          - rewrite bool_decide_eq_true_2 in Es; [done|]. rewrite Hc. done. }
        unfold fails, ret in Ef. destruct (o_kind o), (o_ctx o); injection Ef as <- <-; (split; [apply Hlost; try done; cbn; by apply Forall_set|]); first [by apply Forall_nil|apply Forall_cons; split; [by right|by apply Forall_nil]].
    + destruct (c_ops (a_c a) !! j) as [o|] eqn:Eo; [|done]. destruct (o_pc o); try done. destruct (o_ctx o) as [c|] eqn:Ec; [|done]. injection Es as <- <-. split; [|constructor]. apply Hlost; try done. cbn. apply Forall_set; [done|].
      right. by exists c.
    + destruct (c_ops (a_c a) !! j) as [o|] eqn:Eo; [|done]. destruct (c_links (a_c a) !! o_link o) as [l|]; [|done]. pose proof (Forall_lookup_1 _ _ _ _ HO Eo) as Hj. unfold idle_op in Hj. unfold net_step in Es. by destruct (o_pc o).
Qed.

Lemma lost_run g a ls a' ev : lost g a -> arun a ls = Some (a', ev) -> AStart ∉ ls -> ALink LLink ∉ ls -> (forall r c, ACancel r c ∉ ls) -> Forall (fun e => useless (snd e)) ev.
Proof.
  intros Hd Hr H1 H2 H3. enough (lost g a' /\ Forall (fun e => useless (snd e)) ev) as [_ H] by exact H.
  revert a' ev Hr H1 H2 H3. induction ls as [|lb ls IH] using rev_ind; intros a' ev Hr H1 H2 H3; [injection Hr as <- <-; split; [done|constructor]|].
  apply run_snoc in Hr as (a1 & ev1 & ev2 & Hr1 & Hr2 & ->). rewrite elem_of_app in H1, H2. setoid_rewrite elem_of_app in H3.
  destruct (IH _ _ Hr1) as [Hd1 HF1]; [auto|auto|intros r c ?; apply (H3 r c); auto|].
  destruct (lost_step _ _ _ _ _ Hd1 Hr2) as [Hd2 HF2]; [intros ->; apply H1; right; by left|intros ->; apply H2; right; by left|intros r c ->; apply (H3 r c); right; by left|].
  split; [done|]. apply Forall_app. by split.
Qed.
