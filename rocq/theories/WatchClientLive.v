(** Watches and the clients they watch: activity, the end of a watch. *)
From Coq Require Import ZArith NArith String Lia.
From stdpp Require Import base gmap strings list sorting.
From Verif Require Import GoBase Encoding Records Messages Run Keepalive Client ClientFacts ClientClose Discovery WatchClient WatchClientInv.
From Verif Require DiscoveryLive WatchFacts WatchLive WatchClientFacts.
Import WatchClientFacts (jmove, jstep_moves, project, project_from, sub_step, devs_app, cevs_app, devs_d, devs_c, cevs_d, cevs_c, d_sub, c_sub).

Local Open Scope list_scope.

(** * Specification *)

(** The times at which the handlers of watch [w] were called. *)
Definition seen (w : nat) (tr : list jev) : list Z :=
  omap (fun e => match e with JNow k _ _ t _ => if bool_decide (k = w) then Some t else None | _ => None end) tr.

(** A watch waits for its Close, and Close for what cannot happen: a listener has
    a message to deliver, or a call of Listen is under way. *)
Definition stuck_close (s : jstate) (w : nat) : Prop :=
  exists j c, j_of s !! w = Some j /\ j_cl s !! j = Some c /\ j_close s !! w = Some false /\ c_crashed c = false /\ blocks c.

(** Steps that end a watch: its handlers return, the listeners of its client
    wind down, Close returns. *)
Definition ending (j w : nat) (lb : jlabel) : Prop :=
  match lb with
  | JStore k _ => k = j
  | JC k l => k = j /\ winds_down l = true
  | JClose v => v = w
  | JD (LWEnd v) => v = w
  | _ => False
  end.

(** * Calls of a watch's handlers *)

Lemma seen_app w a b : seen w (a ++ b) = seen w a ++ seen w b.
Proof. apply omap_app. Qed.
Lemma seen_d w ev : seen w (JED <$> ev) = [].
Proof. induction ev as [|e ev IH]; [done|exact IH]. Qed.
Lemma seen_c w j ev : seen w (JEC j <$> ev) = [].
Proof. induction ev as [|e ev IH]; [done|exact IH]. Qed.

Lemma apart_acts s l s' ev w : DiscoveryLive.blocked_inv s -> dstep s l = Some (s', ev) -> match l with LActStore _ _ => False | _ => True end ->
  WatchFacts.acts w ev = [].
Proof.
  intros Hb Hs Hl. rewrite <- WatchFacts.acts_about. destruct (DiscoveryLive.step_moves _ _ _ _ Hb Hs) as (_ & _ & Hm).
  destruct (d_watches s' !! w) as [y|] eqn:Ey.
  - destruct (Hm _ _ Ey) as [_ ->|c _ _ _ _ ->|x _ Ho _|x t n _ _ _ _ ->|x p _ _ _ -> _]; try done.
    destruct Ho; subst ev; try done; try (by subst l). all: unfold DiscoveryLive.about; cbn; by rewrite bool_decide_eq_true_2.
  - destruct (WatchFacts.watches_length _ _ _ _ Hs) as [_ ->]; [done|]. by apply lookup_ge_None.
Qed.

(** Activity recorded and activity to be recorded are the calls. *)
Lemma acts_seen infos n now ls s tr w : jrun infos (j_init n now) ls = Some (s, tr) ->
  WatchFacts.acts w (devs tr) ++ under w (map_to_list (j_in s)) ≡ₚ seen w tr.
Proof.
  revert s tr. induction ls as [|l ls IH] using rev_ind; intros s tr Hr; [injection Hr as <- <-; done|].
  apply run_snoc in Hr as (s1 & ev1 & ev2 & Hr & Hs & ->). specialize (IH _ _ Hr). pose proof (blocked_run _ _ _ _ _ _ Hr) as Hb.
  rewrite devs_app, WatchFacts.acts_app, seen_app, <- IH. destruct (jstep_moves _ _ _ _ _ Hs) as [_ Hm].
  assert (WatchFacts.acts w (devs ev2) = [] -> seen w ev2 = [] -> j_in s = j_in s1 ->
    (WatchFacts.acts w (devs ev1) ++ WatchFacts.acts w (devs ev2)) ++ under w (map_to_list (j_in s)) ≡ₚ
    (WatchFacts.acts w (devs ev1) ++ under w (map_to_list (j_in s1))) ++ seen w ev2) as Hsame.
  { intros -> -> ->. by rewrite !app_nil_r. }
  destruct Hm; cbn [js_d after_c j_in] in *.
  - apply Hsame; [|apply seen_d|done]. rewrite devs_d. eapply apart_acts; [exact Hb|exact H0|by destruct l].
  - apply Hsame; [|apply seen_d|done]. rewrite devs_d. by eapply apart_acts.
  - apply Hsame; [|apply seen_d|done]. rewrite devs_d. by eapply apart_acts.
  - apply Hsame; [by rewrite devs_c|apply seen_c|done].
  - apply Hsame; [by rewrite devs_c|apply seen_c|done].
  - clear Hsame. rewrite (under_perm w _ _ (map_to_list_insert _ _ _ H)). unfold under. unfold devs, seen. cbn. case_bool_decide.
    + rewrite app_nil_r, <- app_assoc. apply Permutation_app_head, Permutation_cons_append.
    + by rewrite !app_nil_r.
  - clear Hsame. rewrite devs_d, seen_d, app_nil_r. destruct (act_store _ _ _ _ _ H2) as (z & y' & ts' & Hz & Hd & Hts & Hpe & Hpc & Hn & _ & ->).
    rewrite H0 in Hz. injection Hz as <-. rewrite H1 in Hts. injection Hts as <-.
    rewrite <- (under_perm w _ _ (map_to_list_delete _ _ _ H)). unfold under, WatchFacts.acts. cbn. case_bool_decide.
    + by rewrite <- app_assoc.
    + by rewrite app_nil_r.
  - apply Hsame; [by rewrite devs_c|apply seen_c|done].
Qed.

(** A call and its time. *)
Lemma elem_d e (ev : list dev) : e ∈ JED <$> ev -> exists x, e = JED x.
Proof. intros H. apply elem_of_list_fmap in H as (x & -> & _). eauto. Qed.
Lemma elem_c j e (ev : list cev) : e ∈ JEC j <$> ev -> exists x, e = JEC j x /\ x ∈ ev.
Proof. intros H. apply elem_of_list_fmap in H as (x & -> & ?). eauto. Qed.

Lemma now_step infos s l s' ev w j i t x : jstep infos s l = Some (s', ev) -> JNow w j i t x ∈ ev ->
  ev = [JEC j (CCall i (User (2 * w)) x); JNow w j i t x] /\ j_in s' !! (j, i) = Some (w, t) /\ t = d_now (j_d s') /\ l = JC j (LLRun i).
Proof.
  intros Hs Hin. destruct (jstep_moves _ _ _ _ _ Hs) as [_ Hm]. destruct Hm.
  all: try (by apply elem_d in Hin as [? ?]). all: try (by apply elem_c in Hin as (? & ? & _)).
  destruct (WatchClientFacts.run_events _ _ _ _ _ H1) as (_ & [|(h' & x' & E)]); [done|]. injection E as -> <- <-.
  apply elem_of_cons in Hin as [Hin|Hin]; [done|]. apply elem_of_list_singleton in Hin. injection Hin as -> -> -> -> ->. cbn [j_in j_d]. by rewrite lookup_insert.
Qed.

Lemma call_step infos s l s' ev w j i x : jstep infos s l = Some (s', ev) -> JEC j (CCall i (User (2 * w)) x) ∈ ev ->
  ev = [JEC j (CCall i (User (2 * w)) x); JNow w j i (d_now (j_d s')) x].
Proof.
  intros Hs Hin. destruct (jstep_moves _ _ _ _ _ Hs) as [_ Hm]. destruct Hm.
  all: try (by apply elem_d in Hin as [? ?]).
  - apply elem_c in Hin as (e & E & Hin). injection E as <- <-. destruct (WatchClientFacts.reg_events _ _ _ _ _ _ H2) as [-> _]. by apply elem_of_list_singleton in Hin.
  - apply elem_c in Hin as (e & E & Hin). injection E as <- <-. exfalso.
    assert (exists k, l = LLRun k) as [k ->].
    { destruct (step_cases _ _ _ _ _ H1) as [Hq|[(ad & -> & _)|(k & y & q & Hl & Hst & Hm & _)]].
      - destruct (Hq i) as [_ HF]. apply (proj1 (Forall_forall _ _) HF) in Hin. cbn in Hin. by rewrite bool_decide_eq_true_2 in Hin.
      - by apply elem_of_list_singleton in Hin.
      - unfold listener_step in Hst. destruct l as [| | | |? [m|z]|? [|z]| |k0| | | | | | | | | | |]; try done; destruct (l_pc y) as [|m'|x'|x' [|g hs]| |]; try done.
        all: try (destruct (decode_msg (Some m')) as [[?|] [?|]|]). all: try (destruct (unlocked _); [|done]). all: injection Hst as _ <-.
        all: try (by apply elem_of_nil in Hin). all: try (exfalso; set_solver). eauto. }
    destruct (WatchClientFacts.run_events _ _ _ _ _ H1) as (_ & [->|(h' & x' & ->)]); [by apply elem_of_nil in Hin|]. apply elem_of_list_singleton in Hin.
    injection Hin as -> <- ->. destruct H as [_ H]. unfold watch_called in H.
    assert (Nat.even (w + (w + 0)) = true) as He by (change (w + (w + 0)) with (2 * w); by rewrite Nat.even_mul). rewrite He in H. done.
  - destruct (WatchClientFacts.run_events _ _ _ _ _ H1) as (_ & [|(h' & x' & E)]); [done|]. injection E as -> <- <-.
    apply elem_of_cons in Hin as [Hin|Hin]; [|by apply elem_of_list_singleton in Hin]. injection Hin as -> -> Hw ->.
    assert (w0 = w) as -> by lia. done.
  - apply elem_c in Hin as (e & E & Hin). injection E as <- <-. destruct (WatchClientFacts.begin_events _ _ _ _ H4) as (_ & [[-> _]|[-> _]]); set_solver.
Qed.

(** While a handler of a watch runs, its listener does nothing else. *)
Lemma busy_quiet c s lb s' ev i x hs : cstep c s lb = Some (s', ev) -> pc_of s i = Some (Client.LRun x hs) -> lb <> LLRun i ->
  Forall (fun e => of_listener i e = false) ev.
Proof.
  intros Hs Hp Hne. destruct (step_cases _ _ _ _ _ Hs) as [Hq|[(ad & -> & El)|(j & l & q & Hl & Hst & Hm & Hpc)]].
  - apply Hq.
  - repeat constructor. cbn. apply bool_decide_eq_false. unfold pc_of in Hp. destruct (c_listeners s !! i) eqn:E; [|done]. apply lookup_lt_Some in E. lia.
  - destruct (decide (j = i)) as [->|Hj]; [|by eapply moves_events].
    pose proof (run_keeps _ _ _ _ _ _ _ _ Hs Hp Hne) as Hk. rewrite Hpc, bool_decide_eq_true_2 in Hk by done. injection Hk as ->.
    unfold pc_of in Hp. rewrite Hl in Hp. injection Hp as Hp. rewrite Hp in Hm. inversion Hm.
    match goal with H : ?l = _ :: ?l |- _ => apply (f_equal length) in H; cbn in H; lia end.
Qed.

Lemma busy_step infos s l s' ev j i w t : jinv s -> jstep infos s l = Some (s', ev) -> j_in s !! (j, i) = Some (w, t) ->
  j_in s' !! (j, i) = Some (w, t) /\ (forall e, JEC j e ∈ ev -> of_listener i e = false) \/ ev = [JED (DAct w t)].
Proof.
  intros Hi Hs Hin. destruct (a_in _ Hi _ _ _ _ Hin) as (_ & _ & c & x & hs & Hc & Hp).
  destruct (jstep_moves _ _ _ _ _ Hs) as [_ Hm]. destruct Hm; cbn [js_d after_c j_in].
  1-3: (left; split; [done|]; intros e He; by apply elem_d in He as [? ?]).
  - left. split; [done|]. intros e He. apply elem_c in He as (e' & E & He). injection E as <- <-.
    destruct (WatchClientFacts.reg_events _ _ _ _ _ _ H2) as [-> _]. apply elem_of_list_singleton in He. by subst e.
  - left. split; [done|]. intros e He. apply elem_c in He as (e' & E & He). injection E as <- <-. rewrite Hc in H0. injection H0 as <-.
    assert (Forall (fun e => of_listener i e = false) ev) as HF.
    { eapply busy_quiet; [exact H1|exact Hp|]. intros ->. destruct H as [H _]. congruence. }
    by apply (proj1 (Forall_forall _ _) HF) in He.
  - left. destruct (decide ((j, i) = (j0, i0))) as [E|Hne]; [injection E as <- <-; congruence|].
    split; [by rewrite lookup_insert_ne|]. intros e He. apply elem_of_cons in He as [He|He]; [|by apply elem_of_list_singleton in He].
    injection He as <- ->. rewrite Hc in H0. injection H0 as <-.
    assert (Forall (fun e => of_listener i e = false) [CCall h (User (2 * w0)) x0]) as HF.
    { eapply busy_quiet; [exact H1|exact Hp|]. congruence. }
    by inversion HF.
  - destruct (decide ((j, i) = (j0, i0))) as [E|Hne].
    + injection E as <- <-. rewrite Hin in H. injection H as <- <-. right. destruct (act_store _ _ _ _ _ H2) as (z & y' & ts' & Hz & Hd & Hts & _ & _ & _ & _ & ->).
      rewrite H0 in Hz. injection Hz as <-. rewrite H1 in Hts. injection Hts as <-. done.
    + left. split; [by rewrite lookup_delete_ne|]. intros e He. by apply elem_d in He as [? ?].
  - left. split; [done|]. intros e He. apply elem_c in He as (e' & E & He). injection E as <- <-.
    destruct (WatchClientFacts.begin_events _ _ _ _ H4) as (_ & [[-> _]|[-> _]]).
    + apply elem_of_list_singleton in He. by subst e.
    + apply elem_of_cons in He as [->|He]; [done|]. apply elem_of_list_singleton in He. by subst e.
Qed.

Lemma stored_first infos n now ls s tr w j i t x a b : jrun infos (j_init n now) ls = Some (s, tr) -> tr = a ++ JNow w j i t x :: b ->
  (forall b1 e b2, b = b1 ++ JEC j e :: b2 -> of_listener i e = true -> JED (DAct w t) ∈ b1) /\
  (JED (DAct w t) ∈ b \/ j_in s !! (j, i) = Some (w, t)).
Proof.
  revert s tr a b. induction ls as [|l ls IH] using rev_ind; intros s tr a b Hr E; [injection Hr as <- <-; by destruct a|].
  apply run_snoc in Hr as (s1 & ev1 & ev2 & Hr & Hs & ->). apply in_split_app in E as [(b' & E & ->)|(a' & -> & E)].
  - destruct (IH _ _ _ _ Hr E) as [H1 H2].
    assert (forall e b1 b2, b' ++ ev2 = b1 ++ JEC j e :: b2 -> of_listener i e = true -> JED (DAct w t) ∈ b' \/ (forall e, JEC j e ∈ ev2 -> of_listener i e = false) ->
      JED (DAct w t) ∈ b1) as Hgo.
    { intros e b1 b2 Eb He Ho. apply in_split_app in Eb as [(b3 & Eb & ->)|(b3 & -> & Eb)]; [by eapply H1|].
      destruct Ho as [Ho|Ho]; [apply elem_of_app; by left|]. assert (JEC j e ∈ ev2) as Hin by (rewrite Eb; apply elem_of_app; right; left).
      apply Ho in Hin. congruence. }
    destruct H2 as [H2|H2].
    + split; [intros b1 e b2 Eb He; eapply Hgo; [exact Eb|exact He|by left]|]. left. apply elem_of_app. by left.
    + destruct (busy_step _ _ _ _ _ _ _ _ _ (jinv_run _ _ _ _ _ _ Hr) Hs H2) as [[H3 H4]|H3].
      * split; [intros b1 e b2 Eb He; eapply Hgo; [exact Eb|exact He|by right]|by right].
      * split; [|left; apply elem_of_app; right; rewrite H3; left]. intros b1 e b2 Eb He. eapply Hgo; [exact Eb|exact He|]. right. rewrite H3. intros e' He'.
        by apply elem_of_list_singleton in He'.
  - assert (JNow w j i t x ∈ ev2) as Hin by (rewrite E; apply elem_of_app; right; left).
    destruct (now_step _ _ _ _ _ _ _ _ _ _ Hs Hin) as (E2 & Hj & _ & _). rewrite E2 in E.
    assert (b = []) as -> . { destruct a' as [|e1 [|e2 a']]; [done|by injection E as _ <-|]. injection E as _ _ E. by destruct a'. }
    split; [by intros [|]|]. by right.
Qed.

(** A handler of a watch can always finish. *)
Lemma store_enabled infos n now ls s tr j i w t : jrun infos (j_init n now) ls = Some (s, tr) -> j_crashed s = false -> j_in s !! (j, i) = Some (w, t) ->
  exists s', jstep infos s (JStore j i) = Some (s', [JED (DAct w t)]) /\ j_in s' = delete (j, i) (j_in s) /\ j_cl s' = j_cl s /\ j_of s' = j_of s /\
    j_close s' = j_close s /\ j_by s' = j_by s /\ j_crashed s' = false.
Proof.
  intros Hr Hc Hin. pose proof (jinv_run _ _ _ _ _ _ Hr) as Hi. destruct (a_in _ Hi _ _ _ _ Hin) as (Ho & _).
  destruct (lookup_lt_is_Some_2 (d_watches (j_d s)) w) as [y Hy]; [rewrite <- (a_len _ Hi); by eapply lookup_lt_Some|].
  assert (t ∈ wt_pend y) as Ht.
  { rewrite (a_pend _ Hi _ _ Hy). apply elem_of_list_omap. exists (j, i, (w, t)). split; [by apply elem_of_map_to_list|]. cbn. by rewrite bool_decide_eq_true_2. }
  destruct (list_find (fun t0 => t0 = t) (wt_pend y)) as [[k t']|] eqn:Ef.
  2: { apply list_find_None in Ef. by apply (proj1 (Forall_forall _ _) Ef) in Ht. }
  pose proof Ef as Ek. apply list_find_Some in Ek as (Hk & -> & _).
  assert (d_crashed (j_d s) = false /\ existsb c_crashed (j_cl s) = false) as [Hdc Hcc] by (by apply orb_false_iff).
  assert (exists d, dstep (j_d s) (LActStore w k) = Some (d, [DAct w t])) as [d Hd].
  { unfold dstep. rewrite Hdc, Hy. unfold watch_step. rewrite Hk. destruct (wt_pc y); eauto. }
  eexists. split; [unfold jstep; rewrite Hc, Hin, Hy, Ef, Hd; reflexivity|]. repeat (split; [done|]).
  destruct (act_store _ _ _ _ _ Hd) as (_ & _ & _ & _ & _ & _ & _ & _ & _ & Hdc' & _). unfold j_crashed. cbn [j_d j_cl]. by rewrite Hdc', Hcc.
Qed.

(** * Registration *)

Lemma registered infos n now ls s tr w j : jrun infos (j_init n now) ls = Some (s, tr) -> j_of s !! w = Some j ->
  match j_reg s !! w with
  | None => JEC j (CReg OnHb (User (2 * w))) ∈ tr /\ JEC j (CReg OnRec (User (2 * w))) ∈ tr
  | Some 0 => JEC j (CReg OnHb (User (2 * w))) ∈ tr
  | Some (S _) => True
  end.
Proof.
  revert s tr. induction ls as [|l ls IH] using rev_ind; intros s tr Hr Ho; [by injection Hr as <- <-|].
  apply run_snoc in Hr as (s1 & ev1 & ev2 & Hr & Hs & ->). pose proof (jinv_run _ _ _ _ _ _ Hr) as Hi.
  assert (j_of s1 !! w = Some j -> j_reg s !! w = j_reg s1 !! w ->
    match j_reg s !! w with
    | None => JEC j (CReg OnHb (User (2 * w))) ∈ ev1 ++ ev2 /\ JEC j (CReg OnRec (User (2 * w))) ∈ ev1 ++ ev2
    | Some 0 => JEC j (CReg OnHb (User (2 * w))) ∈ ev1 ++ ev2
    | Some (S _) => True
    end) as Hsame.
  { intros H1 ->. specialize (IH _ _ Hr H1). destruct (j_reg s1 !! w) as [[|]|]; [|done|]; [|destruct IH; split]; apply elem_of_app; by left. }
  destruct (jstep_moves _ _ _ _ _ Hs) as [_ Hm]. destruct Hm; cbn [js_d after_c j_of j_reg] in *; try (by apply Hsame).
  - apply lookup_app_Some in Ho as [Ho|[Hge Ho]].
    + apply Hsame; [done|]. apply lookup_insert_ne. apply lookup_lt_Some in Ho. pose proof (a_len _ Hi). lia.
    + destruct (w - _) as [|] eqn:Ew; [|done]. pose proof (a_len _ Hi). assert (w = length (d_watches (j_d s1))) as -> by lia. by rewrite lookup_insert.
  - destruct (WatchClientFacts.reg_events _ _ _ _ _ _ H2) as [-> _]. destruct (decide (w0 = w)) as [->|Hne].
    + rewrite Ho in H0. injection H0 as <-. specialize (IH _ _ Hr Ho). rewrite H in IH. destruct n0 as [|n0].
      * rewrite lookup_delete. split; apply elem_of_app; [by left|right; left].
      * rewrite lookup_insert. destruct (a_reg _ Hi _ _ H) as (Hle & _). assert (n0 = 0) as -> by lia. apply elem_of_app. right. left.
    + apply Hsame; [done|]. destruct n0; [by rewrite lookup_delete_ne|by rewrite lookup_insert_ne].
Qed.

Lemma split_step infos n now ls s tr a e b : jrun infos (j_init n now) ls = Some (s, tr) -> tr = a ++ e :: b ->
  exists ls1 l ls2 s1 tr1 s2 ev tr2 e1 e2, ls = ls1 ++ l :: ls2 /\ jrun infos (j_init n now) ls1 = Some (s1, tr1) /\ jstep infos s1 l = Some (s2, ev) /\
    jrun infos s2 ls2 = Some (s, tr2) /\ ev = e1 ++ e :: e2 /\ a = tr1 ++ e1 /\ b = e2 ++ tr2.
Proof.
  revert s tr a b. induction ls as [|l ls IH] using rev_ind; intros s tr a b Hr E; [injection Hr as <- <-; by destruct a|].
  apply run_snoc in Hr as (s1 & ev1 & ev2 & Hr & Hs & ->). apply in_split_app in E as [(b' & E & ->)|(a' & -> & E)].
  - destruct (IH _ _ _ _ Hr E) as (ls1 & l0 & ls2 & s2 & tr1 & s3 & ev & tr2 & e1 & e2 & -> & H1 & H2 & H3 & H4 & H5 & H6).
    exists ls1, l0, (ls2 ++ [l]), s2, tr1, s3, ev, (tr2 ++ ev2), e1, e2. split; [by rewrite <- app_assoc|]. repeat (split; [done|]).
    split; [rewrite run_app, H3, run_one, Hs; done|]. repeat (split; [done|]). by rewrite H6, app_assoc.
  - exists ls, l, [], s1, ev1, s, ev2, [], a', b. repeat (split; [done|]). by rewrite app_nil_r.
Qed.

Lemma d_event infos s l s' ev e : jstep infos s l = Some (s', ev) -> JED e ∈ ev -> exists l' d ev', dstep (j_d s) l' = Some (d, ev') /\ e ∈ ev' /\ d = j_d s' /\
  match l' with LWStart w => j_reg s !! w = None | LWEnd w => j_close s !! w = Some true | _ => True end.
Proof.
  intros Hs Hin. destruct (jstep_moves _ _ _ _ _ Hs) as [_ Hm]. destruct Hm.
  all: try (by apply elem_c in Hin as (? & ? & _)).
  - apply elem_of_list_fmap in Hin as (x & E & Hin). injection E as ->. exists l, d, ev. repeat (split; [done|]). by destruct l.
  - apply elem_of_list_fmap in Hin as (x & E & Hin). injection E as ->. by exists (LWatch c), d, ev.
  - apply elem_of_list_fmap in Hin as (x & E & Hin). injection E as ->. by exists (LWatch c), d, ev.
  - apply elem_of_cons in Hin as [Hin|Hin]; [done|]. by apply elem_of_list_singleton in Hin.
  - apply elem_of_list_fmap in Hin as (x & E & Hin). injection E as ->. by exists (LActStore w k), d, ev.
Qed.

(** A step of the discovery in which a watch starts or ends. *)
Lemma start_step s l s' ev w t : DiscoveryLive.blocked_inv s -> dstep s l = Some (s', ev) -> DStart w t ∈ ev -> l = LWStart w /\ is_Some (d_watches s !! w).
Proof.
  intros Hb Hs Hin. assert (DStart w t ∈ DiscoveryLive.about w ev) as Ha.
  { apply elem_of_list_In. unfold DiscoveryLive.about. apply filter_In. split; [by apply elem_of_list_In|]. cbn. by rewrite bool_decide_eq_true_2. }
  destruct (DiscoveryLive.step_moves _ _ _ _ Hb Hs) as (_ & _ & Hm). destruct (d_watches s' !! w) as [y|] eqn:Ey.
  - destruct (Hm _ _ Ey) as [_ E|c _ _ _ _ E|x Hx Ho _|x t' n _ _ _ _ E|x p _ _ _ E _]; try (by rewrite E in Ha; apply elem_of_nil in Ha).
    destruct Ho; subst ev; try (by apply elem_of_nil in Hin); apply elem_of_list_singleton in Hin; done.
  - destruct (WatchFacts.watches_length _ _ _ _ Hs) as [_ E]. rewrite E in Ha by (by apply lookup_ge_None). by apply elem_of_nil in Ha.
Qed.

Lemma end_step s lb s' ev w : dstep s lb = Some (s', ev) -> DWatchEnd w ∈ ev -> lb = LWEnd w.
Proof.
  intros H Hin. unfold dstep in H. destruct (d_crashed s); [done|].
  assert (forall c o, call c o s = Some (s', ev) -> lb = LWEnd w) as Hcall.
  { intros c o Hc. destruct (WatchLive.call_no_end _ _ _ _ _ w Hc) as [Hno _]. by destruct (Hno Hin). }
  assert (forall v, DiscoveryLive.label_of lb = Some v -> match d_watches s !! v with Some x => watch_step s v x lb | None => None end = Some (s', ev) -> lb = LWEnd w) as Hw.
  { intros v El H2. destruct (d_watches s !! v) as [x|] eqn:Ex; [|done].
    destruct (DiscoveryLive.watch_own _ _ _ _ _ _ H2 El) as [(y & Ho & ->)|[(t & n & -> & Ep & Hc)|(-> & Ep & Hc)]]; [|by eapply Hcall|by eapply Hcall].
    destruct Ho; subst ev; try (by apply elem_of_nil in Hin); apply elem_of_list_singleton in Hin; try done. by injection Hin as ->. }
  destruct lb; try (by eapply Hw); repeat case_match; try done; try (by eapply Hcall); simplify_eq; try (unfold run_msg in *; repeat case_match; simplify_eq);
    rewrite ?elem_of_cons, ?elem_of_nil in Hin; naive_solver.
Qed.

(** Both handlers are there when a watch starts its timers. *)
Lemma starts_registered infos n now ls s tr w t a b : jrun infos (j_init n now) ls = Some (s, tr) -> tr = a ++ JED (DStart w t) :: b ->
  exists j, j_of s !! w = Some j /\ JEC j (CReg OnHb (User (2 * w))) ∈ a /\ JEC j (CReg OnRec (User (2 * w))) ∈ a.
Proof.
  intros Hr E. destruct (split_step _ _ _ _ _ _ _ _ _ Hr E) as (ls1 & l & ls2 & s1 & tr1 & s2 & ev & tr2 & e1 & e2 & -> & H1 & H2 & H3 & H4 & -> & _).
  assert (JED (DStart w t) ∈ ev) as Hin by (rewrite H4; apply elem_of_app; right; left).
  destruct (d_event _ _ _ _ _ _ H2 Hin) as (l' & d & ev' & Hd & He & _ & Hl).
  destruct (start_step _ _ _ _ _ _ (blocked_run _ _ _ _ _ _ H1) Hd He) as [-> [y Hy]]. pose proof (jinv_run _ _ _ _ _ _ H1) as Hi.
  destruct (lookup_lt_is_Some_2 (j_of s1) w) as [j Hj]; [rewrite (a_len _ Hi); by eapply lookup_lt_Some|]. exists j.
  pose proof (registered _ _ _ _ _ _ _ _ H1 Hj) as Hreg. rewrite Hl in Hreg. destruct Hreg as [Hr1 Hr2].
  split; [eapply of_keeps; [exact H3|]; by eapply of_step|]. split; apply elem_of_app; by left.
Qed.

(** * The end of a watch *)

(** What a watch's calls of Close left in the history. *)
Lemma close_events infos n now ls s tr w b : jrun infos (j_init n now) ls = Some (s, tr) -> j_close s !! w = Some b ->
  exists j, j_of s !! w = Some j /\ JClose w ∈ ls /\ JEC j CCloseCall ∈ tr /\ (b = true -> JEC j CClosed ∈ tr).
Proof.
  revert s tr b. induction ls as [|l ls IH] using rev_ind; intros s tr b Hr Hb; [by injection Hr as <- <-|].
  apply run_snoc in Hr as (s1 & ev1 & ev2 & Hr & Hs & ->). pose proof (jinv_run _ _ _ _ _ _ Hr) as Hi.
  assert (j_close s1 !! w = Some b -> exists j, j_of s !! w = Some j /\ JClose w ∈ ls ++ [l] /\ JEC j CCloseCall ∈ ev1 ++ ev2 /\ (b = true -> JEC j CClosed ∈ ev1 ++ ev2)) as Hsame.
  { intros Hb1. destruct (IH _ _ _ Hr Hb1) as (j & H1 & H2 & H3 & H4). exists j. split; [by eapply of_step|]. split; [apply elem_of_app; by left|].
    split; [apply elem_of_app; by left|]. intros E. apply elem_of_app. left. auto. }
  destruct (jstep_moves _ _ _ _ _ Hs) as [_ Hm]. destruct Hm; cbn [js_d j_close] in *; try (by apply Hsame).
  - unfold after_c in Hb. cbn [j_close] in Hb. destruct (existsb is_closed ev) eqn:Ecl; [|by apply Hsame].
    destruct (j_by s1 !! j) as [w0|] eqn:Eby; [|by apply Hsame]. destruct (decide (w = w0)) as [->|Hne]; [|rewrite lookup_insert_ne in Hb by done; by apply Hsame].
    destruct (a_by _ Hi _ _ Eby) as [Ho Hf]. destruct (IH _ _ _ Hr Hf) as (j' & H2 & H3 & H4 & _). rewrite Ho in H2. injection H2 as <-.
    destruct (closed_step _ _ _ _ _ H1 Ecl) as (_ & -> & _). exists j. split; [exact Ho|]. split; [apply elem_of_app; by left|]. split; [apply elem_of_app; by left|].
    intros _. apply elem_of_app. right. left.
  - destruct (decide (w = w0)) as [->|Hne]; [|rewrite lookup_insert_ne in Hb by done; by apply Hsame]. rewrite lookup_insert in Hb. injection Hb as <-.
    exists j. split; [done|]. split; [apply elem_of_app; right; left|]. split; [|done]. apply elem_of_app. right.
    destruct (WatchClientFacts.begin_events _ _ _ _ H4) as (_ & [[-> _]|[-> _]]); left.
Qed.

Lemma end_closed infos n now ls s tr w a b : jrun infos (j_init n now) ls = Some (s, tr) -> tr = a ++ JED (DWatchEnd w) :: b ->
  exists j, j_of s !! w = Some j /\ JClose w ∈ ls /\ j_close s !! w = Some true /\
  exists a1 a2, a = a1 ++ JEC j CClosed :: a2 /\ forall i ad cr, JEC j (CListening i ad cr) ∈ a1 -> forall e, JEC j e ∈ a2 ++ b -> of_listener i e = false.
Proof.
  intros Hr E. destruct (split_step _ _ _ _ _ _ _ _ _ Hr E) as (ls1 & l & ls2 & s1 & tr1 & s2 & ev & tr2 & e1 & e2 & -> & H1 & H2 & H3 & H4 & Ea & Eb).
  assert (JED (DWatchEnd w) ∈ ev) as Hin by (rewrite H4; apply elem_of_app; right; left).
  destruct (d_event _ _ _ _ _ _ H2 Hin) as (l' & d & ev' & Hd & He & _ & Hl). pose proof (end_step _ _ _ _ _ Hd He) as ->.
  destruct (close_events _ _ _ _ _ _ _ _ H1 Hl) as (j & Hj & Hc1 & Hc2 & Hc3). exists j. split; [eapply of_keeps; [exact H3|]; by eapply of_step|].
  split; [apply elem_of_app; by left|]. split.
  { assert (forall s0 ls0 s' tr', jrun infos s0 ls0 = Some (s', tr') -> j_close s0 !! w = Some true -> j_close s' !! w = Some true) as Hkeep.
    { intros s0 ls0. revert s0. induction ls0 as [|m ls0 IH]; intros s0 s' tr' Hr0 H0; cbn [run] in Hr0; [by injection Hr0 as <- <-|].
      destruct (jstep infos s0 m) as [[s3 ev3]|] eqn:Es; [|done]. destruct (run (jstep infos) s3 ls0) as [[s4 ev4]|] eqn:Er; [|done]. injection Hr0 as <- <-.
      eapply IH; [exact Er|]. destruct (jstep_moves _ _ _ _ _ Es) as [_ Hm]. destruct Hm; cbn [js_d j_close] in *; try done.
      - unfold after_c. cbn [j_close]. destruct (existsb is_closed ev0); [|done]. destruct (j_by s0 !! _) as [w0|]; [|done].
        destruct (decide (w0 = w)) as [->|]; [by rewrite lookup_insert|by rewrite lookup_insert_ne].
      - rewrite lookup_insert_ne; [done|]. intros ->. congruence. }
    eapply Hkeep; [exact H3|]. eapply (Hkeep s1 [l]); [rewrite run_one, H2; reflexivity|exact Hl]. }
  specialize (Hc3 eq_refl). apply elem_of_list_split in Hc3 as (a1 & a2 & ->). exists a1, (a2 ++ e1). split; [by rewrite Ea, <- app_assoc|].
  intros i ad cr Hli e Hin'. destruct (project _ _ _ _ _ _ Hr) as (_ & Hlen & Hpr).
  assert (j < n) as Hlt. { rewrite <- Hlen. pose proof (jinv_run _ _ _ _ _ _ Hr) as Hi. eapply (a_of _ Hi w). eapply of_keeps; [exact H3|]. by eapply of_step. }
  destruct (lookup_lt_is_Some_2 (j_cl s) j) as [c Hc]; [lia|]. destruct (Hpr _ _ Hc) as [lsc Hrc].
  eapply (silent_after_close _ _ _ _ (cevs j a1) (cevs j (a2 ++ e1 ++ JED (DWatchEnd w) :: b))); [exact Hrc| |by apply cevs_elem|].
  - rewrite E, Ea, <- !app_assoc, !cevs_app. f_equal. unfold cevs at 1. cbn. by rewrite bool_decide_eq_true_2.
  - apply cevs_elem. set_solver.
Qed.

(** ** One Close *)

Lemma done_of infos n now ls s tr j c : jrun infos (j_init n now) ls = Some (s, tr) -> j_cl s !! j = Some c -> JEC j CCloseCall ∈ tr -> c_done c = true.
Proof.
  intros Hr Hc Hin. destruct (project _ _ _ _ _ _ Hr) as (_ & _ & Hpr). destruct (Hpr _ _ Hc) as [lsc Hrc]. eapply done_run; [exact Hrc|]. by apply cevs_elem.
Qed.

Lemma crashed_at s j c : j_cl s !! j = Some c -> c_crashed c = true -> j_crashed s = true.
Proof. intros Hj Hc. unfold j_crashed. apply orb_true_iff. right. apply existsb_exists. exists c. split; [|done]. apply elem_of_list_In. by eapply elem_of_list_lookup_2. Qed.

Lemma two_closers infos n now ls s tr w w' b b' j : jrun infos (j_init n now) ls = Some (s, tr) -> w <> w' -> j_of s !! w = Some j -> j_of s !! w' = Some j ->
  j_close s !! w = Some b -> j_close s !! w' = Some b' -> j_crashed s = true /\ (b = false \/ b' = false).
Proof.
  revert s tr b b'. induction ls as [|l ls IH] using rev_ind; intros s tr b b' Hr Hne Ho Ho' Hb Hb'; [by injection Hr as <- <-|].
  apply run_snoc in Hr as (s1 & ev1 & ev2 & Hr & Hs & ->). pose proof (jinv_run _ _ _ _ _ _ Hr) as Hi. destruct (jstep_moves _ _ _ _ _ Hs) as [Hnc Hm].
  assert (is_Some (j_close s1 !! w) -> is_Some (j_close s1 !! w') -> False) as Hno.
  { intros [b1 H1] [b2 H2]. destruct (close_events _ _ _ _ _ _ _ _ Hr H1) as (k & Hk & _). destruct (close_events _ _ _ _ _ _ _ _ Hr H2) as (k' & Hk' & _).
    pose proof (of_step _ _ _ _ _ _ _ Hs Hk). pose proof (of_step _ _ _ _ _ _ _ Hs Hk'). destruct (IH s1 ev1 b1 b2) as [? _]; try done; congruence. }
  destruct Hm; cbn [js_d j_close] in *; try (exfalso; eauto; fail).
  - exfalso. apply Hno.
    + unfold after_c in Hb. cbn [j_close] in Hb. destruct (existsb is_closed ev); [|eauto]. destruct (j_by s1 !! _) as [w0|] eqn:Eby; [|eauto].
      destruct (a_by _ Hi _ _ Eby) as [_ ?]. destruct (decide (w0 = w)) as [->|]; [eauto|]. rewrite lookup_insert_ne in Hb by done. eauto.
    + unfold after_c in Hb'. cbn [j_close] in Hb'. destruct (existsb is_closed ev); [|eauto]. destruct (j_by s1 !! _) as [w0|] eqn:Eby; [|eauto].
      destruct (a_by _ Hi _ _ Eby) as [_ ?]. destruct (decide (w0 = w')) as [->|]; [eauto|]. rewrite lookup_insert_ne in Hb' by done. eauto.
  - assert (forall v bv, v <> w0 -> j_close s1 !! v = Some bv -> j_of s1 !! v = Some j0 -> j_crashed (JState (j_d s1) (<[j0:=c']> (j_cl s1)) (j_of s1) (j_reg s1) (j_in s1) (<[j0:=w0]> (j_by s1)) (<[w0:=false]> (j_close s1))) = true) as Hcr.
    { intros v bv Hv Hbv Hov. destruct (close_events _ _ _ _ _ _ _ _ Hr Hbv) as (k & Hk & _ & Hcc & _). rewrite Hov in Hk. injection Hk as <-.
      pose proof (done_of _ _ _ _ _ _ _ _ Hr H3 Hcc) as Hdone. destruct (WatchClientFacts.begin_events _ _ _ _ H4) as (_ & [(_ & Hd & _)|(_ & _ & Hcr)]); [congruence|].
      eapply crashed_at; [|exact Hcr]. cbn [j_cl]. apply list_lookup_insert. by eapply lookup_lt_Some. }
    cbn [j_of] in *. destruct (decide (w0 = w)) as [->|Hw].
    + rewrite lookup_insert in Hb. rewrite lookup_insert_ne in Hb' by done. rewrite Ho in H1. injection H1 as <-. split; [eapply (Hcr w' b'); done|]. left. congruence.
    + rewrite lookup_insert_ne in Hb by done. destruct (decide (w0 = w')) as [->|Hw']; [|rewrite lookup_insert_ne in Hb' by done; exfalso; eauto].
      rewrite lookup_insert in Hb'. rewrite Ho' in H1. injection H1 as <-. split; [eapply (Hcr w b); done|]. right. congruence.
Qed.

Lemma begin_event infos n now ls s tr l j : jrun infos (j_init n now) ls = Some (s, tr) -> l ∈ ls ->
  l = JC j LCloseBegin \/ (exists w, l = JClose w /\ j_of s !! w = Some j) -> JEC j CCloseCall ∈ tr.
Proof.
  revert s tr. induction ls as [|m ls IH] using rev_ind; intros s tr Hr Hin Hl; [by apply elem_of_nil in Hin|].
  apply run_snoc in Hr as (s1 & ev1 & ev2 & Hr & Hs & ->). apply elem_of_app. apply elem_of_app in Hin as [Hin|Hin].
  - left. eapply IH; [exact Hr|exact Hin|]. destruct Hl as [->|(w & -> & Hw)]; [by left|]. right. exists w. split; [done|].
    assert (exists k, j_of s1 !! w = Some k) as [k Hk]; [|pose proof (of_step _ _ _ _ _ _ _ Hs Hk); congruence].
    apply elem_of_list_split in Hin as (l1 & l2 & ->). apply run_app_inv in Hr as (s2 & tr1 & tr2 & Hr1 & Hr2 & _).
    cbn [run] in Hr2. destruct (jstep infos s2 (JClose w)) as [[s3 ev3]|] eqn:Es; [|done]. destruct (run (jstep infos) s3 l2) as [[s4 ev4]|] eqn:Er; [|done].
    injection Hr2 as <- _. destruct (jstep_moves _ _ _ _ _ Es) as [_ Hm]. inversion Hm; subst. exists j0. eapply of_keeps; [exact Er|]. by eapply of_step.
  - right. apply elem_of_list_singleton in Hin. subst m. destruct (jstep_moves _ _ _ _ _ Hs) as [_ Hm]. destruct Hl as [->|(w & -> & Hw)].
    + inversion Hm; subst.
      match goal with Hb : cstep _ _ LCloseBegin = Some _ |- _ => destruct (WatchClientFacts.begin_events _ _ _ _ Hb) as (_ & [[-> _]|[-> _]]); left end.
    + inversion Hm; subst. cbn [j_of] in Hw.
      match goal with Ho : j_of _ !! w = Some ?k |- _ => lazymatch k with j => fail | _ => rewrite Hw in Ho; injection Ho as <- end end.
      match goal with Hb : cstep _ _ LCloseBegin = Some _ |- _ => destruct (WatchClientFacts.begin_events _ _ _ _ Hb) as (_ & [[-> _]|[-> _]]); left end.
Qed.

(** Whoever closes a client after its Close was called crashes it all. *)
Lemma second_closes infos n now ls s tr l s' ev j : jrun infos (j_init n now) ls = Some (s, tr) -> JEC j CCloseCall ∈ tr ->
  l = JC j LCloseBegin \/ (exists w, l = JClose w /\ j_of s !! w = Some j) -> jstep infos s l = Some (s', ev) ->
  ev = [JEC j CCloseCall; JEC j CPanic] /\ j_crashed s' = true.
Proof.
  intros Hr Hin Hl Hs. destruct (jstep_moves _ _ _ _ _ Hs) as [_ Hm].
  assert (exists c c' ev', j_cl s !! j = Some c /\ cstep (infos j) c LCloseBegin = Some (c', ev') /\ ev = JEC j <$> ev' /\ j_cl s' = <[j := c']> (j_cl s)) as (c & c' & ev' & Hc & Hst & -> & Hcl).
  { destruct Hl as [->|(w & -> & Hw)]; inversion Hm; subst; [eauto 10|].
    match goal with Ho : j_of _ !! w = Some ?k |- _ => lazymatch k with j => fail | _ => rewrite Hw in Ho; injection Ho as <- end end. eauto 10. }
  pose proof (done_of _ _ _ _ _ _ _ _ Hr Hc Hin) as Hd. destruct (WatchClientFacts.begin_events _ _ _ _ Hst) as (_ & [(_ & ? & _)|(-> & _ & Hcr)]); [congruence|].
  split; [done|]. eapply crashed_at; [|exact Hcr]. rewrite Hcl. apply list_lookup_insert. by eapply lookup_lt_Some.
Qed.

Lemma user_close infos n now ls s tr w j : jrun infos (j_init n now) ls = Some (s, tr) -> JC j LCloseBegin ∈ ls -> JClose w ∈ ls -> j_of s !! w = Some j ->
  j_crashed s = true.
Proof.
  revert s tr. induction ls as [|m ls IH] using rev_ind; intros s tr Hr Hu Hw Ho; [by apply elem_of_nil in Hu|].
  apply run_snoc in Hr as (s1 & ev1 & ev2 & Hr & Hs & ->). pose proof (jinv_run _ _ _ _ _ _ Hr) as Hi. destruct (jstep_moves _ _ _ _ _ Hs) as [Hnc Hm].
  assert (JClose w ∈ ls -> j_of s1 !! w = Some j) as Hof.
  { intros Hin. apply elem_of_list_split in Hin as (l1 & l2 & ->). apply run_app_inv in Hr as (s2 & tr1 & tr2 & Hr1 & Hr2 & _).
    cbn [run] in Hr2. destruct (jstep infos s2 (JClose w)) as [[s3 ev3]|] eqn:Es; [|done]. destruct (run (jstep infos) s3 l2) as [[s4 ev4]|] eqn:Er; [|done].
    injection Hr2 as <- _. destruct (jstep_moves _ _ _ _ _ Es) as [_ Hm2]. inversion Hm2; subst.
    assert (j_of s4 !! w = Some j0) as H7 by (eapply of_keeps; [exact Er|]; by eapply of_step). pose proof (of_step _ _ _ _ _ _ _ Hs H7). congruence. }
  apply elem_of_app in Hu as [Hu|Hu]; apply elem_of_app in Hw as [Hw|Hw].
  - exfalso. specialize (IH _ _ Hr Hu Hw (Hof Hw)). congruence.
  - apply elem_of_list_singleton in Hw. subst m. assert (j_of s1 !! w = Some j) as Ho1 by (inversion Hm; subst; exact Ho).
    eapply (second_closes infos n now ls s1 ev1 (JClose w)); [done|eapply begin_event; [done|exact Hu|by left]|right; eauto|exact Hs].
  - apply elem_of_list_singleton in Hu. subst m.
    eapply (second_closes infos n now ls s1 ev1 (JC j LCloseBegin)); [done|eapply begin_event; [done|exact Hw|right; eauto]|by left|exact Hs].
  - apply elem_of_list_singleton in Hw. apply elem_of_list_singleton in Hu. congruence.
Qed.

(** ** When a watch does not end *)


Lemma never_ends infos n now ls0 s tr0 w ls s' tr : jrun infos (j_init n now) ls0 = Some (s, tr0) -> stuck_close s w -> jrun infos s ls = Some (s', tr) ->
  j_close s' !! w = Some false /\ JED (DWatchEnd w) ∉ tr.
Proof.
  intros Hr0 (j & c & Ho & Hc & Hcl & Hcr & Hb) Hr. pose proof (jinv_run _ _ _ _ _ _ Hr0) as Hi.
  assert (closing c) as Hclo.
  { destruct (a_wait _ Hi _ Hcl) as (k & ck & H1 & H2 & _ & H3). rewrite Ho in H1. injection H1 as <-. rewrite Hc in H2. injection H2 as <-. destruct H3; [done|congruence]. }
  destruct (project _ _ _ _ _ _ Hr0) as (_ & _ & Hpr). destruct (Hpr _ _ Hc) as [lsc Hrc].
  assert (forall ls s' tr, jrun infos s ls = Some (s', tr) -> JEC j CClosed ∉ tr) as Hno.
  { intros ls1 s1 tr1 Hr1 Hin. destruct (project_from _ _ _ _ _ Hr1) as (_ & _ & Hpf). destruct (Hpf _ _ Hc) as (c' & lsc' & _ & Hrc').
    destruct (never_returns _ _ _ _ _ _ _ Hrc Hclo Hb Hrc') as [_ Hn]. apply Hn. by apply cevs_elem. }
  assert (j_close s' !! w = Some false) as Hfin.
  { revert s' tr Hr. induction ls as [|l ls IH] using rev_ind; intros s' tr Hr; [by injection Hr as <- <-|].
    pose proof (Hno _ _ _ Hr) as Hn. apply run_snoc in Hr as (s1 & ev1 & ev2 & Hr & Hs & ->). specialize (IH _ _ Hr).
    assert (jrun infos (j_init n now) (ls0 ++ ls) = Some (s1, tr0 ++ ev1)) as Hr1 by (by rewrite run_app, Hr0, Hr).
    pose proof (jinv_run _ _ _ _ _ _ Hr1) as Hi1. destruct (jstep_moves _ _ _ _ _ Hs) as [_ Hm]. destruct Hm; cbn [js_d j_close]; try done.
    - unfold after_c. cbn [j_close]. destruct (existsb is_closed ev) eqn:Ecl; [|done]. destruct (j_by s1 !! j0) as [w0|] eqn:Eby; [|done].
      destruct (decide (w0 = w)) as [->|]; [|by rewrite lookup_insert_ne]. exfalso. destruct (a_by _ Hi1 _ _ Eby) as [H2 _].
      pose proof (of_keeps _ _ _ _ _ _ _ Hr Ho) as H3. rewrite H3 in H2. injection H2 as <-. destruct (closed_step _ _ _ _ _ H1 Ecl) as (_ & -> & _).
      apply Hn. apply elem_of_app. right. left.
    - rewrite lookup_insert_ne; [done|]. intros ->. congruence. }
  split; [done|]. intros Hin. assert (jrun infos (j_init n now) (ls0 ++ ls) = Some (s', tr0 ++ tr)) as Hr1 by (by rewrite run_app, Hr0, Hr).
  apply elem_of_list_split in Hin as (a & b & ->). rewrite app_assoc in Hr1. destruct (end_closed _ _ _ _ _ _ _ _ _ Hr1 eq_refl) as (_ & _ & _ & Ht & _). congruence.
Qed.

(** ** When it does *)

Lemma done_called c ls s evs : crun c c_init ls = Some (s, evs) -> (c_done s = true -> CCloseCall ∈ evs) /\ (closing s -> c_done s = true).
Proof.
  revert s evs. induction ls as [|l ls IH] using rev_ind; intros s evs Hr; [injection Hr as <- <-; done|].
  apply run_snoc in Hr as (s1 & ev1 & ev2 & Hr & Hs & ->). destruct (IH _ _ Hr) as [H1 H2].
  destruct (close_cases _ _ _ _ _ Hs) as [ _ -> _ _ _ E2 | _ -> Hn _ -> | Hlb -> _ -> | _ -> E _ -> | _ -> E _ -> | _ -> E1 E2 | Hn Hn' E2 | j l0 Hl Hst | E1 E2].
  all: rewrite ?elem_of_app.
  - split; [|done]. intros _. right. left.
  - split; [|done]. intros _. right. left.
  - split; [cbn; auto|]. unfold closing. cbn. done.
  - split; [cbn; auto|]. intros _. cbn. apply H2. unfold closing. by rewrite E.
  - split; [cbn; auto|]. cbn. auto.
  - unfold closing in *. rewrite E1, E2. split; auto.
  - unfold closing in *. rewrite Hn', E2. split; [auto|done].
  - destruct (listener_same _ _ _ _ _ _ Hst) as (_ & _ & _ & E & _). rewrite E, (listener_close _ _ _ _ _ _ Hst). split; auto.
  - unfold closing in *. rewrite E1, E2. split; auto.
Qed.

(** What the client of a watch that closes it is like. *)
Definition winding (c : cstate) : Prop :=
  (wg_inv c /\ once_ok c) /\ c_crashed c = false /\ c_adding c = 0 /\ (forall i p, pc_of c i = Some p -> calm p) /\
  Forall (fun l => l_cancelled l = true) (c_listeners c).

Lemma winds_on infos n now ls s tr j w : jrun infos (j_init n now) ls = Some (s, tr) -> j_crashed s = false ->
  (exists c, j_cl s !! j = Some c /\ winding c /\ closing c) -> j_close s !! w = Some false -> j_of s !! w = Some j ->
  (exists y, d_watches (j_d s) !! w = Some y /\ wt_pc y = WClosing) ->
  exists ls' s' tr', jrun infos s ls' = Some (s', tr') /\ Forall (ending j w) ls' /\ j_crashed s' = false /\ j_close s' !! w = Some true /\
    exists y, d_watches (j_d s') !! w = Some y /\ wt_pc y = WClosing.
Proof.
  intros Hr Hnc (c & Hc & Hq & Hclo) Hcl Ho Hy. remember (2 * crank c + size (j_in s)) as m eqn:Em.
  revert ls s tr c Hr Hnc Hc Hq Hclo Hcl Ho Hy Em. induction (lt_wf m) as [m _ IH]; intros ls s tr c Hr Hnc Hc Hq Hclo Hcl Ho Hy Em.
  pose proof (jinv_run _ _ _ _ _ _ Hr) as Hi.
  assert (quiet_close c []) as Hqc. { destruct Hq as (Q1 & Q2 & Q3 & Q4 & Q5). repeat (split; [done|]). by left. }
  destruct (quiet_progress (infos j) c [] Hqc) as [Hx|(lb & Hwd & [[c' ev] Hst])]; [by apply elem_of_nil in Hx|].
  (* one step, then the rest *)
  assert (forall lb' s1 ev1 c1, jstep infos s lb' = Some (s1, ev1) -> ending j w lb' -> j_crashed s1 = false -> j_cl s1 !! j = Some c1 -> winding c1 ->
    (exists y, d_watches (j_d s1) !! w = Some y /\ wt_pc y = WClosing) -> (closing c1 -> j_close s1 !! w = Some false) -> (~ closing c1 -> j_close s1 !! w = Some true) ->
    2 * crank c1 + size (j_in s1) < m ->
    exists ls' s' tr', jrun infos s ls' = Some (s', tr') /\ Forall (ending j w) ls' /\ j_crashed s' = false /\ j_close s' !! w = Some true /\
      exists y, d_watches (j_d s') !! w = Some y /\ wt_pc y = WClosing) as Hgo.
  { intros lb' s1 ev1 c1 Hs He Hnc1 Hc1 Hq1 Hy1 Hcl1 Hncl1 Hlt.
    assert (closing c1 \/ ~ closing c1) as [Hclo1|Hclo1] by (unfold closing; destruct (c_close c1); auto).
    - destruct (IH _ Hlt (ls ++ [lb']) s1 (tr ++ ev1) c1) as (ls' & s' & tr' & Hr' & H1 & H2 & H3 & H4); auto.
      + by rewrite run_app, Hr, run_one, Hs.
      + by eapply of_step.
      + exists (lb' :: ls'), s', (ev1 ++ tr'). split; [cbn [run]; by rewrite Hs, Hr'|]. split; [by constructor|]. eauto.
    - exists [lb'], s1, ev1. split; [by rewrite run_one, Hs|]. split; [by repeat constructor|]. eauto. }
  assert (behaved lb) as Hbe by (destruct lb as [| | | |? [?|[]]| | | | | | | | | | | | | |]; done).
  destruct (quiet_step _ _ _ _ _ _ Hqc Hbe Hst) as [Hqc' Hrk]. rewrite Hwd in Hrk.
  assert (winding c') as Hq' by (destruct Hqc' as (Q1 & Q2 & Q3 & Q4 & Q5 & _); done).
  assert (d_crashed (j_d s) = false /\ existsb c_crashed (j_cl s) = false) as [Hdc Hcc] by (by apply orb_false_iff).
  assert (existsb c_crashed (<[j := c']> (j_cl s)) = false) as Hcc'.
  { destruct (existsb c_crashed (<[j := c']> (j_cl s))) eqn:E; [|done]. exfalso. apply existsb_exists in E as (z & Hz & Ez). apply elem_of_list_In, elem_of_list_lookup in Hz as [k Hz].
    destruct (decide (j = k)) as [->|Hne].
    - rewrite list_lookup_insert in Hz by (by eapply lookup_lt_Some). injection Hz as <-. destruct Hq' as (_ & Hx & _). congruence.
    - rewrite list_lookup_insert_ne in Hz by done. assert (existsb c_crashed (j_cl s) = true); [|congruence]. apply existsb_exists. exists z. split; [|done].
      apply elem_of_list_In. by eapply elem_of_list_lookup_2. }
  destruct (a_wait _ Hi _ Hcl) as (k & ck & Ho' & _ & Hby & _). rewrite Ho in Ho'. injection Ho' as <-.
  (* the step as a plain one *)
  assert (forall lb, winds_down lb = true -> cstep (infos j) c lb = Some (c', ev) -> jstep infos s (JC j lb) = Some (after_c s j c' ev, JEC j <$> ev) ->
    exists ls' s' tr', jrun infos s ls' = Some (s', tr') /\ Forall (ending j w) ls' /\ j_crashed s' = false /\ j_close s' !! w = Some true /\
      exists y, d_watches (j_d s') !! w = Some y /\ wt_pc y = WClosing) as Hplain.
  { intros lb0 Hwd0 Hst0 Hs. eapply (Hgo (JC j lb0) _ _ c' Hs); auto.
    - done.
    - unfold j_crashed, after_c. cbn [j_d j_cl]. by rewrite Hdc, Hcc'.
    - unfold after_c. cbn [j_cl]. apply list_lookup_insert. by eapply lookup_lt_Some.
    - intros Hcl'. unfold after_c. cbn [j_close]. destruct (existsb is_closed ev) eqn:Ecl; [|done]. destruct (closed_step _ _ _ _ _ Hst0 Ecl) as (_ & _ & Hn). by destruct Hcl'.
    - intros Hncl. unfold after_c. cbn [j_close]. destruct (existsb is_closed ev) eqn:Ecl.
      + rewrite Hby. by rewrite lookup_insert.
      + exfalso. destruct (closing_step _ _ _ _ _ Hst0 Hclo Ecl) as [?|Hx]; [done|]. destruct Hq' as (_ & Hx' & _). congruence.
    - unfold after_c. cbn [j_in]. lia. }
  assert (lift_c infos s j lb = Some (after_c s j c' ev, JEC j <$> ev)) as Hlift by (unfold lift_c; by rewrite Hc, Hst).
  destruct lb as [k n0| |p|i0|i0 r|i0 r|i|i|i| | | | | |f|f|f|f|f]; try done; try (eapply Hplain; [exact Hwd|exact Hst|]; unfold jstep; rewrite Hnc; exact Hlift).
  destruct (j_in s !! (j, i)) as [[v t]|] eqn:Ein.
  - destruct (store_enabled _ _ _ _ _ _ _ _ _ _ Hr Hnc Ein) as (s1 & Hs & E1 & E2 & E3 & E4 & E5 & E6).
    eapply (Hgo (JStore j i) s1 _ c Hs); auto.
    + done.
    + by rewrite E2.
    + destruct Hy as (y & Hy & Hp). destruct (jstep_moves _ _ _ _ _ Hs) as [_ Hm]. inversion Hm; subst. cbn [j_d].
      match goal with Hd : dstep _ (LActStore _ _) = Some _ |- _ => destruct (act_store _ _ _ _ _ Hd) as (z & y' & ts' & Hz & -> & _ & _ & Hpc & _) end.
      destruct (decide (w0 = w)) as [->|Hne].
      * rewrite list_lookup_insert by (by eapply lookup_lt_Some). eexists. split; [done|]. rewrite Hy in Hz. injection Hz as <-. congruence.
      * rewrite list_lookup_insert_ne by done. eauto.
    + by rewrite E4.
    + done.
    + rewrite E1. assert (size (delete (j, i) (j_in s)) < size (j_in s)); [|lia].
      rewrite <- (insert_delete _ _ _ Ein) at 2. rewrite map_size_insert_None by apply lookup_delete. lia.
  - destruct (watch_called ev) as [[v x]|] eqn:Ew.
    + destruct (WatchClientFacts.watch_called_some _ _ _ Ew) as [h ->].
      assert (j_of s !! v = Some j) as Hov.
      { pose proof Hst as Hx. unfold cstep in Hx. destruct (c_crashed c); [done|]. destruct (c_listeners c !! i) as [l|] eqn:El; [|done]. unfold listener_step in Hx.
        destruct (l_pc l) as [|mm|yy|yy [|g hs]| |] eqn:Ep; try done. injection Hx as _ _ Hg _. subst g.
        eapply (running_of _ _ _ _ _ _ _ _ i); [exact Hr|exact Hc|unfold pc_of; rewrite El; cbn; rewrite Ep; reflexivity|left]. }
      destruct (lookup_lt_is_Some_2 (d_watches (j_d s)) v) as [z Hz]; [rewrite <- (a_len _ Hi); by eapply lookup_lt_Some|].
      assert (exists d, dstep (j_d s) (LActNow v) = Some (d, [])) as [d Hd].
      { unfold dstep. rewrite Hdc, Hz. unfold watch_step. destruct (wt_pc z); eauto. }
      destruct (act_now _ _ _ _ Hd) as (z1 & y' & Hz1 & Hdw & _ & Hpc & _ & Hdc' & _). rewrite Hz in Hz1. injection Hz1 as <-.
      eapply (Hgo (JC j (LLRun i)) (JState d (<[j := c']> (j_cl s)) (j_of s) (j_reg s) (<[(j, i) := (v, d_now d)]> (j_in s)) (j_by s) (j_close s)) _ c').
      * unfold jstep. rewrite Hnc, Ein, Hc, Hst, Hlift, Ew. cbn [after_c j_d existsb is_closed orb]. rewrite Hd. reflexivity.
      * done.
      * unfold j_crashed. cbn [j_d j_cl]. by rewrite Hdc', Hcc'.
      * cbn [j_cl]. apply list_lookup_insert. by eapply lookup_lt_Some.
      * done.
      * cbn [j_d]. rewrite Hdw. destruct Hy as (y & Hy & Hp). destruct (decide (v = w)) as [->|Hne].
        -- rewrite list_lookup_insert by (by eapply lookup_lt_Some). eexists. split; [done|]. congruence.
        -- rewrite list_lookup_insert_ne by done. eauto.
      * done.
      * intros Hncl. exfalso. destruct (closing_step _ _ _ _ _ Hst Hclo eq_refl) as [?|Hx]; [done|]. destruct Hq' as (_ & Hx' & _). congruence.
      * cbn [j_in]. rewrite map_size_insert_None by done. lia.
    + eapply Hplain; [exact Hwd|exact Hst|]. unfold jstep. rewrite Hnc, Ein, Hc, Hst, Hlift, Ew. done.
Qed.

Lemma can_end infos n now ls s tr j w c y : jrun infos (j_init n now) ls = Some (s, tr) -> j_crashed s = false -> j_of s !! w = Some j -> j_cl s !! j = Some c ->
  d_watches (j_d s) !! w = Some y -> wt_pc y = WClosing -> JEC j CCloseCall ∉ tr -> c_adding c = 0 -> (forall i p, pc_of c i = Some p -> calm p) ->
  exists ls' s' tr', jrun infos s ls' = Some (s', tr') /\ Forall (ending j w) ls' /\ j_crashed s' = false /\ JED (DWatchEnd w) ∈ tr'.
Proof.
  intros Hr Hnc Ho Hc Hy Hp Hno Ha Hcalm. pose proof (jinv_run _ _ _ _ _ _ Hr) as Hi.
  assert (d_crashed (j_d s) = false /\ existsb c_crashed (j_cl s) = false) as [Hdc Hcc] by (by apply orb_false_iff).
  destruct (project _ _ _ _ _ _ Hr) as (_ & _ & Hpr). destruct (Hpr _ _ Hc) as [lsc Hrc]. destruct (done_called _ _ _ _ Hrc) as [Hd1 Hd2].
  assert (c_done c = false) as Hdone. { destruct (c_done c) eqn:E; [|done]. destruct Hno. by apply cevs_elem, Hd1. }
  assert (c_close c = ClNone) as Hnone. { destruct (c_close c) eqn:E; [done|..]; exfalso; assert (c_done c = true) by (apply Hd2; unfold closing; by rewrite E); congruence. }
  assert (j_close s !! w = None) as Hcl.
  { destruct (j_close s !! w) as [b|] eqn:E; [|done]. destruct (close_events _ _ _ _ _ _ _ _ Hr E) as (k & Hk & _ & Hin & _). rewrite Ho in Hk. injection Hk as <-. done. }
  assert (c_crashed c = false) as Hcrc. { destruct (c_crashed c) eqn:E; [|done]. pose proof (crashed_at _ _ _ Hc E). congruence. }
  set (c1 := CState ClBegun true (c_recs c) (c_hbs c) ((fun l => Listener (l_pc l) true) <$> c_listeners c) (c_adding c) (c_wg c) (c_flushes c) false).
  assert (cstep (infos j) c LCloseBegin = Some (c1, [CCloseCall])) as Hst by (unfold cstep, unlocked; by rewrite Hcrc, Hnone, Hdone).
  set (s1 := JState (j_d s) (<[j := c1]> (j_cl s)) (j_of s) (j_reg s) (j_in s) (<[j := w]> (j_by s)) (<[w := false]> (j_close s))).
  assert (jstep infos s (JClose w) = Some (s1, [JEC j CCloseCall])) as Hs.
  { unfold jstep. rewrite Hnc, Hy, Hcl, Ho, Hp. unfold lift_c. rewrite Hc, Hst. done. }
  assert (jrun infos (j_init n now) (ls ++ [JClose w]) = Some (s1, tr ++ [JEC j CCloseCall])) as Hr1 by (by rewrite run_app, Hr, run_one, Hs).
  assert (j_crashed s1 = false) as Hnc1.
  { destruct (j_crashed s1) eqn:E; [|done]. exfalso. unfold j_crashed in E. cbn [s1 j_d j_cl] in E. rewrite Hdc in E. cbn in E.
    apply existsb_exists in E as (z & Hz & Ez). apply elem_of_list_In, elem_of_list_lookup in Hz as [k Hz]. destruct (decide (j = k)) as [->|Hne].
    - rewrite list_lookup_insert in Hz by (by eapply lookup_lt_Some). by injection Hz as <-.
    - rewrite list_lookup_insert_ne in Hz by done. pose proof (crashed_at _ _ _ Hz Ez). congruence. }
  destruct (winds_on infos n now (ls ++ [JClose w]) s1 _ j w Hr1 Hnc1) as (ls' & s' & tr' & Hr' & H1 & H2 & H3 & y' & H4 & H5).
  - exists c1. split; [cbn [s1 j_cl]; apply list_lookup_insert; by eapply lookup_lt_Some|]. split; [|done].
    split; [split|split; [done|split; [done|split]]].
    + eapply wg_step; [eapply wg_run; exact Hrc|exact Hst].
    + eapply once_step; [eapply once_run; exact Hrc|exact Hst].
    + intros i p. unfold pc_of, c1. cbn [c_listeners]. rewrite list_lookup_fmap. destruct (c_listeners c !! i) as [l|] eqn:El; [|done]. cbn. intros [= <-].
      apply (Hcalm i). unfold pc_of. by rewrite El.
    + unfold c1. cbn [c_listeners]. apply Forall_fmap. by apply Forall_true.
  - cbn [s1 j_close]. by rewrite lookup_insert.
  - exact Ho.
  - exists y. done.
  - assert (d_crashed (j_d s') = false) as Hdc' by (by apply orb_false_iff in H2 as [? _]).
    assert (exists d, dstep (j_d s') (LWEnd w) = Some (d, [DWatchEnd w]) /\ d_crashed d = false) as (d & Hd & Hdd).
    { unfold dstep. rewrite Hdc', H4. unfold watch_step. rewrite H5. eexists. split; [reflexivity|]. exact Hdc'. }
    exists (JClose w :: ls' ++ [JD (LWEnd w)]), (js_d d s'), ([JEC j CCloseCall] ++ tr' ++ [JED (DWatchEnd w)]).
    split; [cbn [run]; rewrite Hs, run_app, Hr', run_one; unfold jstep; rewrite H2, H3; unfold lift_d; rewrite Hd; done|].
    split; [constructor; [done|]; apply Forall_app; split; [done|by repeat constructor]|]. split.
    + unfold j_crashed in *. cbn [js_d j_d j_cl]. rewrite Hdd. by apply orb_false_iff in H2 as [_ ->].
    + apply elem_of_app. right. apply elem_of_app. right. left.
Qed.

(** ** One listener: activity is recorded in order *)

Lemma listening c ls s evs i p : crun c c_init ls = Some (s, evs) -> pc_of s i = Some p -> exists ad cr, CListening i ad cr ∈ evs.
Proof.
  revert s evs p. induction ls as [|l ls IH] using rev_ind; intros s evs p Hr Hp; [by injection Hr as <- <-|].
  apply run_snoc in Hr as (s1 & ev1 & ev2 & Hr & Hs & ->).
  assert (forall q, pc_of s1 i = Some q -> exists ad cr, CListening i ad cr ∈ ev1 ++ ev2) as Hold.
  { intros q Hq. destruct (IH _ _ _ Hr Hq) as (ad & cr & Hin). exists ad, cr. apply elem_of_app. by left. }
  destruct (step_cases _ _ _ _ _ Hs) as [Hq|[(ad & -> & El)|(j & l0 & q & Hl & Hst & Hm & Hpc)]].
  - destruct (Hq i) as [E _]. rewrite E in Hp. by eapply Hold.
  - unfold pc_of in Hp. rewrite El in Hp. destruct (decide (i < length (c_listeners s1))) as [Hlt|Hge].
    + rewrite lookup_app_l in Hp by done. destruct (c_listeners s1 !! i) as [x|] eqn:Ex; [|done]. eapply Hold. unfold pc_of. rewrite Ex. reflexivity.
    + exists ad, listen_credit. apply elem_of_app. right. assert (i = length (c_listeners s1)) as ->; [|left].
      rewrite lookup_app_r in Hp by lia. destruct (i - length (c_listeners s1)) eqn:Ei; [lia|done].
  - rewrite Hpc in Hp. destruct (bool_decide_reflect (i = j)) as [->|]; [|by eapply Hold]. eapply Hold. unfold pc_of. rewrite Hl. reflexivity.
Qed.

Lemma now_mono infos n now ls s tr l s' ev : jrun infos (j_init n now) ls = Some (s, tr) -> jstep infos s l = Some (s', ev) -> (d_now (j_d s) <= d_now (j_d s'))%Z.
Proof.
  intros Hr Hs. pose proof (blocked_run _ _ _ _ _ _ Hr) as Hb. destruct (jstep_moves _ _ _ _ _ Hs) as [_ Hm].
  destruct Hm; cbn [js_d after_c j_d]; try lia.
  all: match goal with Hd : dstep _ _ = Some _ |- _ => by destruct (DiscoveryLive.step_moves _ _ _ _ Hb Hd) as (? & _ & _) end.
Qed.

(** What is known of the times recorded for a watch whose client had at most one
    listener. *)
Definition in_order (w j : nat) (s : jstate) (l : list Z) : Prop :=
  Sorted Z.le l /\ Forall (fun t => (t <= d_now (j_d s))%Z) l /\ (forall t, j_in s !! (j, 0) = Some (w, t) -> Forall (fun u => (u <= t)%Z) l).

Lemma sorted_snoc l t : Sorted Z.le l -> Forall (fun u => (u <= t)%Z) l -> Sorted Z.le (l ++ [t]).
Proof.
  intros Hs HF. apply StronglySorted_Sorted. apply Sorted_StronglySorted in Hs; [|intros a b c; lia].
  induction Hs as [|x l Hs IH HA]; cbn; [by repeat constructor|]. apply Forall_cons in HF as [H1 H2]. constructor; [by apply IH|].
  apply Forall_app. split; [done|by repeat constructor].
Qed.

Lemma one_listener infos n now ls s tr w j : jrun infos (j_init n now) ls = Some (s, tr) -> (forall k, j_of s !! w = Some k -> k = j) ->
  (forall i ad cr, JEC j (CListening i ad cr) ∈ tr -> i = 0) -> in_order w j s (WatchFacts.acts w (devs tr)).
Proof.
  revert s tr. induction ls as [|l ls IH] using rev_ind; intros s tr Hr Ho Hone.
  { injection Hr as <- <-. repeat split; cbn; repeat constructor; intros; constructor. }
  pose proof Hr as Hr'. apply run_snoc in Hr as (s1 & ev1 & ev2 & Hr & Hs & ->).
  pose proof (jinv_run _ _ _ _ _ _ Hr) as Hi. pose proof (jinv_run _ _ _ _ _ _ Hr') as Hi'. pose proof (now_mono _ _ _ _ _ _ _ _ _ Hr Hs) as Hnow.
  pose proof (blocked_run _ _ _ _ _ _ Hr) as Hb.
  assert (forall i v t, j_in s1 !! (j, i) = Some (v, t) -> i = 0) as Hz.
  { intros i v t Hin. destruct (a_in _ Hi _ _ _ _ Hin) as (_ & _ & c & x & hs & Hc & Hp). destruct (project _ _ _ _ _ _ Hr) as (_ & _ & Hpr).
    destruct (Hpr _ _ Hc) as [lsc Hrc]. destruct (listening _ _ _ _ _ _ Hrc Hp) as (ad & cr & Hl). eapply (Hone i ad cr). apply elem_of_app. left. by apply cevs_elem. }
  assert (forall k, j_of s1 !! w = Some k -> k = j) as Ho1. { intros k Hk. apply Ho. by eapply of_step. }
  destruct (IH _ _ Hr Ho1) as (S1 & S2 & S3). { intros i ad cr Hin. eapply (Hone i ad cr). apply elem_of_app. by left. }
  assert (Forall (fun t => (t <= d_now (j_d s))%Z) (WatchFacts.acts w (devs ev1))) as S2'. { eapply Forall_impl; [exact S2|]. cbn. intros; lia. }
  assert (WatchFacts.acts w (devs ev2) = [] -> j_in s = j_in s1 -> in_order w j s (WatchFacts.acts w (devs (ev1 ++ ev2)))) as Hsame.
  { intros E1 E2. rewrite devs_app, WatchFacts.acts_app, E1, app_nil_r. split; [done|]. split; [done|]. rewrite E2. exact S3. }
  destruct (jstep_moves _ _ _ _ _ Hs) as [_ Hm]. destruct Hm.
  - apply Hsame; [|done]. rewrite devs_d. eapply apart_acts; [exact Hb|exact H0|]. by destruct l.
  - apply Hsame; [|done]. rewrite devs_d. eapply apart_acts; [exact Hb|exact H0|done].
  - apply Hsame; [|done]. rewrite devs_d. eapply apart_acts; [exact Hb|exact H0|done].
  - apply Hsame; [|done]. by rewrite devs_c.
  - apply Hsame; [|done]. by rewrite devs_c.
  - rewrite devs_app, WatchFacts.acts_app. cbn [devs omap]. cbn. rewrite app_nil_r. split; [done|]. split; [done|]. cbn [j_in]. intros t Ht.
    destruct (decide ((j0, i) = (j, 0))) as [E|E].
    + injection E as -> ->. rewrite lookup_insert in Ht. injection Ht as <- <-. exact S2'.
    + rewrite lookup_insert_ne in Ht by done. by apply S3.
  - destruct (act_store _ _ _ _ _ H2) as (y' & z & ts' & Hy' & _ & Hk & _ & _ & _ & _ & ->). rewrite H0 in Hy'. injection Hy' as <-. rewrite H1 in Hk. injection Hk as <-.
    rewrite devs_app, WatchFacts.acts_app, devs_d. unfold WatchFacts.acts at 2. cbn [omap list_omap]. destruct (bool_decide_reflect (w0 = w)) as [->|Hne].
    + destruct (a_in _ Hi _ _ _ _ H) as (Hj & Hle & _). pose proof (Ho1 _ Hj) as ->. pose proof (Hz _ _ _ H) as ->.
      split; [apply sorted_snoc; [done|by apply S3]|]. split; [apply Forall_app; split; [done|]; repeat constructor; cbn in *; lia|].
      cbn [j_in]. intros t Ht. by rewrite lookup_delete in Ht.
    + rewrite app_nil_r. split; [done|]. split; [done|]. cbn [j_in]. intros t Ht. apply S3. by apply lookup_delete_Some in Ht as [_ ?].
  - apply Hsame; [|done]. by rewrite devs_c.
Qed.
