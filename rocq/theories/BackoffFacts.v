(** Proofs about the pacing of reconnection. *)
From Coq Require Import ZArith Lia.
From stdpp Require Import base list functions.
From Verif Require Import Run Backoff.

Local Open Scope Z_scope.
Local Open Scope list_scope.

(** ** Vocabulary *)

(** The time a history takes. *)
Fixpoint clock (ls : list label) : Z :=
  match ls with
  | [] => 0
  | Tick d :: ls' => d + clock ls'
  | _ :: ls' => clock ls'
  end.

(** The label resets the strategy of container [i]: a start or a success of a
    container with the same object. *)
Definition resets (own : nat -> nat) (i : nat) (l : label) : Prop :=
  match l with Start j | Success j => own j = own i | _ => False end.

Global Instance resets_dec own i l : Decision (resets own i l).
Proof. destruct l; simpl; apply _. Defined.

(** [last_reset own i ls t]: the last such label of [ls] happened at [t]. *)
Definition last_reset (own : nat -> nat) (i : nat) (ls : list label) (t : Z) : Prop :=
  exists ls1 l ls2, ls = ls1 ++ l :: ls2 /\ resets own i l /\ t = clock ls1 /\
    Forall (fun m => ~ resets own i m) ls2.

(** The labels of one container, and time. *)
Definition concerns (i : nat) (l : label) : bool :=
  match l with
  | Tick _ => true
  | Start j | Connected j | Success j | Failure j _ | Retry j => bool_decide (j = i)
  end.

(** The label is a failure of a container with the same object as [i]. *)
Definition fails (own : nat -> nat) (i : nat) (l : label) : Prop :=
  match l with Failure j _ => own j = own i | _ => False end.

(** [unfailed own i ls t]: the last such reset was at [t], and no container with
    the same object has failed since. *)
Definition unfailed (own : nat -> nat) (i : nat) (ls : list label) (t : Z) : Prop :=
  exists ls1 l ls2, ls = ls1 ++ l :: ls2 /\ resets own i l /\ t = clock ls1 /\
    Forall (fun m => ~ resets own i m /\ ~ fails own i m) ls2.

Definition of_event (e : event) : nat := match e with Delay i _ | GivesUp i => i end.

(** Sensible settings. *)
Definition sane (c : bcfg) : Prop := 2 <= b_init c /\ b_init c <= b_max c /\ 0 <= b_limit c.

Lemma clock_app l1 l2 : clock (l1 ++ l2) = clock l1 + clock l2.
Proof. induction l1 as [|[] l1 IH]; simpl; lia. Qed.

Section facts.
Context (c : bcfg) (own : nat -> nat).
Notation run := (run (step c own)).
Notation init := (init c).

Lemma run_clock ls s evs : run init ls = Some (s, evs) -> s_now s = clock ls.
Proof.
  revert s evs. induction ls as [|l ls IH] using rev_ind; intros s evs Hr.
  - injection Hr as <- <-. done.
  - apply run_snoc in Hr as (s1 & ev1 & ev2 & H1 & H2 & ->). rewrite clock_app. rewrite <- (IH _ _ H1).
    destruct l as [d|i|i|i|i d|i]; cbn [step] in H2; cbn [clock].
    + destruct (0 <=? d); [|done]. injection H2 as <- <-. simpl. lia.
    + destruct (s_phase s1 i); try done. injection H2 as <- <-. simpl. lia.
    + destruct (s_phase s1 i); try done. injection H2 as <- <-. simpl. lia.
    + destruct (s_phase s1 i); try done. injection H2 as <- <-. simpl. lia.
    + destruct (_ && _); [|done]. unfold next_backoff in H2. destruct (_ && _); injection H2 as <- <-; simpl; lia.
    + destruct (s_phase s1 i); try done. destruct (_ <=? _); [|done]. injection H2 as <- <-. simpl. lia.
Qed.

(** ** Pauses are kept *)

(** The label is something container [i] does. *)
Definition does (i : nat) (l : label) : Prop :=
  match l with Tick _ => False | Start j | Connected j | Success j | Failure j _ | Retry j => j = i end.

Lemma phase_other s l s2 ev i : step c own s l = Some (s2, ev) -> ~ does i l -> s_phase s2 i = s_phase s i.
Proof.
  intros H Hn. destruct l as [d|j|j|j|j d|j]; cbn [step does] in *.
  - destruct (_ <=? _); [|done]. by injection H as <- <-.
  - destruct (s_phase s j); try done. injection H as <- <-. simpl. by rewrite fn_lookup_insert_ne.
  - destruct (s_phase s j); try done. injection H as <- <-. simpl. by rewrite fn_lookup_insert_ne.
  - destruct (s_phase s j); try done. by injection H as <- <-.
  - destruct (_ && _); [|done]. unfold next_backoff in H. destruct (_ && _); injection H as <- <-; simpl; by rewrite fn_lookup_insert_ne.
  - destruct (s_phase s j); try done. destruct (_ <=? _); [|done]. injection H as <- <-. simpl. by rewrite fn_lookup_insert_ne.
Qed.

Lemma now_step s l s2 ev : step c own s l = Some (s2, ev) -> s_now s2 = s_now s + clock [l].
Proof.
  intros H. destruct l as [d|j|j|j|j d|j]; cbn [step clock] in *.
  - destruct (_ <=? _); [|done]. injection H as <- <-. simpl. lia.
  - destruct (s_phase s j); try done. injection H as <- <-. simpl. lia.
  - destruct (s_phase s j); try done. injection H as <- <-. simpl. lia.
  - destruct (s_phase s j); try done. injection H as <- <-. simpl. lia.
  - destruct (_ && _); [|done]. unfold next_backoff in H. destruct (_ && _); injection H as <- <-; simpl; lia.
  - destruct (s_phase s j); try done. destruct (_ <=? _); [|done]. injection H as <- <-. simpl. lia.
Qed.

Lemma waits_idle i b : forall s s2 ev, run s b = Some (s2, ev) -> Forall (fun l => ~ does i l) b -> s_phase s2 i = s_phase s i /\ s_now s2 = s_now s + clock b.
Proof.
  induction b as [|l b IH]; intros s s2 ev Hr HF; [injection Hr as <- <-; simpl; split; [done|lia]|].
  cbn [Run.run] in Hr. destruct (step c own s l) as [[s1 ev1]|] eqn:H1; [|done]. destruct (run s1 b) as [[s3 ev3]|] eqn:H3; [|done]. injection Hr as <- <-.
  apply Forall_cons_1 in HF as [Hn HF]. destruct (IH _ _ _ H3 HF) as [-> ->]. rewrite (phase_other _ _ _ _ _ H1 Hn), (now_step _ _ _ _ H1).
  split; [done|]. change (l :: b) with ([l] ++ b). rewrite (clock_app [l] b). lia.
Qed.

(** The first thing a container does after a failure it pauses for. *)
Lemma first_after i d a s1 ev1 s2 b s3 ev3 l s4 ev4 : run init a = Some (s1, ev1) -> step c own s1 (Failure i d) = Some (s2, [Delay i d]) ->
  run s2 b = Some (s3, ev3) -> Forall (fun l => ~ does i l) b -> step c own s3 l = Some (s4, ev4) -> does i l -> l = Retry i /\ d <= clock b.
Proof.
  intros H1 H2 H3 HF H4 Hd. destruct (waits_idle _ _ _ _ _ H3 HF) as [Hp Hn].
  assert (s_phase s2 i = PWaiting (s_now s1 + d) /\ s_now s2 = s_now s1) as [Hw Hnow].
  { cbn [step] in H2. destruct (_ && _); [|done]. unfold next_backoff in H2. destruct (_ && _); injection H2 as <-; simpl; [done|]. by rewrite fn_lookup_insert. }
  rewrite Hw in Hp. destruct l as [d'|j|j|j|j d'|j]; cbn [step does] in *; subst; try done; rewrite Hp in H4; try done.
  destruct (Z.leb_spec (s_now s1 + d) (s_now s3)); [|done]. split; [done|]. lia.
Qed.

(** Once the pause is over, it tries again. *)
Lemma tries_again i d a s1 ev1 s2 b s3 ev3 : run init a = Some (s1, ev1) -> step c own s1 (Failure i d) = Some (s2, [Delay i d]) ->
  run s2 b = Some (s3, ev3) -> Forall (fun l => ~ does i l) b -> d <= clock b -> exists s4, step c own s3 (Retry i) = Some (s4, []) /\ s_phase s4 i = PTrying.
Proof.
  intros H1 H2 H3 HF Hd. destruct (waits_idle _ _ _ _ _ H3 HF) as [Hp Hn].
  assert (s_phase s2 i = PWaiting (s_now s1 + d) /\ s_now s2 = s_now s1) as [Hw Hnow].
  { cbn [step] in H2. destruct (_ && _); [|done]. unfold next_backoff in H2. destruct (_ && _); injection H2 as <-; simpl; [done|]. by rewrite fn_lookup_insert. }
  cbn [step]. rewrite Hp, Hw. destruct (Z.leb_spec (s_now s1 + d) (s_now s3)); [|lia]. eexists. split; [done|]. simpl. by rewrite fn_lookup_insert.
Qed.

(** The start time of an object is its last reset. *)
Lemma start_is_last_reset i ls s evs t : run init ls = Some (s, evs) -> last_reset own i ls t ->
  bo_start (strategy own s i) = t.
Proof.
  revert s evs t. induction ls as [|l ls IH] using rev_ind; intros s evs t Hr Hl.
  - destruct Hl as (ls1 & l & ls2 & H & _). by destruct ls1.
  - apply run_snoc in Hr as (s1 & ev1 & ev2 & H1 & H2 & ->).
    assert (Hcase : (resets own i l /\ t = clock ls) \/ (~ resets own i l /\ last_reset own i ls t)).
    { destruct Hl as (l1 & m & l2 & E & Hm & -> & Hf). destruct l2 as [|x l2 _] using rev_ind.
      - apply app_inj_tail in E as [-> ->]. by left.
      - right. rewrite app_comm_cons, app_assoc in E. apply app_inj_tail in E as [-> ->].
        apply Forall_app in Hf as [Hf1 Hf2]. split; [by inversion Hf2|].
        exists l1, m, l2. done. }
    destruct Hcase as [[Hrs ->]|[Hrs Hl']].
    + rewrite <- (run_clock _ _ _ H1).
      destruct l as [d|j|j|j|j d|j]; try done; cbn [resets] in Hrs; cbn [step] in H2;
        destruct (s_phase s1 j); try done; injection H2 as <- <-; unfold strategy; simpl; rewrite Hrs;
        by rewrite fn_lookup_insert.
    + rewrite <- (IH _ _ _ H1 Hl').
      destruct l as [d|j|j|j|j d|j]; cbn [step] in H2.
      * destruct (0 <=? d); [|done]. by injection H2 as <- <-.
      * destruct (s_phase s1 j); try done. injection H2 as <- <-. unfold strategy; simpl.
        rewrite fn_lookup_insert_ne; [done|exact Hrs].
      * destruct (s_phase s1 j); try done. by injection H2 as <- <-.
      * destruct (s_phase s1 j); try done. injection H2 as <- <-. unfold strategy; simpl.
        rewrite fn_lookup_insert_ne; [done|exact Hrs].
      * destruct (_ && _); [|done]. unfold next_backoff in H2.
        assert (s_bo s = <[own j := Bo (increment c (bo_cur (strategy own s1 j))) (bo_start (strategy own s1 j))]> (s_bo s1)) as Hb.
        { destruct (_ && _); injection H2 as <- <-; reflexivity. }
        unfold strategy. rewrite Hb. destruct (decide (own j = own i)) as [He|He].
        -- rewrite He, fn_lookup_insert. simpl. unfold strategy. by rewrite He.
        -- by rewrite fn_lookup_insert_ne.
      * destruct (s_phase s1 j); try done. destruct (_ <=? _); [|done]. by injection H2 as <- <-.
Qed.

(** A container that is dialling or connected was started. *)
Lemma started_reset i ls s evs : run init ls = Some (s, evs) -> s_phase s i <> PNew ->
  exists t, last_reset own i ls t.
Proof.
  revert s evs. induction ls as [|l ls IH] using rev_ind; intros s evs Hr Hp.
  - injection Hr as <- <-. done.
  - apply run_snoc in Hr as (s1 & ev1 & ev2 & H1 & H2 & ->).
    destruct (decide (resets own i l)) as [Hd|Hd].
    { exists (clock ls). exists ls, l, []. split; [done|]. split; [exact Hd|]. split; [done|constructor]. }
    assert (s_phase s1 i <> PNew) as Hp1.
    { intros H. apply Hp. destruct l as [d|j|j|j|j d|j]; cbn [step] in H2.
      - destruct (0 <=? d); [|done]. by injection H2 as <- <-.
      - destruct (s_phase s1 j); try done. injection H2 as <- <-. simpl.
        rewrite fn_lookup_insert_ne; [done|]. intros ->. by apply Hd.
      - destruct (s_phase s1 j) eqn:E; try done. injection H2 as <- <-. simpl.
        rewrite fn_lookup_insert_ne; [done|]. intros ->. congruence.
      - destruct (s_phase s1 j) eqn:E; try done. by injection H2 as <- <-.
      - assert (j <> i) as Hne. { intros ->. rewrite H in H2. done. }
        destruct (_ && _); [|done]. unfold next_backoff in H2.
        destruct (_ && _); injection H2 as <- <-; simpl; by rewrite fn_lookup_insert_ne.
      - destruct (s_phase s1 j) eqn:E; try done. destruct (_ <=? _); [|done]. injection H2 as <- <-. simpl.
        rewrite fn_lookup_insert_ne; [done|]. intros ->. congruence. }
    destruct (IH _ _ H1 Hp1) as (t & l1 & m & l2 & -> & Hm & -> & Hf).
    exists (clock l1), l1, m, (l2 ++ [l]). split; [by rewrite <- app_assoc|]. split; [done|]. split; [done|].
    apply Forall_app. split; [done|]. constructor; [exact Hd|constructor].
Qed.

(** What a failure leads to. *)
Lemma failure_outcome i d ls s evs s' ev : run init ls = Some (s, evs) ->
  step c own s (Failure i d) = Some (s', ev) ->
  exists t, last_reset own i ls t /\
    ((s_phase s' i = PGaveUp /\ ev = [GivesUp i] /\ b_limit c <> 0 /\ b_limit c < clock ls - t + d) \/
     (s_phase s' i = PWaiting (clock ls + d) /\ ev = [Delay i d] /\ (b_limit c = 0 \/ clock ls - t + d <= b_limit c))).
Proof.
  intros Hr Hs. assert (s_phase s i <> PNew) as Hn.
  { intros E. cbn [step] in Hs. by rewrite E in Hs. }
  destruct (started_reset _ _ _ _ Hr Hn) as (t & Ht). exists t. split; [done|].
  pose proof (start_is_last_reset _ _ _ _ _ Hr Ht) as Hst. pose proof (run_clock _ _ _ Hr) as Hc.
  cbn [step] in Hs. destruct (_ && _); [|done]. unfold next_backoff in Hs. rewrite Hst, Hc in Hs.
  destruct (Z.eqb_spec (b_limit c) 0) as [E|E]; simpl in Hs.
  - injection Hs as <- <-. right. simpl. rewrite fn_lookup_insert. auto.
  - destruct (Z.ltb_spec (b_limit c) (clock ls - t + d)); injection Hs as <- <-; simpl; rewrite fn_lookup_insert.
    + left. auto.
    + right. split; [done|]. split; [done|]. right. lia.
Qed.

(** Without limit nobody gives up. *)
Lemma no_limit_no_giving_up ls s evs : b_limit c = 0 -> run init ls = Some (s, evs) ->
  (forall i, s_phase s i <> PGaveUp) /\ forall i, GivesUp i ∉ evs.
Proof.
  intros H0. revert s evs. induction ls as [|l ls IH] using rev_ind; intros s evs Hr.
  - injection Hr as <- <-. split; [done|]. intros i H. by apply elem_of_nil in H.
  - apply run_snoc in Hr as (s1 & ev1 & ev2 & H1 & H2 & ->). destruct (IH _ _ H1) as [IH1 IH2].
    assert (forall j p i, p <> PGaveUp -> (<[j := p]> (s_phase s1)) i <> PGaveUp) as Hins.
    { intros j p i Hp. destruct (decide (j = i)) as [->|Hne]; [by rewrite fn_lookup_insert|].
      by rewrite fn_lookup_insert_ne. }
    assert ((forall i, s_phase s i <> PGaveUp) /\ (forall i, GivesUp i ∉ ev2)) as [A B].
    { destruct l as [d|j|j|j|j d|j]; cbn [step] in H2.
      - destruct (0 <=? d); [|done]. injection H2 as <- <-. split; [done|]. intros i H. by apply elem_of_nil in H.
      - destruct (s_phase s1 j); try done. injection H2 as <- <-. split; [intros i; by apply Hins|].
        intros i H. by apply elem_of_nil in H.
      - destruct (s_phase s1 j); try done. injection H2 as <- <-. split; [intros i; by apply Hins|].
        intros i H. by apply elem_of_nil in H.
      - destruct (s_phase s1 j); try done. injection H2 as <- <-. split; [done|]. intros i H. by apply elem_of_nil in H.
      - destruct (_ && _); [|done]. unfold next_backoff in H2. rewrite H0 in H2. simpl in H2.
        injection H2 as <- <-. split; [intros i; by apply Hins|]. intros i H. apply elem_of_list_singleton in H. done.
      - destruct (s_phase s1 j); try done. destruct (_ <=? _); [|done]. injection H2 as <- <-.
        split; [intros i; by apply Hins|]. intros i H. by apply elem_of_nil in H. }
    split; [done|]. intros i. rewrite elem_of_app. intros [H|H]; [by eapply IH2|by eapply B].
Qed.

(** The interval stays within its bounds. *)
Lemma interval_bounds ls s evs i : sane c -> run init ls = Some (s, evs) ->
  b_init c <= bo_cur (strategy own s i) <= b_max c.
Proof.
  intros (Hi & Hm & _) Hr. unfold strategy. generalize (own i). clear i. revert s evs Hr.
  induction ls as [|l ls IH] using rev_ind; intros s evs Hr o.
  - injection Hr as <- <-. simpl. lia.
  - apply run_snoc in Hr as (s1 & ev1 & ev2 & H1 & H2 & ->). pose proof (IH _ _ H1) as Hb.
    assert (forall j b, b_init c <= bo_cur b <= b_max c -> b_init c <= bo_cur ((<[j := b]> (s_bo s1)) o) <= b_max c) as Hins.
    { intros j b Hbb. destruct (decide (j = o)) as [->|Hne]; [by rewrite fn_lookup_insert|]. by rewrite fn_lookup_insert_ne. }
    destruct l as [d|j|j|j|j d|j]; cbn [step] in H2.
    + destruct (0 <=? d); [|done]. injection H2 as <- <-; exact (Hb o).
    + destruct (s_phase s1 j); try done. injection H2 as <- <-. apply Hins. simpl. lia.
    + destruct (s_phase s1 j); try done. injection H2 as <- <-; exact (Hb o).
    + destruct (s_phase s1 j); try done. injection H2 as <- <-. apply Hins. simpl. lia.
    + destruct (_ && _); [|done]. unfold next_backoff in H2.
      assert (b_init c <= increment c (bo_cur (strategy own s1 j)) <= b_max c) as Hinc.
      { unfold increment, strategy. specialize (Hb (own j)).
        destruct (Z.leb_spec (2 * b_max c) (3 * bo_cur (s_bo s1 (own j)))); [lia|].
        pose proof (Z.div_le_lower_bound (3 * bo_cur (s_bo s1 (own j))) 2 (b_init c)).
        pose proof (Z.div_le_upper_bound (3 * bo_cur (s_bo s1 (own j))) 2 (b_max c)). lia. }
      destruct (_ && _); injection H2 as <- <-; apply Hins; exact Hinc.
    + destruct (s_phase s1 j); try done. destruct (_ <=? _); [|done]. injection H2 as <- <-; exact (Hb o).
Qed.

Lemma fresh_interval i ls s evs t : run init ls = Some (s, evs) -> unfailed own i ls t ->
  bo_cur (strategy own s i) = b_init c.
Proof.
  revert s evs t. induction ls as [|l ls IH] using rev_ind; intros s evs t Hr Hl.
  - destruct Hl as (ls1 & l & ls2 & H & _). by destruct ls1.
  - apply run_snoc in Hr as (s1 & ev1 & ev2 & H1 & H2 & ->).
    assert (Hcase : resets own i l \/ ((~ resets own i l /\ ~ fails own i l) /\ unfailed own i ls t)).
    { destruct Hl as (l1 & m & l2 & E & Hm & -> & Hf). destruct l2 as [|x l2 _] using rev_ind.
      - apply app_inj_tail in E as [-> ->]. by left.
      - right. rewrite app_comm_cons, app_assoc in E. apply app_inj_tail in E as [-> ->].
        apply Forall_app in Hf as [Hf1 Hf2]. split; [by inversion Hf2|].
        exists l1, m, l2. done. }
    destruct Hcase as [Hrs|[[Hrs Hfl] Hl']].
    + destruct l as [d|j|j|j|j d|j]; try done; cbn [resets] in Hrs; cbn [step] in H2;
        destruct (s_phase s1 j); try done; injection H2 as <- <-; unfold strategy; simpl; rewrite Hrs;
        by rewrite fn_lookup_insert.
    + rewrite <- (IH _ _ _ H1 Hl').
      destruct l as [d|j|j|j|j d|j]; cbn [step] in H2.
      * destruct (0 <=? d); [|done]. by injection H2 as <- <-.
      * destruct (s_phase s1 j); try done. injection H2 as <- <-. unfold strategy; simpl.
        rewrite fn_lookup_insert_ne; [done|exact Hrs].
      * destruct (s_phase s1 j); try done. by injection H2 as <- <-.
      * destruct (s_phase s1 j); try done. injection H2 as <- <-. unfold strategy; simpl.
        rewrite fn_lookup_insert_ne; [done|exact Hrs].
      * destruct (_ && _); [|done]. unfold next_backoff in H2. cbn [fails] in Hfl.
        destruct (_ && _); injection H2 as <- <-; unfold strategy; simpl; by rewrite fn_lookup_insert_ne.
      * destruct (s_phase s1 j); try done. destruct (_ <=? _); [|done]. by injection H2 as <- <-.
Qed.

(** The first failure after a reset pauses briefly, unless the limit has
    nearly run out. *)
Lemma first_failure i d ls s evs t s' ev : run init ls = Some (s, evs) -> unfailed own i ls t ->
  2 * (clock ls - t) + 3 * b_init c + 2 <= 2 * b_limit c ->
  step c own s (Failure i d) = Some (s', ev) ->
  s_phase s' i = PWaiting (clock ls + d) /\ ev = [Delay i d] /\ 2 * d <= 3 * b_init c + 2.
Proof.
  intros Hr Hf Hlim Hs. pose proof (fresh_interval _ _ _ _ _ Hr Hf) as Hcur.
  assert (last_reset own i ls t) as Hl.
  { destruct Hf as (l1 & l & l2 & -> & Hl & -> & Hall). exists l1, l, l2. split; [done|]. split; [done|]. split; [done|].
    eapply Forall_impl; [|exact Hall]. by intros m [? _]. }
  pose proof (start_is_last_reset _ _ _ _ _ Hr Hl) as Hst. pose proof (run_clock _ _ _ Hr) as Hck.
  cbn [step] in Hs. destruct (drawn (bo_cur (strategy own s i)) d) eqn:Ed; [|by rewrite andb_false_r in Hs].
  rewrite Hcur in Ed. unfold drawn in Ed. apply andb_true_iff in Ed as [Ed E3]. apply andb_true_iff in Ed as [E1 E2].
  apply Z.leb_le in E1, E2, E3. destruct (_ && _); [|done]. unfold next_backoff in Hs. rewrite Hst, Hck in Hs.
  destruct (Z.ltb_spec (b_limit c) (clock ls - t + d)); [lia|]. rewrite andb_false_r in Hs.
  injection Hs as <- <-. simpl. rewrite fn_lookup_insert. split; [done|]. split; [done|lia].
Qed.

(** Every delay is drawn from the current interval. *)
Lemma delay_bounds ls s evs i d : sane c -> run init ls = Some (s, evs) -> Delay i d ∈ evs ->
  0 <= d /\ b_init c <= 2 * d + 2 /\ 2 * d <= 3 * b_max c + 2.
Proof.
  intros Hsane. revert s evs. induction ls as [|l ls IH] using rev_ind; intros s evs Hr Hin.
  - injection Hr as <- <-. by apply elem_of_nil in Hin.
  - apply run_snoc in Hr as (s1 & ev1 & ev2 & H1 & H2 & ->).
    apply elem_of_app in Hin as [Hin|Hin]; [by eapply IH|].
    destruct l as [x|j|j|j|j x|j]; cbn [step] in H2.
    + destruct (0 <=? x); [|done]. injection H2 as <- <-. by apply elem_of_nil in Hin.
    + destruct (s_phase s1 j); try done. injection H2 as <- <-. by apply elem_of_nil in Hin.
    + destruct (s_phase s1 j); try done. injection H2 as <- <-. by apply elem_of_nil in Hin.
    + destruct (s_phase s1 j); try done. injection H2 as <- <-. by apply elem_of_nil in Hin.
    + pose proof (interval_bounds _ _ _ j Hsane H1) as Hb.
      destruct (drawn (bo_cur (strategy own s1 j)) x) eqn:Ed.
      2:{ by rewrite andb_false_r in H2. }
      unfold drawn in Ed. apply andb_true_iff in Ed as [Ed E3]. apply andb_true_iff in Ed as [E1 E2].
      apply Z.leb_le in E1, E2, E3.
      destruct (_ && _); [|done]. unfold next_backoff in H2.
      destruct (_ && _); injection H2 as <- <-; apply elem_of_list_singleton in Hin; [done|].
      injection Hin as -> ->. lia.
    + destruct (s_phase s1 j); try done. destruct (_ <=? _); [|done]. injection H2 as <- <-. by apply elem_of_nil in Hin.
Qed.

(** With its own object a container does not notice the others. *)
Lemma own_object i ls s evs : (forall j, own j = own i -> j = i) -> run init ls = Some (s, evs) ->
  exists s', run init (filter (fun l => concerns i l = true) ls) = Some (s', filter (fun e => of_event e = i) evs) /\
    s_now s' = s_now s /\ s_phase s' i = s_phase s i /\ strategy own s' i = strategy own s i.
Proof.
  intros Hinj. revert s evs. induction ls as [|l ls IH] using rev_ind; intros s evs Hr.
  - injection Hr as <- <-. exists init. done.
  - apply run_snoc in Hr as (s1 & ev1 & ev2 & H1 & H2 & ->).
    destruct (IH _ _ H1) as (s1' & Hr' & Hnow & Hph & Hst). rewrite !list.filter_app.
    destruct (decide (concerns i l = true)) as [Hc|Hc].
    + rewrite (filter_cons_True _ l []) by done. rewrite filter_nil, run_app, Hr', run_one.
      destruct l as [d|j|j|j|j d|j]; cbn [concerns] in Hc; try (apply bool_decide_eq_true in Hc as ->); cbn [step] in *.
      * destruct (0 <=? d); [|done]. injection H2 as <- <-. eexists. split; [reflexivity|]. simpl. by rewrite Hnow.
      * rewrite Hph. destruct (s_phase s1 i); try done. injection H2 as <- <-. eexists. split; [reflexivity|]. simpl.
        unfold strategy. simpl. rewrite !fn_lookup_insert, Hnow. done.
      * rewrite Hph. destruct (s_phase s1 i); try done. injection H2 as <- <-. eexists. split; [reflexivity|]. simpl; unfold strategy in *; simpl.
        rewrite !fn_lookup_insert. done.
      * rewrite Hph. destruct (s_phase s1 i) eqn:E; try done. injection H2 as <- <-. eexists. split; [reflexivity|]. simpl; unfold strategy in *; simpl.
        rewrite !fn_lookup_insert, Hnow. split; [done|]. split; [congruence|done].
      * rewrite Hph, Hst. destruct (_ && _); [|done]. unfold next_backoff in *. rewrite Hnow.
        destruct (_ && _); injection H2 as <- <-; (eexists; split;
          [rewrite filter_cons_True by done; reflexivity|]); simpl; unfold strategy; simpl; rewrite !fn_lookup_insert; done.
      * rewrite Hph. destruct (s_phase s1 i); try done. rewrite Hnow. destruct (_ <=? _); [|done]. injection H2 as <- <-.
        eexists. split; [reflexivity|]. simpl; unfold strategy in *; simpl. rewrite !fn_lookup_insert. done.
    + rewrite (filter_cons_False _ l []) by done. rewrite filter_nil, app_nil_r. exists s1'. rewrite Hr'.
      assert (Hne : forall j, concerns i l = bool_decide (j = i) -> j <> i).
      { intros j E ->. apply Hc. rewrite E. by apply bool_decide_eq_true. }
      destruct l as [d|j|j|j|j d|j]; cbn [concerns step] in *; [done|..]; pose proof (Hne j eq_refl) as Hji;
        (assert (own j <> own i) as Hoi by (intros E; by apply Hji, Hinj)).
      * destruct (s_phase s1 j); try done. injection H2 as <- <-. rewrite filter_nil, app_nil_r. split; [done|]. simpl; unfold strategy in *; simpl.
        rewrite !fn_lookup_insert_ne by done. done.
      * destruct (s_phase s1 j); try done. injection H2 as <- <-. rewrite filter_nil, app_nil_r. split; [done|]. simpl; unfold strategy in *; simpl.
        rewrite !fn_lookup_insert_ne by done. done.
      * destruct (s_phase s1 j); try done. injection H2 as <- <-. rewrite filter_nil, app_nil_r. split; [done|]. simpl; unfold strategy in *; simpl.
        rewrite !fn_lookup_insert_ne by done. done.
      * destruct (_ && _); [|done]. unfold next_backoff in *.
        destruct (_ && _); injection H2 as <- <-; rewrite filter_cons_False by done; rewrite filter_nil, app_nil_r;
          (split; [done|]); simpl; unfold strategy in *; simpl; rewrite !fn_lookup_insert_ne by done; done.
      * destruct (s_phase s1 j); try done. destruct (_ <=? _); [|done]. injection H2 as <- <-.
        rewrite filter_nil, app_nil_r. split; [done|]. simpl; unfold strategy in *; simpl. rewrite !fn_lookup_insert_ne by done. done.
Qed.
End facts.
