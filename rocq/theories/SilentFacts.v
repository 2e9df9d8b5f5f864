(** A source that falls silent is forgotten, in bounded time and whatever the
    schedule. *)
From Coq Require Import ZArith NArith Ascii String Lia.
From stdpp Require Import base gmap strings list sorting.
From Verif Require Import GoBase Encoding Records Messages Run Keepalive Discovery DiscoveryFacts DiscoveryLive WatchFacts.

Local Open Scope list_scope.
Local Open Scope Z_scope.

(** ** Specification *)

(** The watch has something to do: it runs, or waits for the lock, or waits in its
    select with a timer that is due. *)
Definition busy (w : nat) (s : dstate) : bool :=
  match d_watches s !! w with
  | Some x =>
      match wt_pc x with
      | WSelect => wt_chan x || wt_tick x || (match wt_fire x with Some f => f <=? d_now s | None => false end) || (wt_next x <=? d_now s)
      | WStart | WLook | WSeen _ _ | WReset _ _ | WForget => true
      | _ => false
      end
  | None => false
  end.

(** Since when, if it just had nothing to do: since its timer or ticker was due. *)
Definition due_since (w : nat) (s : dstate) : Z :=
  match d_watches s !! w with
  | Some x =>
      match wt_pc x with
      | WSelect => Z.min (d_now s) (Z.min (match wt_fire x with Some f => f | None => d_now s end) (wt_next x))
      | _ => d_now s
      end
  | None => d_now s
  end.

(** The watch is given the processor and the lock in time: never has it something
    to do for longer than [P].  [b] is since when it has. *)
Fixpoint prompt (P : Z) (w : nat) (b : option Z) (s : dstate) (ls : list dlabel) : Prop :=
  match ls with
  | [] => True
  | l :: ls' =>
      match dstep s l with
      | Some (s', _) =>
          let b' := if busy w s' then Some (match b with Some t => t | None => due_since w s' end) else None in
          (match b' with Some t => d_now s' <= t + P | None => True end) /\ prompt P w b' s' ls'
      | None => True
      end
  end.

(** Nothing is recorded for the watch after [T]. *)
Definition quiet_after (T : Z) (w : nat) (s0 : dstate) (ls : list dlabel) : Prop :=
  forall s1 k s2, transition dstep s0 ls s1 (LActStore w k) s2 -> d_now s1 <= T.

(** ** Proof *)

(** Steps of others. *)
Lemma others s lb s' ev w x y : blocked_inv s -> dstep s lb = Some (s', ev) -> label_of lb <> Some w -> d_watches s !! w = Some x -> d_watches s' !! w = Some y ->
  y = x \/ wt_pc x = WBlocked.
Proof.
  intros Hb H Hl Hx Hy. unfold dstep in H. destruct (d_crashed s); [done|].
  assert (forall c o, match c with ByWatch v => v <> w | _ => True end -> call c o s = Some (s', ev) -> y = x) as Hcall.
  { intros c o Hc Hcc. destruct (call_watches _ _ _ _ _ Hcc) as (Hw & _). rewrite Hw in Hy. destruct c; try congruence.
    rewrite alter_lookup, decide_False in Hy by done. congruence. }
  assert (d_watches s' = d_watches s -> y = x) as Hsame by (intros E; congruence).
  assert (forall v, label_of lb = Some v -> match d_watches s !! v with Some z => watch_step s v z lb | None => None end = Some (s', ev) -> y = x) as Hw.
  { intros v Hv Hz. assert (v <> w) by congruence. destruct (d_watches s !! v) as [z|] eqn:Ez; [|done].
    destruct (watch_own _ _ _ _ _ _ Hz Hv) as [(z' & _ & ->)|[(t & n & _ & _ & Hc)|(_ & _ & Hc)]]; try (by eapply Hcall with (2 := Hc)).
    rewrite upd_lookup, decide_False in Hy by done. congruence. }
  destruct lb; try (left; eapply Hw; [reflexivity|exact H]); clear Hw.
  - destruct (0 <=? dt); [|done]. injection H as <- <-. left. by apply Hsame.
  - destruct o; try done; left; by eapply Hcall with (2 := H).
  - destruct (d_held s) as [[[c k] z]|] eqn:Eh; [|done]. destruct (roomy s k) eqn:Er; [|done]. injection H as <- <-. rewrite returns_watches in Hy.
    assert (forall q, d_watches (ds_held None (set_chan k q s)) = d_watches s) as E by (intros q; by destruct k). rewrite E in Hy.
    destruct c; try (left; congruence). rewrite alter_lookup in Hy. destruct (decide (w = w0)) as [->|]; [|left; congruence]. right.
    destruct (Hb _ _ _ Eh) as (u & Hu & Ep). congruence.
  - destruct (d_run s); try done. injection H as <- <-. left. by apply Hsame.
  - destruct (d_run s); try done. injection H as H. unfold run_msg in H. open_step H; injection H as <- <-; left; by apply Hsame.
  - destruct (d_run s); try done. injection H as <- <-. left. by apply Hsame.
  - destruct (d_run s); try done. left. by eapply Hcall with (2 := H).
  - injection H as <- <-. left. by apply Hsame.
  - destruct (d_hand s) eqn:Eh; try done. destruct (chan_of s k) as [|z q] eqn:Ec; [done|]. injection H as <- <-. left. apply Hsame. by destruct k.
  - destruct (d_hand s) eqn:Eh; try done. injection H as <- <-. left. by apply Hsame.
  - destruct (d_hand s) eqn:Eh; try done. destruct o; try done; injection H as <- <-; left; by apply Hsame.
  - destruct (d_hand s) eqn:Eh; try done. left. by eapply Hcall with (2 := H).
  - destruct (d_hand s) eqn:Eh; try done. destruct (d_run s); try (destruct (d_cancelled s); [|done]); injection H as <- <-; left; by apply Hsame.
  - destruct (d_held s) eqn:Eh; [done|]. destruct (d_map s !! w_id c) eqn:Em; injection H as <- <-; left; [|by apply Hsame].
    cbn in Hy. apply lookup_lt_Some in Hx as Hlt. rewrite lookup_app_l in Hy by done. congruence.
Qed.


Section watch.
Context (P T t0 : Z) (w : nat).

Definition by_tick (c : wcfg) : Z := T + P + update_interval c.
Definition by_timer (c : wcfg) : Z := Z.max (by_tick c + P) (t0 + w_grace c) + w_timeout c.

(** What there is to do, as in [busy] and [due_since]. *)
Definition busy_at (x : watch) (now : Z) : bool :=
  match wt_pc x with
  | WSelect => wt_chan x || wt_tick x || (match wt_fire x with Some f => f <=? now | None => false end) || (wt_next x <=? now)
  | WStart | WLook | WSeen _ _ | WReset _ _ | WForget => true
  | _ => false
  end.
Definition since_at (x : watch) (now : Z) : Z :=
  match wt_pc x with WSelect => Z.min now (Z.min (match wt_fire x with Some f => f | None => now end) (wt_next x)) | _ => now end.
Definition next_b (x : watch) (now : Z) (b : option Z) : option Z :=
  if busy_at x now then Some (match b with Some t => t | None => since_at x now end) else None.

Definition live_pc (p : wpc) : bool := match p with WStart | WLook | WSelect | WSeen _ _ | WReset _ _ | WForget => true | _ => false end.
Definition sees (p : wpc) : option Z := match p with WSeen _ n | WReset _ n => Some n | _ => None end.

(** The watch [x] at [now], with something to do since [b]. *)
Record kept (x : watch) (now : Z) (b : option Z) : Prop := Kept {
  kp_live : wt_cancelled x = false;
  kp_pc : live_pc (wt_pc x) = true;
  kp_b : if busy_at x now then is_Some b else b = None;
  kp_busy : forall t, b = Some t -> t <= now <= t + P;
  kp_look : wt_pc x = WLook -> wt_prev x = None;
  kp_next : wt_pc x <> WStart -> wt_next x <= now + update_interval (wt_cfg x);
  kp_wait : wt_pc x <> WStart -> b = None -> newer x <> None -> wt_next x <= by_tick (wt_cfg x);
  kp_new : forall t, wt_pc x <> WStart -> b = Some t -> newer x <> None \/ sees (wt_pc x) <> None -> t <= by_tick (wt_cfg x);
  kp_same : forall t n, b = Some t -> T < t -> sees (wt_pc x) = Some n -> wt_last x = Some n;
  kp_fire : forall f, wt_pc x <> WStart -> wt_fire x = Some f -> f <= by_timer (wt_cfg x);
  kp_timer : match wt_pc x with WLook | WSelect | WSeen true _ | WReset true _ => is_Some (wt_fire x) \/ wt_chan x = true | _ => True end;
  kp_due : forall t, wt_pc x <> WStart -> b = Some t -> t <= by_timer (wt_cfg x);
}.

Lemma idle_at x now : busy_at x now = false -> wt_pc x = WSelect ->
  wt_chan x = false /\ wt_tick x = false /\ (forall f, wt_fire x = Some f -> now < f) /\ now < wt_next x.
Proof.
  unfold busy_at. intros H Ep. rewrite Ep in H. rewrite !orb_false_iff in H. destruct H as [[[H1 H2] H3] H4]. apply Z.leb_gt in H4.
  split; [done|]. split; [done|]. split; [|done]. intros f Ef. rewrite Ef in H3. by apply Z.leb_gt in H3.
Qed.
Lemma idle_select x now : live_pc (wt_pc x) = true -> busy_at x now = false -> wt_pc x = WSelect.
Proof. unfold busy_at. by destruct (wt_pc x). Qed.
Lemma busy_mono x now now' : now <= now' -> busy_at x now = true -> busy_at x now' = true.
Proof.
  unfold busy_at. destruct (wt_pc x); try done. rewrite !orb_true_iff, !Z.leb_le. intros Hn [[[H|H]|H]|H]; auto; [|right; lia].
  left. right. destruct (wt_fire x); [|done]. apply Z.leb_le. apply Z.leb_le in H. lia.
Qed.

(** Time passes, or somebody else does something. *)
Lemma kept_time x now now' b : kept x now b -> now <= now' -> (forall t, next_b x now' b = Some t -> now' <= t + P) -> kept x now' (next_b x now' b).
Proof.
  intros [H1 H2 H3 H4 H5 H6 H7 H8 H9 H10 H11 H12] Hn Hp. unfold next_b in *.
  destruct (busy_at x now) eqn:Eb.
  - destruct H3 as [t ->]. pose proof (busy_mono _ _ _ Hn Eb) as Eb'. rewrite Eb' in *. specialize (Hp t eq_refl). destruct (H4 t eq_refl).
    split; try done; [by rewrite Eb'|intros u [= <-]; lia|intros Hs; specialize (H6 Hs); lia].
  - subst b. pose proof (idle_select _ _ H2 Eb) as Ep. destruct (idle_at _ _ Eb Ep) as (I1 & I2 & I3 & I4).
    assert (wt_pc x <> WStart) as Hns by (by rewrite Ep). rewrite Ep in H11. destruct H11 as [[f Ef]|?]; [|congruence].
    specialize (H6 Hns). specialize (H10 f Hns Ef).
    destruct (busy_at x now') eqn:Eb'.
    + specialize (Hp _ eq_refl). unfold since_at in *. rewrite Ep, Ef in *. split; try done.
      * by rewrite Ep.
      * by rewrite Eb'.
      * intros t [= <-]. split; [apply Z.le_min_l|lia].
      * by rewrite Ep.
      * lia.
      * intros t _ [= <-] [Hw|Hw]; [|by rewrite Ep in Hw]. specialize (H7 Hns eq_refl Hw). lia.
      * intros t n _ _. by rewrite Ep.
      * intros g _. by rewrite Ef; intros [= <-].
      * rewrite Ep. left. by rewrite Ef.
      * intros t _ [= <-]. lia.
    + split; try done; try (by rewrite Eb'); try lia; [intros g _; by rewrite Ef; intros [= <-]|]. rewrite Ep. left. by rewrite Ef.
Qed.

(** The watch goes back to its select with nothing new. *)
Lemma kept_select y now t : wt_cancelled y = false -> wt_pc y = WSelect -> t <= now <= t + P -> wt_next y <= now + update_interval (wt_cfg y) -> newer y = None ->
  (forall f, wt_fire y = Some f -> f <= by_timer (wt_cfg y)) -> is_Some (wt_fire y) \/ wt_chan y = true -> t <= by_timer (wt_cfg y) ->
  kept y now (next_b y now (Some t)).
Proof.
  intros G1 G2 G3 G4 G5 G6 G7 G8. unfold next_b. split; rewrite ?G2; try done.
  - destruct (busy_at y now); [by eexists|done].
  - intros u. destruct (busy_at y now); [|done]. by intros [= <-].
  - intros u _ _ [Hc|Hc]; done.
  - intros f _. by apply G6.
  - intros u _. destruct (busy_at y now); [|done]. by intros [= <-].
Qed.

(** A step of the watch. *)
Lemma kept_step s lb s' ev x y b : 0 <= P -> t0 <= T -> 0 < w_timeout (wt_cfg x) -> (* 0 < update_interval (wt_cfg x) *)
  d_watches s !! w = Some x -> label_of lb = Some w -> dstep s lb = Some (s', ev) -> d_watches s' !! w = Some y ->
  (lb = LWStart w -> d_now s = t0) -> (forall k, lb = LActStore w k -> d_now s <= T) -> lb <> LWCancel w -> lb <> LWForget w ->
  kept x (d_now s) b -> kept y (d_now s) (next_b y (d_now s) b).
Proof.
  intros HP Ht0 HT Hx Hl Hs Hy Hst Hact Hnc Hnf Hk.
  assert (update_interval (wt_cfg x) > 0) as HU. { unfold update_interval. destruct (Z.leb_spec (w_update (wt_cfg x)) 0); lia. }
  pose proof Hk as [H1 H2 H3 H4 H5 H6 H7 H8 H9 H10 H11 H12].
  assert (T <= by_tick (wt_cfg x)) as HA by (unfold by_tick; lia).
  assert (by_tick (wt_cfg x) + P + w_timeout (wt_cfg x) <= by_timer (wt_cfg x)) as HF by (unfold by_timer; lia).
  unfold dstep in Hs. destruct (d_crashed s); [done|].
  assert (forall z, d_watches (upd_watch w (fun _ => z) s) !! w = Some y -> y = z) as Hput.
  { intros z E. rewrite upd_lookup, decide_True, Hx in E by done. by injection E. }
  assert (next_b x (d_now s) b = b) as Hb.
  { unfold next_b. destruct (busy_at x (d_now s)); [by destruct H3 as [t ->]|done]. }
  assert (forall n, newer x = Some n -> wt_last x = Some n) as Hnl by (intros n; apply newer_last).
  destruct lb; try done; injection Hl as ->; rewrite Hx in Hs; unfold watch_step in Hs.
  - (* start *) destruct (wt_pc x) eqn:Ep; try done. injection Hs as <- <-. apply Hput in Hy. specialize (Hst eq_refl).
    unfold busy_at in H3. rewrite Ep in H3. destruct H3 as [t ->]. destruct (H4 t eq_refl) as [Ht1 Ht2].
    replace (0 <? w_timeout (wt_cfg x)) with true in Hy by (symmetry; by apply Z.ltb_lt).
    subst y. cbn. split; cbn; try done; try (by eexists); try (by left; eexists).
    + intros u _ [= <-] _. lia.
    + intros f _ [= <-]. unfold by_timer. lia.
    + intros u _ [= <-]. lia.
  - (* look *) destruct (wt_pc x) eqn:Ep; try done. injection Hs as <- <-. apply Hput in Hy.
    unfold busy_at in H3. rewrite Ep in H3. destruct H3 as [t ->]. destruct (H4 t eq_refl) as [Ht1 Ht2].
    assert (newer y = None) as Hny.
    { subst y. unfold newer. cbn. rewrite (H5 eq_refl). destruct (wt_last x) as [z|]; [|done]. by rewrite Z.ltb_irrefl. }
    assert (wt_cfg y = wt_cfg x) as Ec by (by subst y).
    apply kept_select; try (by subst y); rewrite ?Ec; try done.
    + subst y. cbn. by apply H6.
    + subst y. cbn. intros f. by apply H10.
    + by apply H12.
  - (* now *) assert (Hs' : Some (upd_watch w (fun _ => Watch (wt_cfg x) (wt_pc x) (wt_last x) (wt_pend x ++ [d_now s]) (wt_prev x) (wt_fire x) (wt_chan x) (wt_next x) (wt_tick x) (wt_cancelled x)) s, []) = Some (s', ev)) by (by destruct (wt_pc x)).
    injection Hs' as <- <-. apply Hput in Hy. subst y.
    change (next_b _ (d_now s) b) with (next_b x (d_now s) b). rewrite Hb. by split.
  - (* store *) specialize (Hact k eq_refl).
    assert (exists ts, y = Watch (wt_cfg x) (wt_pc x) (Some ts) (take k (wt_pend x) ++ drop (S k) (wt_pend x)) (wt_prev x) (wt_fire x) (wt_chan x) (wt_next x) (wt_tick x) (wt_cancelled x)) as [ts ->].
    { destruct (wt_pend x !! k) as [ts|]; [|by destruct (wt_pc x)]. exists ts. destruct (wt_pc x); injection Hs as <- <-; by apply Hput. }
    change (next_b _ (d_now s) b) with (next_b x (d_now s) b). rewrite Hb. split; cbn; try done.
    + intros Hns _ _. specialize (H6 Hns). unfold by_tick. lia.
    + intros t _ E _. destruct (H4 t E). lia.
    + intros t n E Hlt _. destruct (H4 t E). lia.
  - (* fire *) destruct (wt_fire x) as [f|] eqn:Ef; [|by destruct (wt_pc x)]. destruct (Z.leb_spec f (d_now s)) as [Hf|]; [|by destruct (wt_pc x)].
    assert (y = Watch (wt_cfg x) (wt_pc x) (wt_last x) (wt_pend x) (wt_prev x) None true (wt_next x) (wt_tick x) (wt_cancelled x)) as ->.
    { destruct (wt_pc x); injection Hs as <- <-; by apply Hput. }
    assert (busy_at x (d_now s) = true) as Eb.
    { unfold busy_at. destruct (wt_pc x); try done. rewrite Ef. apply Z.leb_le in Hf. rewrite Hf. by rewrite !orb_true_r. }
    rewrite Eb in H3. destruct H3 as [t ->]. 
    match goal with |- kept ?z _ _ => assert (busy_at z (d_now s) = true) as Eb2 end.
    { unfold busy_at in *. cbn. by destruct (wt_pc x). }
    unfold next_b. rewrite Eb2. split; try done; cbn; [by rewrite Eb2|]. destruct (wt_pc x) as [| | |[]|[]| | | | |]; auto.
  - (* tick *) assert (wt_next x <= d_now s /\ wt_pc x <> WStart /\ y = Watch (wt_cfg x) (wt_pc x) (wt_last x) (wt_pend x) (wt_prev x) (wt_fire x) (wt_chan x)
        (wt_next x + update_interval (wt_cfg x)) true (wt_cancelled x)) as (Hn & Hns & ->).
    { destruct (Z.leb_spec (wt_next x) (d_now s)); destruct (wt_pc x); try done; injection Hs as <- <-; (split; [done|]); (split; [done|]); by apply Hput. }
    assert (busy_at x (d_now s) = true) as Eb.
    { unfold busy_at. destruct (wt_pc x); try done. apply Z.leb_le in Hn. rewrite Hn. by rewrite !orb_true_r. }
    rewrite Eb in H3. destruct H3 as [t ->].
    match goal with |- kept ?z _ _ => assert (busy_at z (d_now s) = true) as Eb2 end.
    { unfold busy_at in *. cbn. destruct (wt_pc x); try done. by rewrite orb_true_r. }
    unfold next_b. rewrite Eb2. split; try done; cbn; [by rewrite Eb2|lia].
  - (* the timer *) destruct (wt_pc x) eqn:Ep; try done. destruct (wt_chan x) eqn:Ech; [|done].
    assert (busy_at x (d_now s) = true) as Eb by (unfold busy_at; by rewrite Ep, Ech).
    rewrite Eb in H3. destruct H3 as [t ->]. assert (WSelect <> WStart) as Hns by done. specialize (H6 Hns). pose proof (fun f => H10 f Hns) as H10'. pose proof (fun u => H12 u Hns) as H12'.
    destruct (newer x) as [n|] eqn:En; injection Hs as <- <-; apply Hput in Hy; subst y.
    + split; cbn; try done; try (intros _; exact H6); try (intros ? _; apply H10' || apply H12').
      * intros u _ E _. by apply (H8 u Hns E); left.
      * intros u m E Hlt [= <-]. by apply Hnl.
    + split; cbn; try done; try (intros _; exact H6); try (intros ? _; apply H10' || apply H12'). intros u _ E [Hc|Hc]; [|done]. exfalso. apply Hc. exact En.
  - (* the ticker *) destruct (wt_pc x) eqn:Ep; try done. destruct (wt_tick x) eqn:Eti; [|done].
    assert (busy_at x (d_now s) = true) as Eb by (unfold busy_at; rewrite Ep, Eti; by rewrite orb_true_r).
    rewrite Eb in H3. destruct H3 as [t ->]. assert (WSelect <> WStart) as Hns by done. specialize (H6 Hns). pose proof (fun f => H10 f Hns) as H10'. pose proof (fun u => H12 u Hns) as H12'.
    destruct (newer x) as [n|] eqn:En; injection Hs as <- <-; apply Hput in Hy; subst y.
    + split; cbn; try done; try (intros _; exact H6); try (intros ? _; apply H10' || apply H12').
      * intros u _ E _. by apply (H8 u Hns E); left.
      * intros u m E Hlt [= <-]. by apply Hnl.
    + apply kept_select; cbn; try done; [by apply H4|by apply H12'].
  - (* seen *) destruct (wt_pc x) as [| | |k n| | | | | |] eqn:Ep; try done. destruct (call_watches _ _ _ _ _ Hs) as (Hw & _ & _ & Hh).
    destruct (d_held s') as [[[c' k'] z']|] eqn:Eh; [by destruct (Hh _ _ _ eq_refl) as [_ ?]|].
    rewrite Hw, alter_lookup, decide_True, Hx in Hy by done. cbn in Hy. rewrite Ep in Hy. injection Hy as <-.
    unfold busy_at in H3. rewrite Ep in H3. destruct H3 as [t ->]. split; cbn; try done.
    + intros _. by apply H6.
    + intros u _ E _. apply (H8 u); [done|done|by right].
    + intros f _. by apply H10.
    + intros u _. by apply H12.
  - (* reset *) destruct (wt_pc x) as [| | | |k n| | | | |] eqn:Ep; try done.
    unfold busy_at in H3. rewrite Ep in H3. destruct H3 as [t ->]. destruct (H4 t eq_refl) as [Ht1 Ht2].
    assert (t <= by_tick (wt_cfg x)) as Hta by (apply H8; [done|done|by right]).
    replace (0 <? w_timeout (wt_cfg x)) with true in Hs by (symmetry; by apply Z.ltb_lt). rewrite orb_true_r in Hs.
    assert (exists ch, y = Watch (wt_cfg x) WSelect (wt_last x) (wt_pend x) (Some n) (Some (d_now s + w_timeout (wt_cfg x))) ch (wt_next x) (wt_tick x) (wt_cancelled x)) as [ch Ey].
    { destruct k; [|injection Hs as <- <-; eexists; by apply Hput].
      destruct (wt_fire x) eqn:Ef; [injection Hs as <- <-; eexists; by apply Hput|].
      destruct H11 as [[? ?]|Hc]; [done|]. rewrite Hc in Hs. injection Hs as <- <-. eexists. by apply Hput. }
    assert (wt_next x <= d_now s + update_interval (wt_cfg x)) as Hnx by (by apply H6).
    assert (T < t -> newer y = None) as Hny.
    { intros Hlt. subst y. unfold newer. cbn. rewrite (H9 t n eq_refl Hlt eq_refl). by rewrite Z.ltb_irrefl. }
    assert (wt_cfg y = wt_cfg x) as Ec by (by subst y). unfold next_b.
    split; rewrite ?Ec; try (by subst y).
    + destruct (busy_at y (d_now s)); [by eexists|done].
    + intros u. destruct (busy_at y (d_now s)); [|done]. intros [= <-]. lia.
    + intros _ _ Hc. assert (t <= T) by (destruct (Z.le_gt_cases t T); [done|by destruct Hc; apply Hny]). subst y. cbn. unfold by_tick in *. lia.
    + intros u _. destruct (busy_at y (d_now s)); [|done]. by intros [= <-] _.
    + intros f _. subst y. cbn. intros [= <-]. lia.
    + subst y. cbn. left. by eexists.
    + intros u _. destruct (busy_at y (d_now s)); [|done]. by intros [= <-]; apply H12.
  - by destruct Hnf.
  - by destruct Hnc.
  - (* context *) rewrite H1 in Hs. by destruct (wt_pc x).
  - (* end *) by destruct (wt_pc x).
Qed.

(** ** Runs *)

Definition forgot (evs : list dev) : Prop := exists id r, DOp (ByWatch w) (OForget id) r ∈ evs.

Definition silent_inv (s : dstate) (evs : list dev) (b : option Z) : Prop :=
  forgot evs \/ (d_watches s !! w = None /\ b = None) \/
  exists x, d_watches s !! w = Some x /\ (0 < w_timeout (wt_cfg x) -> kept x (d_now s) b).

Lemma busy_is s x : d_watches s !! w = Some x -> busy w s = busy_at x (d_now s) /\ due_since w s = since_at x (d_now s).
Proof. unfold busy, due_since. by intros ->. Qed.

Lemma silent_step s evs b lb s' ev : 0 <= P -> t0 <= T -> blocked_inv s -> silent_inv s evs b -> dstep s lb = Some (s', ev) ->
  (lb = LWStart w -> d_now s = t0) -> (forall k, lb = LActStore w k -> d_now s <= T) -> lb <> LWCancel w ->
  let b' := if busy w s' then Some (match b with Some t => t | None => due_since w s' end) else None in
  (match b' with Some t => d_now s' <= t + P | None => True end) -> silent_inv s' (evs ++ ev) b'.
Proof.
  intros HP Ht0 Hbl Hi Hs Hst Hact Hnc b' Hp.
  destruct (step_moves _ _ _ _ Hbl Hs) as (Hn & _ & Hm).
  destruct Hi as [Hf|[[Hno ->]|(x & Hx & Hk)]].
  - left. destruct Hf as (id & r & Hin). exists id, r. apply elem_of_app. by left.
  - destruct (d_watches s' !! w) as [y|] eqn:Hy.
    + right. right. exists y. split; [done|]. intros HT. destruct (busy_is s' y Hy) as [Eb Es]. unfold b' in *. rewrite Eb, Es in *.
      destruct (Hm _ _ Hy) as [Hx _|c _ _ -> _ _|x Hx _ _|x t n Hx _ _ _ _|x p Hx _ _ _ _]; try congruence.
      cbn in *. split; cbn; try done. intros t [= <-]. lia.
    + right. left. split; [done|]. unfold b', busy. by rewrite Hy.
  - assert (is_Some (d_watches s' !! w)) as [y Hy].
    { apply lookup_lt_is_Some. destruct (watches_length _ _ _ _ Hs) as [Hl _]. apply lookup_lt_Some in Hx. lia. }
    destruct (busy_is s' y Hy) as [Eb Es]. unfold b' in *. rewrite Eb, Es in *.
    destruct (cfg_step _ _ _ _ _ _ Hbl Hs Hx) as (y' & Hy' & Ec). assert (y' = y) as -> by congruence.
    destruct (decide (0 < w_timeout (wt_cfg x))) as [HT|HT]; [|right; right; exists y; split; [done|]; rewrite Ec; by intros].
    specialize (Hk HT).
    assert (lb = LWForget w \/ lb <> LWForget w) as [->|Hnf].
    { destruct lb; try (by right); match goal with |- context [LWForget ?v = _] => destruct (decide (v = w)) as [->|]; [by left|right; congruence] end. }
    { left. unfold dstep in Hs. destruct (d_crashed s); [done|]. rewrite Hx in Hs. unfold watch_step in Hs. destruct (wt_pc x); try done.
      destruct (call_called _ _ _ _ _ Hs) as [m r n _ _ _ Hc]. exists (w_id (wt_cfg x)), r. apply elem_of_app. right.
      destruct n as [[k z]|]; [destruct Hc as [(_ & _ & _ & ->)|(_ & _ & _ & ->)]|destruct Hc as (_ & _ & ->)]; left. }
    right. right. exists y. split; [done|]. intros _.
    destruct (decide (label_of lb = Some w)) as [Hl|Hl].
    + assert (d_now s' = d_now s) as En.
      { unfold dstep in Hs. destruct (d_crashed s); [done|]. destruct lb; try done; injection Hl as ->; rewrite Hx in Hs.
        all: destruct (watch_own _ _ _ _ _ _ Hs eq_refl) as [(z & _ & ->)|[(t & n & _ & _ & Hc)|(_ & _ & Hc)]]; try done; by destruct (call_watches _ _ _ _ _ Hc) as (_ & -> & _). }
      rewrite En in *. by apply (kept_step s lb s' ev x y b).
    + destruct (others _ _ _ _ _ _ _ Hbl Hs Hl Hx Hy) as [->|Hc]; [|exfalso; pose proof (kp_pc _ _ _ Hk) as Hlp; by rewrite Hc in Hlp].
      apply (kept_time x (d_now s)); [done|done|]. intros t E. unfold next_b in E. by rewrite E in Hp.
Qed.

Lemma silent_run ls s evs0 b s' evs : 0 <= P -> t0 <= T -> blocked_inv s -> silent_inv s evs0 b -> drun s ls = Some (s', evs) ->
  (forall s1 s2, transition dstep s ls s1 (LWStart w) s2 -> d_now s1 = t0) -> quiet_after T w s ls -> LWCancel w ∉ ls -> prompt P w b s ls ->
  exists b', silent_inv s' (evs0 ++ evs) b'.
Proof.
  intros HP Ht0. revert s evs0 b evs. induction ls as [|l ls IH]; intros s evs0 b evs Hb Hi Hr Hst Hq Hnc Hp.
  - injection Hr as <- <-. exists b. by rewrite app_nil_r.
  - cbn [run] in Hr. destruct (dstep s l) as [[s1 ev1]|] eqn:Es; [|done]. destruct (drun s1 ls) as [[s2 ev2]|] eqn:E2; [|done]. injection Hr as <- <-.
    cbn [prompt] in Hp. rewrite Es in Hp. destruct Hp as [Hp1 Hp2]. rewrite app_assoc.
    assert (forall u k v, transition dstep s1 ls u k v -> transition dstep s (l :: ls) u k v) as Htr.
    { intros u k v (l1 & l2 & e1 & e2 & -> & G1 & G2). exists (l :: l1), l2, (ev1 ++ e1), e2. split; [done|]. split; [|done]. cbn [run]. by rewrite Es, G1. }
    assert (transition dstep s (l :: ls) s l s1) as Hfirst by (by exists [], ls, [], ev1).
    eapply (IH s1 _ _ ev2) with (6 := fun H => Hnc (elem_of_list_further _ _ _ H)) (7 := Hp2); try done.
    + by destruct (step_moves _ _ _ _ Hb Es) as (_ & ? & _).
    + eapply silent_step; try done.
      * intros ->. by eapply Hst.
      * intros k ->. by eapply Hq.
      * intros ->. apply Hnc. left.
    + intros u v Hu. eapply Hst. by apply Htr.
    + intros u k v Hu. eapply Hq. by apply Htr.
Qed.
End watch.

Lemma silent_forgotten P T now ls s evs w y t0 : 0 <= P -> t0 <= T -> drun (d_init now) ls = Some (s, evs) -> d_watches s !! w = Some y -> 0 < w_timeout (wt_cfg y) ->
  DStart w t0 ∈ evs -> quiet_after T w (d_init now) ls -> prompt P w None (d_init now) ls -> LWCancel w ∉ ls ->
  Z.max (T + update_interval (wt_cfg y) + 2 * P) (t0 + w_grace (wt_cfg y)) + w_timeout (wt_cfg y) + P < d_now s ->
  exists r, DOp (ByWatch w) (OForget (w_id (wt_cfg y))) r ∈ evs.
Proof.
  intros HP Ht0 Hr Hy HT Hst Hq Hp Hnc Hlate.
  pose proof (watch_run _ _ _ _ Hr) as (_ & _ & Hwi). specialize (Hwi _ _ Hy).
  assert (starts w evs = [t0]) as Est.
  { assert (t0 ∈ starts w evs) as Hin.
    { apply elem_of_list_omap. exists (DStart w t0). split; [done|]. by rewrite bool_decide_eq_true_2. }
    assert (wt_pc y = WStart \/ wt_pc y <> WStart) as [E|E] by (destruct (wt_pc y); auto); [destruct (wi_start _ _ _ _ Hwi E) as (Es & _); rewrite Es in Hin; by apply elem_of_nil in Hin|].
    destruct (wi_started _ _ _ _ Hwi E) as (u & Eu & _). rewrite Eu in *. by apply elem_of_list_singleton in Hin as ->. }
  assert (forall s1 s2, transition dstep (d_init now) ls s1 (LWStart w) s2 -> d_now s1 = t0) as Hs0.
  { intros s1 s2 (l1 & l2 & e1 & e2 & -> & G1 & G2).
    assert (DStart w (d_now s1) ∈ evs) as Hin.
    { rewrite run_app, G1 in Hr. cbn [run] in Hr. rewrite G2 in Hr. destruct (drun s2 l2) as [[s3 e3]|]; [|done]. injection Hr as <- <-.
      apply elem_of_app. right. apply elem_of_app. left. unfold dstep in G2. destruct (d_crashed s1); [done|]. destruct (d_watches s1 !! w) as [x|]; [|done].
      unfold watch_step in G2. destruct (wt_pc x); try done. injection G2 as <- <-. left. }
    assert (d_now s1 ∈ starts w evs) as Hin2.
    { apply elem_of_list_omap. exists (DStart w (d_now s1)). split; [done|]. by rewrite bool_decide_eq_true_2. }
    rewrite Est in Hin2. by apply elem_of_list_singleton in Hin2. }
  destruct (silent_run P T t0 w ls (d_init now) [] None s evs HP Ht0) as (b & Hi); try done.
  { right. by left. }
  cbn [app] in Hi. destruct Hi as [(id & r & Hin)|[[Hno _]|(x & Hx & Hk)]]; [|congruence|].
  - apply elem_of_list_split in Hin as (a & c & E). pose proof (calls_run _ _ _ _ Hr _ _ _ _ _ E) as (y' & Hy' & -> & _).
    assert (y' = y) as -> by congruence. exists r. rewrite E. apply elem_of_app. right. left.
  - exfalso. assert (x = y) as -> by congruence. specialize (Hk HT).
    assert (wt_pc y <> WStart) as Hns. { intros E. destruct (wi_start _ _ _ _ Hwi E) as (Es & _). congruence. }
    assert (d_now s <= by_timer P T t0 (wt_cfg y) + P) as Hle; [|unfold by_timer, by_tick in Hle; lia].
    destruct b as [t|].
    + pose proof (kp_due _ _ _ _ _ _ Hk t Hns eq_refl). pose proof (kp_busy _ _ _ _ _ _ Hk t eq_refl). lia.
    + pose proof (kp_b _ _ _ _ _ _ Hk) as Hbb. destruct (busy_at y (d_now s)) eqn:Eb; [by destruct Hbb|].
      pose proof (idle_select _ _ (kp_pc _ _ _ _ _ _ Hk) Eb) as Ep. destruct (idle_at _ _ Eb Ep) as (I1 & _ & I3 & _).
      pose proof (kp_timer _ _ _ _ _ _ Hk) as Htm. rewrite Ep in Htm. destruct Htm as [[f Ef]|?]; [|congruence].
      pose proof (kp_fire _ _ _ _ _ _ Hk f Hns Ef). specialize (I3 f Ef). lia.
Qed.
