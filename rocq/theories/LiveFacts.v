(** A source that goes on sending is not forgotten. *)
From Coq Require Import ZArith NArith Ascii String Lia.
From stdpp Require Import base gmap strings list sorting.
From Verif Require Import GoBase Encoding SpecEncoding Records Messages SpecMessages MessageFacts Run Keepalive KeepaliveFacts Discovery DiscoveryFacts WatchFacts Client Live.

Local Open Scope list_scope.

(** ** Specification *)

(** The times at which heartbeats were sent, or tried. *)
Definition beats (evs : list kev) : list Z := omap (fun x => match x with KStart t Hbt _ _ => Some t | _ => None end) evs.

(** A heartbeat that is due waits for [L] at most: the goroutine is not kept
    longer by a Send. *)
Definition lags (L : Z) (c : kcfg) (s0 : kstate) (ls : list klabel) : Prop :=
  forall s1 d s2 t, transition (kstep c) s0 ls s1 (LTime d) s2 -> k_tickers s1 = Some t -> t_full t.2 = true ->
    (k_now s1 + d <= t_next t.2 - heartbeat_interval c + L)%Z.

(** When the watch decides, it was told of each heartbeat that was sent more than
    [D] before, after it was sent. *)
Definition hears (D : Z) (w : nat) (bs : list Z) (evs : list dev) : Prop :=
  forall a t b, evs = a ++ DDecide w t :: b -> forall x, x ∈ bs -> (x + D < t)%Z -> exists ts, ts ∈ acts w a /\ (x <= ts)%Z.

(** ** Heartbeats *)

Definition beat_inv (c : kcfg) (L : Z) (s : kstate) (evs : list kev) : Prop :=
  match k_tickers s with
  | None => no_loop evs
  | Some t => exists t0 n, (0 <= n)%Z /\ (forall x, KLoop x ∈ evs -> x = t0) /\
      t_next t.2 = (t0 + (n + 1) * heartbeat_interval c)%Z /\ (t0 + n * heartbeat_interval c <= k_now s <= t_next t.2)%Z /\
      (forall j, (1 <= j <= n)%Z -> (j < n)%Z \/ t_full t.2 = false ->
         exists x, x ∈ beats evs /\ (t0 + j * heartbeat_interval c <= x <= t0 + j * heartbeat_interval c + L)%Z) /\
      (t_full t.2 = true -> (1 <= n)%Z /\ (k_now s <= t0 + n * heartbeat_interval c + L)%Z)
  end.

Lemma beats_app a b : beats (a ++ b) = beats a ++ beats b.
Proof. apply omap_app. Qed.

(** Nothing about the heartbeat ticker changes. *)
Lemma beat_keep c L s s' evs ev : beat_inv c L s evs -> k_now s' = k_now s -> snd <$> k_tickers s' = snd <$> k_tickers s ->
  Forall (fun x => is_loop x = false) ev -> beat_inv c L s' (evs ++ ev).
Proof.
  intros Hi E1 E2 Hev. assert (forall x, KLoop x ∉ ev) as Hn by (intros x Hin; by apply (proj1 (Forall_forall _ _) Hev) in Hin).
  unfold beat_inv in *. destruct (k_tickers s) as [t|], (k_tickers s') as [t'|]; try discriminate E2.
  - injection E2 as E2. rewrite E1, E2. destruct Hi as (t0 & n & H1 & H2 & H3 & H4 & H5 & H6). exists t0, n. split; [done|]. split.
    { intros x Hin. apply elem_of_app in Hin as [Hin|Hin]; [by apply H2|by apply Hn in Hin]. }
    split; [done|]. split; [done|]. split; [|done]. intros j Hj Hf. destruct (H5 j Hj Hf) as (x & Hx & Hb). exists x. split; [|done].
    rewrite beats_app. apply elem_of_app. by left.
  - apply Forall_app. by split.
Qed.

Lemma beat_step c L s evs l s' ev : (0 <= L < heartbeat_interval c)%Z -> pace_inv c False s evs -> beat_inv c L s evs ->
  (forall d t, l = LTime d -> k_tickers s = Some t -> t_full t.2 = true -> (k_now s + d <= t_next t.2 - heartbeat_interval c + L)%Z) ->
  kstep c s l = Some (s', ev) -> beat_inv c L s' (evs ++ ev).
Proof.
  intros HL Hp Hi Hlag Hs. pose proof (interval_pos c Hbt) as Hpos. cbn [interval] in Hpos.
  destruct l as [d|k| | |k| |o]; cbn [kstep] in Hs.
  - destruct (0 <? d)%Z eqn:Ed; [|done]. apply Z.ltb_lt in Ed. unfold beat_inv in *.
    destruct (k_tickers s) as [t|] eqn:Et.
    + destruct (_ && _) eqn:Eb in Hs; [|done]. rewrite !andb_true_iff, !Z.leb_le in Eb. destruct Eb as [_ [_ Eb2]]. injection Hs as <- <-.
      rewrite app_nil_r. cbn [k_tickers k_now]. destruct Hi as (t0 & n & H1 & H2 & H3 & H4 & H5 & H6). exists t0, n. do 3 (split; [done|]). split; [lia|]. split; [done|].
      intros Hf. destruct (H6 Hf) as [H7 _]. split; [done|]. specialize (Hlag d t eq_refl eq_refl Hf). lia.
    + injection Hs as <- <-. by rewrite app_nil_r.
  - destruct (k_tickers s) as [t|] eqn:Et; [|done]. destruct (_ =? _)%Z eqn:En; [|done]. apply Z.eqb_eq in En. injection Hs as <- <-. destruct k.
    + apply (beat_keep c L s); [done|done| |constructor]. cbn [k_set_ticker k_tickers]. by rewrite Et.
    + unfold beat_inv in *. cbn [k_set_ticker k_tickers]. rewrite Et in *. cbn [fmap option_fmap option_map set_ticker fst snd t_next t_full k_now k_set_ticker interval ticker_of] in *.
      destruct Hi as (t0 & n & H1 & H2 & H3 & H4 & H5 & H6). rewrite app_nil_r.
      assert (t_full t.2 = false) as Hf. { destruct (t_full t.2) eqn:Ef; [|done]. destruct (H6 eq_refl) as [_ H7]. lia. }
      exists t0, (n + 1)%Z. split; [lia|]. split; [done|]. split; [lia|]. split; [lia|]. split; [|intros _; lia].
      intros j Hj [Hlt|Hx]; [|discriminate Hx]. apply H5; [lia|by right].
  - injection Hs as <- <-. by apply (beat_keep c L s).
  - destruct (k_pc s); try done. unfold send_with_timeout in Hs. injection Hs as <- <-. apply (beat_keep c L s); [done|done|done|]. by repeat constructor.
  - destruct (k_pc s) eqn:Ep; try done. destruct (k_tickers s) as [t|] eqn:Et; [|done].
    destruct (t_full (ticker_of k t)) eqn:Ef; [|done]. unfold send_with_timeout in Hs. injection Hs as <- <-. destruct k.
    + apply (beat_keep c L s); [done|done| |by repeat constructor]. cbn [k_set_ticker k_set_pc k_tickers]. by rewrite Et.
    + unfold beat_inv in *. cbn [k_set_ticker k_set_pc k_tickers]. rewrite Et in *. cbn [fmap option_fmap option_map set_ticker fst snd t_next t_full k_now k_set_ticker k_set_pc ticker_of] in *.
      destruct Hi as (t0 & n & H1 & H2 & H3 & H4 & H5 & H6). destruct (H6 Ef) as [H7 H8]. exists t0, n. split; [done|]. split.
      { intros x Hin. apply elem_of_app in Hin as [Hin|Hin]; [by apply H2|]. apply elem_of_list_singleton in Hin. discriminate Hin. }
      split; [done|]. split; [done|]. split; [|intros Hx; discriminate Hx]. intros j Hj _. rewrite beats_app. change (beats [KStart (k_now s) Hbt _ _]) with [k_now s].
      destruct (decide (j = n)) as [->|Hne].
      * exists (k_now s). split; [apply elem_of_app; right; left|]. lia.
      * destruct (H5 j Hj) as (x & Hx & Hb); [left; lia|]. exists x. split; [apply elem_of_app; by left|done].
  - destruct (k_pc s); try done. destruct (k_cancelled s); [|done]. injection Hs as <- <-. apply (beat_keep c L s); [done|done|done|]. by repeat constructor.
  - destruct (k_pc s) as [|i k d cx| |] eqn:Ep; try done. destruct i.
    + assert (k_tickers s = None /\ no_loop evs) as [Et Hno].
      { unfold pace_inv in Hp. rewrite Ep in Hp. destruct (k_tickers s); [by destruct Hp as [[] _]|]. split; [done|apply Hp]. }
      destruct (decide (o = Sent)) as [->|Ho].
      * injection Hs as <- <-. unfold beat_inv. cbn [k_tickers k_now snd t_next t_full]. exists (k_now s), 0%Z. split; [lia|]. split.
        { intros x Hin. apply elem_of_app in Hin as [Hin|Hin]; [by apply (proj1 (Forall_forall _ _) Hno) in Hin|].
          apply elem_of_cons in Hin as [Hin|Hin]; [discriminate Hin|]. apply elem_of_list_singleton in Hin. by injection Hin. }
        split; [lia|]. split; [lia|]. split; [intros; lia|intros Hx; discriminate Hx].
      * assert (s' = k_set_pc KInitial s /\ ev = [KReturn k o]) as [-> ->] by (by destruct o; injection Hs as <- <-).
        apply (beat_keep c L s); [done|done|done|]. by repeat constructor.
    + assert (k_tickers s' = k_tickers s /\ k_now s' = k_now s /\ ev = [KReturn k o]) as (E2 & E3 & ->).
      { cbn [returned] in Hs. destruct k; [by injection Hs as <- <-|]. by destruct (_ && _ && _); injection Hs as <- <-. }
      apply (beat_keep c L s); [done|done|by rewrite E2|]. by repeat constructor.
Qed.

Lemma beat_run c L now ls s evs : (0 <= L < heartbeat_interval c)%Z -> lags L c (k_init now) ls -> krun c (k_init now) ls = Some (s, evs) -> beat_inv c L s evs.
Proof.
  intros HL Hlag Hr.
  assert (pace_inv c False s ([] ++ evs) /\ beat_inv c L s ([] ++ evs)) as [_ H]; [|exact H].
  apply (run_inv_rel (kstep c) (fun s evs => pace_inv c False s evs /\ beat_inv c L s evs) (k_init now) [] ls s evs) with (3 := Hr).
  - split; [split; [done|constructor]|constructor].
  - intros s1 evs1 l s2 ev [H1 H2] _ Ht Hs. split; [eapply pace_step; [exact H1|done|exact Hs]|].
    eapply beat_step; [exact HL|exact H1|exact H2| |exact Hs]. intros d t -> Et Hf. by eapply Hlag.
Qed.

(** In every stretch of an interval and a lag there is a heartbeat. *)
Lemma beat_window c L now ls s evs t0 x : (0 <= L < heartbeat_interval c)%Z -> lags L c (k_init now) ls -> krun c (k_init now) ls = Some (s, evs) ->
  KLoop t0 ∈ evs -> (t0 <= x)%Z -> (x + heartbeat_interval c + L < k_now s)%Z ->
  exists b, b ∈ beats evs /\ (x < b <= x + heartbeat_interval c + L)%Z.
Proof.
  intros HL Hlag Hr Hin Hx Hnow. pose proof (beat_run _ _ _ _ _ _ HL Hlag Hr) as Hi. unfold beat_inv in Hi.
  destruct (k_tickers s) as [t|]; [|by apply (proj1 (Forall_forall _ _) Hi) in Hin].
  destruct Hi as (t1 & n & H1 & H2 & H3 & H4 & H5 & H6). specialize (H2 _ Hin). subst t1.
  set (I := heartbeat_interval c) in *. set (j := ((x - t0) / I + 1)%Z).
  assert (0 < I)%Z as HI by lia.
  pose proof (Z.div_mod (x - t0) I ltac:(lia)) as Hdm. pose proof (Z.mod_pos_bound (x - t0) I HI) as Hmb.
  assert (x < t0 + j * I <= x + I)%Z as Hj by (unfold j; nia).
  assert (0 <= (x - t0) / I)%Z as Hq by (apply Z.div_pos; lia).
  assert (j <= n)%Z as Hjn. { destruct (Z.le_gt_cases j n) as [|Hgt]; [done|]. exfalso. assert (n + 1 <= j)%Z as Hge by lia. assert ((n + 1) * I <= j * I)%Z by nia. lia. }
  destruct (H5 j) as (b & Hb & Hbb); [unfold j; lia| |].
  - destruct (t_full t.2) eqn:Ef; [|by right]. left. destruct (H6 eq_refl) as [_ H7]. destruct (decide (j = n)) as [E|]; [|lia]. rewrite E in Hj. lia.
  - exists b. split; [done|]. lia.
Qed.

(** ** Watches *)

Lemma sorted_prefix (l1 l2 : list Z) : Sorted Z.le (l1 ++ l2) -> Sorted Z.le l1.
Proof.
  intros H. apply Sorted_StronglySorted in H; [|intros ? ? ?; lia]. apply StronglySorted_Sorted. induction l1 as [|x l1 IH]; [constructor|].
  cbn in H. apply StronglySorted_inv in H as [H1 H2]. constructor; [by apply IH|]. by apply Forall_app in H2 as [H2 _].
Qed.

Lemma alive c L D kn kls ks kevs t0 dn ls s evs w y a td b :
  krun c (k_init kn) kls = Some (ks, kevs) -> (0 <= L < heartbeat_interval c)%Z -> (0 <= D)%Z -> lags L c (k_init kn) kls -> KLoop t0 ∈ kevs ->
  drun (d_init dn) ls = Some (s, evs) -> d_watches s !! w = Some y -> Sorted Z.le (acts w evs) -> hears D w (beats kevs) evs ->
  (heartbeat_interval c + L + D < w_timeout (wt_cfg y))%Z ->
  (forall ts tl, starts w a = [ts] -> looks w a = [tl] -> tl + (heartbeat_interval c + L + D) < ts + (w_grace (wt_cfg y) + w_timeout (wt_cfg y)))%Z ->
  evs = a ++ DDecide w td :: b -> (td <= t0 + (heartbeat_interval c + L + D) \/ k_now ks + D < td)%Z.
Proof.
  intros Hk HL HD Hlag Hin Hd Hw Hso Hh HT Hfirst He.
  destruct (Z.le_gt_cases td (t0 + (heartbeat_interval c + L + D))) as [|Ht1]; [by left|].
  destruct (Z.le_gt_cases td (k_now ks + D)) as [Ht2|]; [|by right]. exfalso.
  assert (Sorted Z.le (acts w a)) as Hsa by (rewrite He, acts_app in Hso; by eapply sorted_prefix).
  destruct (decision dn ls s evs w y a td b Hd Hw He) as (ts & tl & Hst & Hlk & Hpos & Hm).
  set (floor := match last (resets w a) with None => tl | Some r => (td - w_timeout (wt_cfg y))%Z end).
  assert (forall z, z ∈ acts w a -> (z <= floor)%Z /\ True) as Hfl.
  { intros z Hz. split; [|done]. unfold floor. destruct (last (resets w a)) as [r|]; destruct Hm as [Hm1 Hm2]; pose proof (proj1 (Forall_forall _ _) (Hm2 Hsa) _ Hz) as Hzr; cbn in Hzr; lia. }
  assert (floor + (heartbeat_interval c + L + D) < td)%Z as Hf.
  { unfold floor. destruct (last (resets w a)) as [r|]; [lia|]. destruct Hm as [Hm1 _].
    specialize (Hfirst _ _ Hst Hlk). lia. }
  set (x := Z.max t0 floor).
  destruct (beat_window c L kn kls ks kevs t0 x HL Hlag Hk Hin) as (z & Hz & Hzb); [lia|lia|].
  destruct (Hh a td b He z Hz) as (zs & Hzs & Hle); [lia|]. destruct (Hfl _ Hzs) as [Hx _]. lia.
Qed.
