(** Order, progress and blocking of the mock router. *)
From Coq Require Import ZArith NArith Ascii String Lia.
From stdpp Require Import base gmap strings list.
From Verif Require Import GoBase Run Mock MockFacts MockCalls.

Local Open Scope list_scope.

(** [x] happened before [y]. *)
Definition precedes {A} (x y : A) (l : list A) : Prop := exists p q, p < q /\ l !! p = Some x /\ l !! q = Some y.

Lemma lawful_mock ls s evs a e b : mrun m_init ls = Some (s, evs) -> evs = a ++ e :: b -> mlaw a e.
Proof. intros Hr. apply (ci_law _ _ (cinv _ _ _ Hr)). Qed.
Lemma lawful_at ls s evs q e : mrun m_init ls = Some (s, evs) -> evs !! q = Some e -> mlaw (take q evs) e.
Proof. intros Hr He. eapply lawful_mock; [done|]. symmetry. by apply take_drop_middle. Qed.

Lemma put_once ls s evs i ad ad' r m m' : mrun m_init ls = Some (s, evs) -> ~ precedes (EvPut i ad r m) (EvPut i ad' r m') evs.
Proof.
  intros Hr (p & q & Hlt & Hp & Hq). destruct (lawful_at _ _ _ _ _ Hr Hq) as (_ & _ & H & _). apply (H ad m). eapply elem_of_list_lookup_2. by rewrite lookup_take.
Qed.
Lemma put_place ls s evs i ad r m p q : mrun m_init ls = Some (s, evs) -> evs !! p = Some (EvPut i ad r m) -> evs !! q = Some (EvPut i ad r m) -> p = q.
Proof.
  intros Hr Hp Hq. destruct (lt_eq_lt_dec p q) as [[Hlt| ->]|Hlt]; [|done|]; exfalso; eapply (put_once _ _ _ i ad ad r m m Hr); [exists p, q|exists q, p]; done.
Qed.
Lemma not_between ls s evs i j ad ad1 r1 r2 r3 m1 m2 m3 p q t : mrun m_init ls = Some (s, evs) -> p < q -> q < t ->
  evs !! p = Some (EvPut i ad1 r1 m1) -> evs !! q = Some (EvPut j ad r2 m2) -> evs !! t = Some (EvPut i ad r3 m3) -> j = i.
Proof.
  intros Hr Hpq Hqt Hp Hq Ht. destruct (lawful_at _ _ _ _ _ Hr Ht) as (_ & _ & _ & _ & Hu).
  assert (Hp' : take t evs !! p = Some (EvPut i ad1 r1 m1)) by (by rewrite lookup_take by lia). assert (Hq' : take t evs !! q = Some (EvPut j ad r2 m2)) by (by rewrite lookup_take by lia).
  eapply (Hu (take p (take t evs)) ad1 r1 m1 (drop (S p) (take t evs))); [symmetry; by apply take_drop_middle|]. apply (elem_of_list_lookup_2 _ (q - S p)). rewrite lookup_drop. rewrite <-Hq'. f_equal; lia.
Qed.

Lemma put_sub ls s evs i ad r m : mrun m_init ls = Some (s, evs) -> EvPut i ad r m ∈ evs -> EvSub r ad ∈ evs.
Proof.
  intros Hr Hin. apply elem_of_list_split in Hin as (a & b & ->). destruct (lawful_mock _ _ _ _ _ _ Hr eq_refl) as (_ & Hsub & _). apply elem_of_app. by left.
Qed.
Lemma sub_addr ls s evs r ad ad' : mrun m_init ls = Some (s, evs) -> EvSub r ad ∈ evs -> EvSub r ad' ∈ evs -> ad' = ad.
Proof.
  intros Hr Hs Hs2. pose proof (ci_r _ _ (cinv _ _ _ Hr)) as HR.
  apply (ri_subs _ _ HR), (ri_rcv _ _ HR) in Hs as (x & Hx & <- & _). apply (ri_subs _ _ HR), (ri_rcv _ _ HR) in Hs2 as (y & Hy & <- & _). congruence.
Qed.
Lemma put_addr ls s evs k ad ad' x y m m' : mrun m_init ls = Some (s, evs) -> EvPut k ad x m ∈ evs -> EvPut k ad' y m' ∈ evs -> ad' = ad.
Proof.
  intros Hr Ha Hb. apply elem_of_list_split in Ha as (a & b & E1). apply elem_of_list_split in Hb as (a' & b' & E2).
  destruct (lawful_mock _ _ _ _ _ _ Hr E1) as ([n Hn] & _). destruct (lawful_mock _ _ _ _ _ _ Hr E2) as ([n' Hn'] & _).
  assert (EvSend k n ad m ∈ evs) as S1 by (rewrite E1; apply elem_of_app; by left). assert (EvSend k n' ad' m' ∈ evs) as S2 by (rewrite E2; apply elem_of_app; by left).
  pose proof (cinv _ _ _ Hr) as HC. destruct (m_calls s !! k) as [c|] eqn:Ec.
  - destruct (ci_call _ _ HC _ _ Ec) as (_ & Q & _). destruct (Q _ _ _ S1) as [-> _]. by destruct (Q _ _ _ S2) as [-> _].
  - destruct (ci_none _ _ HC _ Ec) as (_ & Q & _). by destruct (Q n ad m).
Qed.

(** Receivers agree on the order of messages. *)
Lemma same_order ls s evs i j r r' m1 m2 m3 m4 ad1 ad2 ad3 ad4 : mrun m_init ls = Some (s, evs) -> precedes (EvPut i ad1 r m1) (EvPut j ad2 r m2) evs ->
  ~ precedes (EvPut j ad3 r' m3) (EvPut i ad4 r' m4) evs.
Proof.
  intros Hr (p & q & Hpq & Hp & Hq) (p' & q' & Hpq' & Hp' & Hq'). pose proof (elem_of_list_lookup_2 _ _ _ Hp) as Ip. pose proof (elem_of_list_lookup_2 _ _ _ Hq) as Iq.
  pose proof (elem_of_list_lookup_2 _ _ _ Hp') as Ip'. pose proof (elem_of_list_lookup_2 _ _ _ Hq') as Iq'.
  assert (ad2 = ad1) as -> by (eapply (sub_addr _ _ _ r); [done|by eapply put_sub..]).
  assert (ad3 = ad1) as -> by (by eapply (put_addr _ _ _ j)). assert (ad4 = ad1) as -> by (by eapply (put_addr _ _ _ i)).
  destruct (decide (i = j)) as [->|Hne]; [eapply (put_once _ _ _ j ad1 ad1 r); [done|by exists p, q]|].
  destruct (lt_eq_lt_dec q q') as [[Hlt|Heq]|Hlt].
  - apply Hne. symmetry. by eapply (not_between _ _ _ i j ad1 ad1 r r r' m1 m2 m4 p q q').
  - subst q'. congruence.
  - apply Hne. by eapply (not_between _ _ _ j i ad1 ad1 r' r' r m3 m4 m2 p' q' q).
Qed.

(** ** Waiting for a subscriber *)
Lemma wait_wakes ls s evs i c v r : mrun m_init ls = Some (s, evs) -> m_calls s !! i = Some c -> k_pc c = SWait v -> EvSub r (k_addr c) ∈ evs ->
  exists s', mstep s (MStep i) = Some (s', []).
Proof.
  intros Hr Hc Hp Hs. pose proof (cinv _ _ _ Hr) as HC. destruct (ci_call _ _ HC _ _ Hc) as (_ & _ & _ & Hat). unfold at_pc in Hat. rewrite Hp in Hat. destruct Hat as [-> _].
  pose proof (ci_r _ _ HC) as HR. apply (ri_subs _ _ HR) in Hs. pose proof (ri_ver _ _ HR (k_addr c)) as Hv. eexists. cbn. rewrite Hc. unfold send_step. rewrite Hp.
  destruct (t_subs (topic_of s (k_addr c))) as [|x l] eqn:E; [by apply elem_of_nil in Hs|]. rewrite Hv. cbn. reflexivity.
Qed.

(** ** Progress *)
Definition full (s : mst) (r : nat) : Prop := exists x, m_rcv s !! r = Some x /\ length (r_buf x) = r_cap x.
Definition enabled (s : mst) (i : nat) : Prop := exists s' ev, mstep s (MStep i) = Some (s', ev).

Lemma snd_exists ls s evs i c : mrun m_init ls = Some (s, evs) -> m_calls s !! i = Some c -> k_snd c < length (m_snd s).
Proof.
  intros Hr. revert i c. change ((fun s (_ : list mev) => forall i c, m_calls s !! i = Some c -> k_snd c < length (m_snd s)) s ([] ++ evs)).
  eapply (run_inv mstep _ (fun _ => True) m_init []) with (4 := Hr); [done| |by apply Forall_true].
  clear. intros s evs lb s2 ev HI _ H.
  assert (Hset : forall s' k d p, m_calls s' = m_calls s -> m_snd s' = m_snd s -> m_calls s !! k = Some d -> forall i c, m_calls (set_call k d p s') !! i = Some c -> k_snd c < length (m_snd (set_call k d p s'))).
  { intros s' k d p Ec Es Hd i c Hi. cbn in *. rewrite Es. rewrite Ec in Hi. apply list_lookup_insert_Some in Hi as [(-> & <- & _)|[_ Hi]]; [by apply (HI _ _ Hd)|by apply (HI _ _ Hi)]. }
  destruct lb; cbn in H.
  - injection H as <- <-. intros i c Hi. cbn in *. rewrite app_length. specialize (HI _ _ Hi). lia.
  - injection H as <- <-. exact HI.
  - repeat (case_match; try discriminate H). injection H as <- <-. exact HI.
  - destruct (m_snd s !! s0) eqn:E; [|done]. injection H as <- <-. intros i c Hi. cbn in *. apply lookup_app_Some in Hi as [Hi|[_ Hi]]; [by eapply HI|].
    apply list_lookup_singleton_Some in Hi as [_ <-]. cbn. by eapply lookup_lt_Some.
  - destruct (m_calls s !! i) as [d|] eqn:E; [|done]. injection H as <- <-. intros k c Hk. cbn in *. apply list_lookup_insert_Some in Hk as [(-> & <- & _)|[_ Hk]]; [by apply (HI _ _ E)|by apply (HI _ _ Hk)].
  - destruct (m_calls s !! i) as [d|] eqn:E; [|done]. unfold send_step in H. repeat (case_match; try discriminate H); injection H as <- <-; by eapply Hset.
  - destruct (m_calls s !! i) as [d|] eqn:E; [|done]. repeat (case_match; try discriminate H); injection H as <- <-; by eapply Hset.
  - repeat (case_match; try discriminate H); injection H as <- <-; exact HI.
  - repeat (case_match; try discriminate H); injection H as <- <-; exact HI.
  - repeat (case_match; try discriminate H); injection H as <- <-; exact HI.
  - repeat (case_match; try discriminate H); injection H as <- <-. intros i c Hi. cbn in *. rewrite insert_length. by eapply HI.
Qed.

Lemma send_progress ls s evs i c : mrun m_init ls = Some (s, evs) -> m_calls s !! i = Some c -> (forall ad x, EvSent i ad x ∉ evs) ->
  enabled s i \/ (forall r, EvSub r (k_addr c) ∉ evs) \/
  exists j d, m_calls s !! j = Some d /\ k_addr d = k_addr c /\ (enabled s j \/ exists v r rem, k_pc d = SPut v r rem /\ full s r).
Proof.
  intros Hr Hc Hn. destruct (lookup_lt_is_Some_2 _ _ (snd_exists _ _ _ _ _ Hr Hc)) as [n Hsnd]. pose proof (cinv _ _ _ Hr) as HC. pose proof (ci_r _ _ HC) as HR.
  assert (Hhold : forall j d, m_calls s !! j = Some d -> holding (k_pc d) = true -> enabled s j \/ exists v r rem, k_pc d = SPut v r rem /\ full s r).
  { intros j d Hd Hh. destruct (ci_call _ _ HC _ _ Hd) as (_ & _ & _ & Hat). unfold at_pc in Hat. destruct (k_pc d) as [| |v b rem|v r rem| |] eqn:Ep; try done.
    - left. unfold enabled. cbn. rewrite Hd. unfold send_step. rewrite Ep. destruct rem as [|r rem]; [destruct b; by do 2 eexists|].
      destruct Hat as [_ (dn & (D1 & _) & _)]. destruct (ri_rcv _ _ HR (k_addr d) r) as (x & Hx & _); [rewrite D1; apply elem_of_app; right; left|]. rewrite Hx. destruct (r_closed x); by do 2 eexists.
    - destruct Hat as [_ (dn & (D1 & _))]. destruct (ri_rcv _ _ HR (k_addr d) r) as (x & Hx & _); [rewrite D1; apply elem_of_app; right; left|].
      destruct (ri_buf _ _ HR r x Hx) as (_ & Hl & _). destruct (decide (length (r_buf x) < r_cap x)) as [Hlt|Hge].
      + left. unfold enabled. cbn. rewrite Hd. unfold send_step. rewrite Ep, Hx. apply Nat.ltb_lt in Hlt. rewrite Hlt. by do 2 eexists.
      + right. exists v, r, rem. split; [done|]. exists x. split; [done|]. lia. }
  destruct (k_pc c) as [| |v b rem|v r rem|v|x] eqn:Ep.
  - left. unfold enabled. cbn. rewrite Hc. unfold send_step. rewrite Ep, Hsnd. destruct (s_closed n); [by do 2 eexists|]. destruct (k_ctx c); by do 2 eexists.
  - destruct (t_lock (topic_of s (k_addr c))) eqn:El.
    + right; right. destruct (ci_lock _ _ HC _ El) as (j & d & Hd & Ha & Hh). exists j, d. split; [done|]. split; [done|]. by apply Hhold.
    + left. unfold enabled. cbn. rewrite Hc. unfold send_step. rewrite Ep, El. by do 2 eexists.
  - right; right. exists i, c. split; [done|]. split; [done|]. apply Hhold; [done|by rewrite Ep].
  - right; right. exists i, c. split; [done|]. split; [done|]. apply Hhold; [done|by rewrite Ep].
  - destruct (t_subs (topic_of s (k_addr c))) as [|r l] eqn:E.
    + right; left. intros r Hin. apply (ri_subs _ _ HR) in Hin. rewrite E in Hin. by apply elem_of_nil in Hin.
    + left. destruct (wait_wakes _ _ _ _ _ _ r Hr Hc Ep) as [s' Hs']; [apply (ri_subs _ _ HR); rewrite E; left|]. by exists s', [].
  - destruct (ci_call _ _ HC _ _ Hc) as (_ & _ & _ & Hat). unfold at_pc in Hat. rewrite Ep in Hat. by destruct (Hn (k_addr c) x).
Qed.

(** ** A closed receiver is handed at most one more message *)
Definition going (r : nat) (s : mst) : Prop := exists i c v rem, m_calls s !! i = Some c /\ k_pc c = SPut v r rem.
Record ZInv (r : nat) (ev1 : list mev) (s : mst) (evs : list mev) : Prop := {
  zi_c : CInv s (ev1 ++ evs);
  zi_closed : exists x, m_rcv s !! r = Some x /\ r_closed x = true;
  zi_puts : puts r evs = [] \/ length (puts r evs) = 1 /\ ~ going r s }.

Lemma ZInv_step r ev1 s evs lb s2 ev : ZInv r ev1 s evs -> mstep s lb = Some (s2, ev) -> ZInv r ev1 s2 (evs ++ ev).
Proof.
  intros [HC (x0 & Hx0 & Hcl) HP] H. pose proof (CInv_step _ _ _ _ _ HC H) as HC2. rewrite <-app_assoc in HC2.
  assert (Hmain : (exists x, m_rcv s2 !! r = Some x /\ r_closed x = true) /\ (puts r ev = [] /\ (going r s2 -> going r s) \/ length (puts r ev) = 1 /\ going r s /\ ~ going r s2)).
  { assert (Hset : forall s i c p, m_calls s !! i = Some c -> (forall v rem, p <> SPut v r rem) -> going r (set_call i c p s) -> going r s).
    { intros s' i c p _ Hp (k & d & v & rem & Hk & Hd). cbn in Hk. apply list_lookup_insert_Some in Hk as [(-> & <- & _)|[? ?]]; [by destruct (Hp v rem)|]. by exists k, d, v, rem. }
    destruct (mstep_mt _ _ _ _ H) as [Er Et Ec He|a k Hk -> ->|r0 x Hr Hs Hl -> ->|n a m -> ->|i c Hc -> ->|i c p Hc Hm ->|i c Hc Hp Hl -> ->|i c v b Hc Hp -> ->|i c v r0 rem x Hc Hp Hr Hlen -> ->|r0 x m q Hr Hs Hb -> ->|r0 x Hr Hs -> ->].
    - split; [exists x0; by rewrite Er|]. left. split; [by destruct He as [->|[[? ->]|[? ->]]]|]. unfold going. by rewrite Ec.
    - split; [exists x0; split; [by apply lookup_app_l_Some|done]|]. by left.
    - split; [|by left]. cbn. destruct (decide (r0 = r)) as [->|]; [|exists x0; by rewrite list_lookup_insert_ne]. eexists. rewrite list_lookup_insert by (by eapply lookup_lt_Some). split; [done|]. cbn. congruence.
    - split; [by exists x0|]. left. split; [done|]. intros (k & d & v & rem & Hk & Hd). cbn in Hk. apply lookup_app_Some in Hk as [Hk|[_ Hk]]; [by exists k, d, v, rem|].
      apply list_lookup_singleton_Some in Hk as [_ <-]. done.
    - split; [by exists x0|]. left. split; [done|]. intros (k & d & v & rem & Hk & Hd). cbn in Hk. apply list_lookup_insert_Some in Hk as [(-> & <- & _)|[? ?]]; [by exists k, c, v, rem|by exists k, d, v, rem].
    - split; [by exists x0|]. left. split; [by destruct Hm|]. eapply Hset; [done|]. intros v' rem' ->. inversion Hm. congruence.
    - split; [by exists x0|]. left. split; [done|]. intros Hg. by apply (Hset (set_top _ _ s)) in Hg.
    - split; [by exists x0|]. left. split; [by destruct b|]. intros Hg. apply (Hset (set_top _ _ s)) in Hg; [done|done|by destruct b].
    - split. { cbn. destruct (decide (r0 = r)) as [->|]; [|exists x0; by rewrite list_lookup_insert_ne]. eexists. rewrite list_lookup_insert by (by eapply lookup_lt_Some). split; [done|]. cbn. congruence. }
      destruct (decide (r0 = r)) as [->|Hn].
      + right. cbn. rewrite Nat.eqb_refl. split; [done|]. split; [by exists i, c, v, rem|]. intros (k & d & v' & rem' & Hk & Hd). cbn in Hk.
        apply list_lookup_insert_Some in Hk as [(-> & <- & _)|[Hne Hk]]; [done|]. apply Hne.
        assert (Hsub : forall j e w rem0, m_calls s !! j = Some e -> k_pc e = SPut w r rem0 -> r ∈ t_subs (topic_of s (k_addr e))).
        { intros j e w rem0 Hj He. destruct (ci_call _ _ HC _ _ Hj) as (_ & _ & _ & Hat). unfold at_pc in Hat. rewrite He in Hat. destruct Hat as [_ (dn & (D1 & _))]. rewrite D1. apply elem_of_app. right. left. }
        apply (ci_one _ _ HC i k c d Hc Hk); [by rewrite Hp|by rewrite Hd|]. pose proof (ci_r _ _ HC) as HR.
        destruct (ri_rcv _ _ HR _ _ (Hsub _ _ _ _ Hc Hp)) as (y & Hy & <- & _). destruct (ri_rcv _ _ HR _ _ (Hsub _ _ _ _ Hk Hd)) as (z & Hz & <- & _). congruence.
      + left. cbn. destruct (Nat.eqb_spec r0 r); [done|]. split; [done|]. intros Hg. apply (Hset (set_rcv _ _ s)) in Hg; done.
    - split; [|by left]. cbn. destruct (decide (r0 = r)) as [->|]; [|exists x0; by rewrite list_lookup_insert_ne]. eexists. rewrite list_lookup_insert by (by eapply lookup_lt_Some). split; [done|]. cbn. congruence.
    - split; [|by left]. cbn. destruct (decide (r0 = r)) as [->|]; [|exists x0; by rewrite list_lookup_insert_ne]. eexists. rewrite list_lookup_insert by (by eapply lookup_lt_Some). split; [done|]. done. }
  destruct Hmain as [Hc HM]. split; [done|done|]. rewrite puts_app, app_length. destruct HP as [->|[Hl Hg]]; destruct HM as [[-> Hg2]|[Hl2 [Hg2 Hg3]]]; cbn.
  - by left.
  - right. by split.
  - right. split; [lia|]. tauto.
  - done.
Qed.

Lemma after_close ls s evs a r b : mrun m_init ls = Some (s, evs) -> evs = a ++ EvCloseR r :: b -> length (puts r b) <= 1.
Proof.
  revert s evs a b. induction ls as [|lb ls IH] using rev_ind; intros s evs a b Hr E.
  { cbn in Hr. injection Hr as <- <-. by destruct a. }
  cut (forall r s evs, mrun m_init (ls ++ [lb]) = Some (s, evs) -> forall a b, evs = a ++ EvCloseR r :: b -> exists a', ZInv r a' s b /\ evs = a' ++ b).
  { intros H. destruct (H r _ _ Hr _ _ E) as (a' & [_ _ HP] & _). destruct HP as [->|[-> _]]; cbn; lia. }
  clear. generalize (ls ++ [lb]) as l. clear. induction l as [|lb l IH] using rev_ind; intros r s evs Hr a b E.
  { cbn in Hr. injection Hr as <- <-. by destruct a. }
  apply run_snoc in Hr as (s1 & ev1 & ev2 & H1 & H2 & ->). symmetry in E. apply app_eq_inv in E as [(k & E1 & E2)|(k & E1 & E2)].
  - subst a. pose proof (CInv_step _ _ _ _ _ (cinv _ _ _ H1) H2) as HC. exists (ev1 ++ k ++ [EvCloseR r]). split; [|rewrite <-!app_assoc; cbn; by f_equal].
    assert (Hev : exists x, m_rcv s1 !! r = Some x /\ r_sub x = true /\ ev2 = [EvCloseR r] /\ s = set_rcv r (MRcv (r_addr x) (r_cap x) true true (r_buf x)) s1).
    { assert (Hin : EvCloseR r ∈ ev2) by (rewrite E2; apply elem_of_app; right; left).
      destruct (mstep_mt _ _ _ _ H2) as [Er Et Ec He|a0 k0 Hk -> ->|r0 x Hr Hs Hl -> ->|n a0 m -> ->|i c Hc -> ->|i c p Hc Hm ->|i c Hc Hp Hl -> ->|i c v b0 Hc Hp -> ->|i c v r0 rem x Hc Hp Hr Hlen -> ->|r0 x m q Hr Hs Hb -> ->|r0 x Hr Hs -> ->].
      11: { apply elem_of_list_singleton in Hin. injection Hin as ->. by exists x. }
      all: exfalso.
      - destruct He as [->|[[? ->]|[? ->]]]; [by apply elem_of_nil in Hin|by apply elem_of_list_singleton in Hin..].
      - by apply elem_of_nil in Hin.
      - by apply elem_of_list_singleton in Hin.
      - by apply elem_of_list_singleton in Hin.
      - by apply elem_of_nil in Hin.
      - destruct Hm; first [by apply elem_of_nil in Hin|by apply elem_of_list_singleton in Hin].
      - by apply elem_of_nil in Hin.
      - destruct b0; first [by apply elem_of_nil in Hin|by apply elem_of_list_singleton in Hin].
      - by apply elem_of_list_singleton in Hin.
      - by apply elem_of_list_singleton in Hin. }
    destruct Hev as (x & Hx & Hs & -> & ->). destruct k as [|? k]; [|by destruct k]. injection E2 as <-. split.
    + by rewrite <-app_assoc.
    + cbn. eexists. by rewrite list_lookup_insert by (by eapply lookup_lt_Some).
    + by left.
  - destruct k as [|k0 k].
    + rewrite app_nil_r in E1. subst ev1. cbn in E2. destruct ev2 as [|e0 [|e1 q]]; [done| |].
      * injection E2 as <- ->. pose proof (CInv_step _ _ _ _ _ (cinv _ _ _ H1) H2) as HC. exists (a ++ [EvCloseR r]). split; [|by rewrite ?app_nil_r].
        destruct (mstep_mt _ _ _ _ H2) as [Er Et Ec He|a0 k0 Hk -> Hv|r0 x Hr Hs Hl -> Hv|n a0 m -> Hv|i c Hc -> Hv|i c p Hc Hm ->|i c Hc Hp Hl -> Hv|i c v b0 Hc Hp -> Hv|i c v r0 rem x Hc Hp Hr Hlen -> Hv|r0 x m q Hr Hs Hb -> Hv|r0 x Hr Hs -> Hv]; try (discriminate Hv).
        -- by destruct He as [?|[[? ?]|[? ?]]].
        -- by inversion Hm.
        -- by destruct b0.
        -- injection Hv as <-. split; [by rewrite app_nil_r| |by left]. cbn. eexists. by rewrite list_lookup_insert by (by eapply lookup_lt_Some).
      * exfalso. destruct (mstep_mt _ _ _ _ H2) as [Er Et Ec He|a0 k0 Hk -> Hv|r0 x Hr Hs Hl -> Hv|n a0 m -> Hv|i c Hc -> Hv|i c p Hc Hm ->|i c Hc Hp Hl -> Hv|i c v b0 Hc Hp -> Hv|i c v r0 rem x Hc Hp Hr Hlen -> Hv|r0 x m q0 Hr Hs Hb -> Hv|r0 x Hr Hs -> Hv]; try (discriminate Hv).
        -- by destruct He as [?|[[? ?]|[? ?]]].
        -- by inversion Hm.
        -- by destruct b0.
    + injection E2 as <- ->. destruct (IH r _ _ H1 a k E1) as (a' & HZ & Ea). exists a'. split; [by eapply ZInv_step|]. rewrite Ea. by rewrite <-app_assoc.
Qed.

(** ** A full receiver blocks its address *)
Lemma got_label s lb s2 r m : mstep s lb = Some (s2, [EvGot r m]) -> lb = MNext r false.
Proof.
  intros H. destruct lb; cbn in H; try discriminate H; repeat (case_match; try discriminate H); try (by simplify_eq).
  unfold send_step in H. repeat (case_match; try discriminate H).
Qed.
Lemma blocked_step s evs lb s2 ev i c v r rem : CInv s evs -> m_calls s !! i = Some c -> k_pc c = SPut v r rem -> full s r -> lb <> MNext r false -> mstep s lb = Some (s2, ev) ->
  (exists c2, m_calls s2 !! i = Some c2 /\ k_pc c2 = SPut v r rem /\ k_addr c2 = k_addr c) /\ full s2 r /\
  Forall (fun e => match e with EvSent j _ _ => j <> i | EvPut _ ad _ _ | EvSub _ ad => ad <> k_addr c | _ => True end) ev.
Proof.
  intros HC Hc Hp (y & Hy & Hfull) Hlb H. pose proof (ci_held _ _ HC _ _ Hc ltac:(by rewrite Hp)) as Hlk.
  assert (Hown : forall k d, m_calls s !! k = Some d -> holding (k_pc d) = true -> k_addr d = k_addr c -> k = i).
  { intros k d Hk Hh Ha. apply (ci_one _ _ HC k i d c Hk Hc Hh); [by rewrite Hp|done]. }
  assert (Hset : forall s' k d p, m_calls s' = m_calls s -> k <> i -> exists c2, m_calls (set_call k d p s') !! i = Some c2 /\ k_pc c2 = SPut v r rem /\ k_addr c2 = k_addr c).
  { intros s' k d p E Hn. exists c. cbn. rewrite E, list_lookup_insert_ne by done. done. }
  assert (Hf : forall r0 x y0, m_rcv s !! r0 = Some x -> (r0 = r -> length (r_buf y0) = r_cap y0) -> full (set_rcv r0 y0 s) r).
  { intros r0 x y0 Hx Hl. unfold full. cbn. destruct (decide (r0 = r)) as [->|].
    - exists y0. rewrite list_lookup_insert by (by eapply lookup_lt_Some). by split; [|apply Hl].
    - exists y. by rewrite list_lookup_insert_ne. }
  destruct (mstep_mt _ _ _ _ H) as [Er Et Ec He|a k Hk -> ->|r0 x Hr Hs Hl -> ->|n a m -> ->|i0 d Hd -> ->|i0 d p Hd Hm ->|i0 d Hd Hdp Hl -> ->|i0 d v0 b Hd Hdp -> ->|i0 d v0 r0 rem0 x Hd Hdp Hr Hlen -> ->|r0 x m q Hr Hs Hb -> ->|r0 x Hr Hs -> ->].
  - split; [exists c; by rewrite Ec|]. split; [exists y; by rewrite Er|]. destruct He as [->|[[? ->]|[? ->]]]; by repeat constructor.
  - split; [by exists c|]. split; [|by constructor]. exists y. split; [by apply lookup_app_l_Some|done].
  - split; [by exists c|]. split; [|constructor; [congruence|done]]. apply (Hf r0 x _ Hr). intros ->. cbn. congruence.
  - split; [exists c; split; [by apply lookup_app_l_Some|done]|]. split; [by exists y|by repeat constructor].
  - split; [|split; [by exists y|by constructor]]. cbn. destruct (decide (i0 = i)) as [->|]; [|exists c; by rewrite list_lookup_insert_ne].
    rewrite Hc in Hd. injection Hd as <-. eexists. rewrite list_lookup_insert by (by eapply lookup_lt_Some). done.
  - assert (i0 <> i) as Hn. { intros ->. rewrite Hc in Hd. injection Hd as <-. inversion Hm; congruence. }
    split; [by apply Hset|]. split; [by exists y|]. destruct Hm; by repeat constructor.
  - assert (i0 <> i) as Hn. { intros ->. congruence. } split; [by apply (Hset (set_top _ _ s))|]. split; [by exists y|by constructor].
  - assert (i0 <> i) as Hn. { intros ->. congruence. } split; [by apply (Hset (set_top _ _ s))|]. split; [by exists y|]. destruct b; by repeat constructor.
  - assert (i0 <> i) as Hn. { intros ->. rewrite Hc in Hd. injection Hd as <-. rewrite Hp in Hdp. injection Hdp as <- <- <-. assert (x = y) as -> by congruence. lia. }
    assert (k_addr d <> k_addr c) as Ha. { intros Ha. apply Hn, (Hown _ d); [done|by rewrite Hdp|done]. }
    assert (r0 <> r) as Hrr.
    { intros ->. apply Ha. pose proof (ci_r _ _ HC) as HR.
      destruct (ci_call _ _ HC _ _ Hc) as (_ & _ & _ & A1). unfold at_pc in A1. rewrite Hp in A1. destruct A1 as [_ (dn1 & (D1 & _))].
      destruct (ci_call _ _ HC _ _ Hd) as (_ & _ & _ & A2). unfold at_pc in A2. rewrite Hdp in A2. destruct A2 as [_ (dn2 & (D2 & _))].
      destruct (ri_rcv _ _ HR (k_addr c) r) as (x1 & ? & <- & _); [rewrite D1; apply elem_of_app; right; left|].
      destruct (ri_rcv _ _ HR (k_addr d) r) as (x2 & ? & <- & _); [rewrite D2; apply elem_of_app; right; left|]. congruence. }
    split; [by apply (Hset (set_rcv _ _ s))|]. split; [|by repeat constructor]. apply (Hf r0 x _ Hr). done.
  - split; [by exists c|]. split; [|by repeat constructor]. apply (Hf r0 x _ Hr). intros ->. exfalso.
    apply Hlb. by eapply (got_label _ _ _ r m).
  - split; [by exists c|]. split; [|by repeat constructor]. apply (Hf r0 x _ Hr). intros ->. cbn. congruence.
Qed.

Lemma blocked_address ls s evs ls' s2 ev i c v r rem : mrun m_init ls = Some (s, evs) -> m_calls s !! i = Some c -> k_pc c = SPut v r rem -> full s r ->
  MNext r false ∉ ls' -> mrun s ls' = Some (s2, ev) ->
  Forall (fun e => match e with EvSent j _ _ => j <> i | EvPut _ ad _ _ | EvSub _ ad => ad <> k_addr c | _ => True end) ev.
Proof.
  intros Hr Hc Hp Hf Hn Hr2.
  cut (CInv s2 (evs ++ ev) /\ (exists c2, m_calls s2 !! i = Some c2 /\ k_pc c2 = SPut v r rem /\ k_addr c2 = k_addr c) /\ full s2 r /\
    Forall (fun e => match e with EvSent j _ _ => j <> i | EvPut _ ad _ _ | EvSub _ ad => ad <> k_addr c | _ => True end) ([] ++ ev)); [by intros (_ & _ & _ & ?)|].
  eapply (run_inv_rel mstep (fun s2 ev => CInv s2 (evs ++ ev) /\ (exists c2, m_calls s2 !! i = Some c2 /\ k_pc c2 = SPut v r rem /\ k_addr c2 = k_addr c) /\ full s2 r /\
    Forall (fun e => match e with EvSent j _ _ => j <> i | EvPut _ ad _ _ | EvSub _ ad => ad <> k_addr c | _ => True end) ev) s []) with (3 := Hr2).
  - rewrite app_nil_r. split; [by eapply cinv|]. split; [by exists c|]. by split.
  - intros s1 evs1 lb s3 ev3 (HC & (c2 & Hc2 & Hp2 & Ha2) & Hf2 & HF) Hin _ H. rewrite app_assoc. split; [by eapply CInv_step|].
    destruct (blocked_step _ _ lb _ _ _ _ _ _ _ HC Hc2 Hp2 Hf2 (fun E => Hn (eq_ind lb (fun x => x ∈ ls') Hin _ E)) H) as (Q1 & Q2 & Q3). rewrite Ha2 in *. split; [done|]. split; [done|]. by apply Forall_app.
Qed.
