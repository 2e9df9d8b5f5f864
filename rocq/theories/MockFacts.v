(** Facts about the mock router. *)
From Coq Require Import ZArith NArith Ascii String Lia.
From stdpp Require Import base gmap strings list.
From Verif Require Import GoBase Run Mock.

Local Open Scope list_scope.

(** ** Specification *)

(** What was handed to receiver [r], and what its Next returned. *)
Definition puts (r : nat) (evs : list mev) : list nat := omap (fun e => match e with EvPut _ _ r' m => if r' =? r then Some m else None | _ => None end) evs.
Definition gots (r : nat) (evs : list mev) : list nat := omap (fun e => match e with EvGot r' m => if r' =? r then Some m else None | _ => None end) evs.

(** Between two messages the [i]th Send hands over, no other Send hands one
    over at that address. *)
Definition unbroken (i : nat) (ad : string) (evs : list mev) : Prop :=
  forall a1 ad1 r1 m1 a2, evs = a1 ++ EvPut i ad1 r1 m1 :: a2 -> forall j r2 m2, EvPut j ad r2 m2 ∈ a2 -> j = i.

(** What may happen after [a]. *)
Definition mlaw (a : list mev) (e : mev) : Prop :=
  match e with
  | EvPut i ad r m =>
      (exists n, EvSend i n ad m ∈ a) /\ EvSub r ad ∈ a /\ (forall ad' m', EvPut i ad' r m' ∉ a) /\ (forall ad' x, EvSent i ad' x ∉ a) /\ unbroken i ad a
  | EvSent i ad MOk =>
      (exists n m r, EvSend i n ad m ∈ a /\ EvSub r ad ∈ a /\ (EvPut i ad r m ∈ a \/ EvCloseR r ∈ a)) /\ forall a1 n m a2, a = a1 ++ EvSend i n ad m :: a2 -> forall r, EvSub r ad ∈ a1 -> EvPut i ad r m ∈ a \/ EvCloseR r ∈ a
  | EvSent i ad _ => forall ad' r m, EvPut i ad' r m ∉ a
  | _ => True
  end.

(** ** Tools *)
Definition meach (P : list mev -> mev -> Prop) (evs : list mev) : Prop := forall a e b, evs = a ++ e :: b -> P a e.
Lemma meach_nil P : meach P [].
Proof. intros a e b H. by destruct a. Qed.
Lemma split_snoc {A} (evs : list A) e a x b : evs ++ [e] = a ++ x :: b -> (b = [] /\ evs = a /\ e = x) \/ exists b', b = b' ++ [e] /\ evs = a ++ x :: b'.
Proof.
  intros E. destruct (decide (b = [])) as [->|Hb].
  - apply app_inj_tail in E as [-> ->]. by left.
  - destruct (exists_last Hb) as (b' & y & ->). replace (a ++ x :: b' ++ [y]) with ((a ++ x :: b') ++ [y]) in E by (by rewrite <-app_assoc).
    apply app_inj_tail in E as [E ->]. right. by exists b'.
Qed.
Lemma meach_snoc P evs e : meach P evs -> P evs e -> meach P (evs ++ [e]).
Proof. intros H HP a x b E. apply split_snoc in E as [(-> & -> & ->)|(b' & -> & E)]; [done|]. by apply (H a x b'). Qed.

Lemma puts_app r a b : puts r (a ++ b) = puts r a ++ puts r b.
Proof. apply omap_app. Qed.
Lemma gots_app r a b : gots r (a ++ b) = gots r a ++ gots r b.
Proof. apply omap_app. Qed.

(** ** The steps, by what they change *)
Inductive move (s : mst) (i : nat) (c : mcall) : mpc -> list mev -> Prop :=
| mv_go : k_pc c = SStart -> move s i c SLock []
| mv_refuse r : k_pc c = SStart -> r <> MOk -> move s i c (SDone r) [EvSent i (k_addr c) r]
| mv_give_up v : k_pc c = SWait v -> move s i c (SDone MCtx) [EvSent i (k_addr c) MCtx]
| mv_wake v : k_pc c = SWait v -> v <> t_ver (topic_of s (k_addr c)) -> move s i c SLock []
| mv_skip v b r rem x : k_pc c = SEach v b (r :: rem) -> m_rcv s !! r = Some x -> r_closed x = true -> move s i c (SEach v true rem) []
| mv_try v b r rem x : k_pc c = SEach v b (r :: rem) -> m_rcv s !! r = Some x -> r_closed x = false -> move s i c (SPut v r rem) [].

Inductive mt (s s2 : mst) (ev : list mev) : Prop :=
| mt_other : m_rcv s2 = m_rcv s -> m_top s2 = m_top s -> m_calls s2 = m_calls s -> ev = [] \/ (exists n, ev = [EvCloseS n]) \/ (exists r, ev = [EvNone r]) -> mt s s2 ev
| mt_new a k : 0 < k -> s2 = MSt (m_rcv s ++ [MRcv a k false false []]) (m_top s) (m_snd s) (m_calls s) -> ev = [] -> mt s s2 ev
| mt_sub r x : m_rcv s !! r = Some x -> r_sub x = false -> t_lock (topic_of s (r_addr x)) = false ->
    s2 = set_top (r_addr x) (Topic false (t_subs (topic_of s (r_addr x)) ++ [r]) (S (t_ver (topic_of s (r_addr x))))) (set_rcv r (MRcv (r_addr x) (r_cap x) true (r_closed x) (r_buf x)) s) ->
    ev = [EvSub r (r_addr x)] -> mt s s2 ev
| mt_send n a m : s2 = MSt (m_rcv s) (m_top s) (m_snd s) (m_calls s ++ [MCall n a m false SStart]) -> ev = [EvSend (length (m_calls s)) n a m] -> mt s s2 ev
| mt_ctx i c : m_calls s !! i = Some c -> s2 = MSt (m_rcv s) (m_top s) (m_snd s) (<[i := MCall (k_snd c) (k_addr c) (k_msg c) true (k_pc c)]> (m_calls s)) -> ev = [] -> mt s s2 ev
| mt_move i c p : m_calls s !! i = Some c -> move s i c p ev -> s2 = set_call i c p s -> mt s s2 ev
| mt_lock i c : m_calls s !! i = Some c -> k_pc c = SLock -> t_lock (topic_of s (k_addr c)) = false ->
    s2 = set_call i c (SEach (t_ver (topic_of s (k_addr c))) false (t_subs (topic_of s (k_addr c))))
           (set_top (k_addr c) (Topic true (t_subs (topic_of s (k_addr c))) (t_ver (topic_of s (k_addr c)))) s) -> ev = [] -> mt s s2 ev
| mt_unlock i c v b : m_calls s !! i = Some c -> k_pc c = SEach v b [] ->
    s2 = set_call i c (if b then SDone MOk else SWait v) (set_top (k_addr c) (Topic false (t_subs (topic_of s (k_addr c))) (t_ver (topic_of s (k_addr c)))) s) ->
    ev = (if b then [EvSent i (k_addr c) MOk] else []) -> mt s s2 ev
| mt_put i c v r rem x : m_calls s !! i = Some c -> k_pc c = SPut v r rem -> m_rcv s !! r = Some x -> length (r_buf x) < r_cap x ->
    s2 = set_call i c (SEach v true rem) (set_rcv r (MRcv (r_addr x) (r_cap x) (r_sub x) (r_closed x) (r_buf x ++ [k_msg c])) s) -> ev = [EvPut i (k_addr c) r (k_msg c)] -> mt s s2 ev
| mt_got r x m q : m_rcv s !! r = Some x -> r_sub x = true -> r_buf x = m :: q -> s2 = set_rcv r (MRcv (r_addr x) (r_cap x) true (r_closed x) q) s -> ev = [EvGot r m] -> mt s s2 ev
| mt_close r x : m_rcv s !! r = Some x -> r_sub x = true -> s2 = set_rcv r (MRcv (r_addr x) (r_cap x) true true (r_buf x)) s -> ev = [EvCloseR r] -> mt s s2 ev.

Lemma credit_pos c : 0 < credit c.
Proof. unfold credit. destruct (Z.leb_spec c 0); lia. Qed.
Lemma mstep_mt s lb s2 ev : mstep s lb = Some (s2, ev) -> mt s s2 ev.
Proof.
  destruct lb; cbn.
  - intros [= <- <-]. apply mt_other; [done..|by left].
  - intros [= <- <-]. eapply mt_new; [apply credit_pos|done|done].
  - destruct (m_rcv s !! r) as [x|] eqn:Er; [|done]. destruct (r_sub x) eqn:Es; [done|]. cbn. destruct (t_lock _) eqn:El; [done|]. intros [= <- <-]. by eapply mt_sub.
  - destruct (m_snd s !! s0) as [x|]; [|done]. intros [= <- <-]. by eapply mt_send.
  - destruct (m_calls s !! i) as [c|] eqn:Ec; [|done]. intros [= <- <-]. by eapply mt_ctx.
  - destruct (m_calls s !! i) as [c|] eqn:Ec; [|done]. unfold send_step. destruct (k_pc c) as [| |v b [|r rem]|v r rem|v|] eqn:Ep; [| | | | | |done].
    + destruct (m_snd s !! k_snd c) as [x|]; [|done]. destruct (s_closed x).
      { intros [= <- <-]. eapply mt_move; [done|by apply mv_refuse|done]. }
      destruct (k_ctx c); intros [= <- <-]; (eapply mt_move; [done| |done]); [by apply mv_refuse|by apply mv_go].
    + destruct (t_lock _) eqn:El; [done|]. intros [= <- <-]. by eapply mt_lock.
    + destruct b; intros [= <- <-]; by eapply mt_unlock.
    + destruct (m_rcv s !! r) as [x|] eqn:Er; [|done]. destruct (r_closed x) eqn:Ex; intros [= <- <-]; (eapply mt_move; [done| |done]); [by eapply mv_skip|by eapply mv_try].
    + destruct (m_rcv s !! r) as [x|] eqn:Er; [|done]. destruct (length (r_buf x) <? r_cap x) eqn:El; [|done]. apply Nat.ltb_lt in El. intros [= <- <-]. by eapply mt_put.
    + destruct (v =? _) eqn:Ev; [done|]. apply Nat.eqb_neq in Ev. intros [= <- <-]. eapply mt_move; [done|by eapply mv_wake|done].
  - destruct (m_calls s !! i) as [c|] eqn:Ec; [|done]. destruct (k_pc c) as [| |v b rem|v r rem|v|] eqn:Ep; try done.
    + destruct (k_ctx c); [|done]. intros [= <- <-]. eapply mt_move; [done|by eapply mv_refuse|done].
    + destruct (k_ctx c); [|done]. intros [= <- <-]. eapply mt_move; [done|by eapply mv_give_up|done].
  - destruct (m_rcv s !! r) as [x|] eqn:Er; [|done]. destruct (r_sub x) eqn:Es; [|done]. destruct ctx.
    + intros [= <- <-]. apply mt_other; [done..|right; right; eauto].
    + destruct (r_buf x) as [|m q] eqn:Eb; [done|]. intros [= <- <-]. by eapply mt_got.
  - destruct (m_rcv s !! r) as [x|] eqn:Er; [|done]. destruct (r_sub x && r_closed x) eqn:Es; [|done]. intros [= <- <-]. apply mt_other; [done..|right; right; eauto].
  - destruct (m_rcv s !! r) as [x|] eqn:Er; [|done]. destruct (r_sub x) eqn:Es; [|done]. intros [= <- <-]. by eapply mt_close.
  - destruct (m_snd s !! s0) as [x|]; [|done]. intros [= <- <-]. apply mt_other; [done..|right; left; eauto].
Qed.

(** ** Receivers *)
Record RInv (s : mst) (evs : list mev) : Prop := {
  ri_buf : forall r x, m_rcv s !! r = Some x -> puts r evs = gots r evs ++ r_buf x /\ length (r_buf x) <= r_cap x /\ 0 < r_cap x;
  ri_closed : forall r x, m_rcv s !! r = Some x -> (r_closed x = true <-> EvCloseR r ∈ evs);
  ri_sub : forall r x, m_rcv s !! r = Some x -> r_sub x = true -> EvSub r (r_addr x) ∈ evs;
  ri_none : forall r, m_rcv s !! r = None -> puts r evs = [] /\ gots r evs = [] /\ EvCloseR r ∉ evs;
  ri_subs : forall ad r, r ∈ t_subs (topic_of s ad) <-> EvSub r ad ∈ evs;
  ri_nodup : forall ad, NoDup (t_subs (topic_of s ad));
  ri_ver : forall ad, t_ver (topic_of s ad) = length (t_subs (topic_of s ad));
  ri_rcv : forall ad r, r ∈ t_subs (topic_of s ad) -> exists x, m_rcv s !! r = Some x /\ r_addr x = ad /\ r_sub x = true }.

Lemma topic_set s ad ad' t : topic_of (set_top ad t s) ad' = if decide (ad' = ad) then t else topic_of s ad'.
Proof. unfold topic_of, set_top. cbn. destruct (decide (ad' = ad)) as [->|]; [by rewrite lookup_insert|by rewrite lookup_insert_ne]. Qed.
Lemma topic_call s i c p ad : topic_of (set_call i c p s) ad = topic_of s ad.
Proof. done. Qed.
Lemma topic_rcv s r x ad : topic_of (set_rcv r x s) ad = topic_of s ad.
Proof. done. Qed.

(** Events that say nothing about receivers. *)
Definition quiet (e : mev) : bool := match e with EvPut _ _ _ _ | EvGot _ _ | EvCloseR _ | EvSub _ _ => false | _ => true end.
Lemma quiet_puts ev r : Forall (fun e => quiet e = true) ev -> puts r ev = [] /\ gots r ev = [] /\ (EvCloseR r ∉ ev) /\ forall ad, EvSub r ad ∉ ev.
Proof.
  induction 1 as [|e ev He _ (IH1 & IH2 & IH3 & IH4)]; [split_and!; [done|done|apply not_elem_of_nil|intros; apply not_elem_of_nil]|].
  unfold puts, gots in *. destruct e; try done; cbn; (split; [done|]; split; [done|]; split; [by intros [?|?]%elem_of_cons|by intros ? [?|H]%elem_of_cons; [|eapply IH4]]).
Qed.

(** Receivers and subscriptions are as before. *)
Lemma RInv_frame s evs s2 ev : RInv s evs -> m_rcv s2 = m_rcv s -> (forall ad, t_subs (topic_of s2 ad) = t_subs (topic_of s ad) /\ t_ver (topic_of s2 ad) = t_ver (topic_of s ad)) ->
  Forall (fun e => quiet e = true) ev -> RInv s2 (evs ++ ev).
Proof.
  intros [H1 H2 H3 H4 H5 H6 H7 H8] Er Et Hq. split.
  - intros r x Hx. rewrite Er in Hx. destruct (quiet_puts _ r Hq) as (E1 & E2 & _). rewrite puts_app, gots_app, E1, E2, !app_nil_r. by apply H1.
  - intros r x Hx. rewrite Er in Hx. destruct (quiet_puts _ r Hq) as (_ & _ & E3 & _). rewrite elem_of_app, (H2 r x Hx). tauto.
  - intros r x Hx Hs. rewrite Er in Hx. apply elem_of_app. left. by apply H3.
  - intros r Hx. rewrite Er in Hx. destruct (quiet_puts _ r Hq) as (E1 & E2 & E3 & _). rewrite puts_app, gots_app, E1, E2, !app_nil_r, elem_of_app. destruct (H4 r Hx) as (? & ? & ?). tauto.
  - intros ad r. destruct (Et ad) as [-> _]. destruct (quiet_puts _ r Hq) as (_ & _ & _ & E4). rewrite elem_of_app, H5. pose proof (E4 ad). tauto.
  - intros ad. destruct (Et ad) as [-> _]. done.
  - intros ad. destruct (Et ad) as [-> ->]. done.
  - intros ad r. destruct (Et ad) as [-> _]. rewrite Er. apply H8.
Qed.

(** One receiver changes. *)
Lemma RInv_one s evs s2 e r x y : RInv s evs -> m_rcv s !! r = Some x -> m_rcv s2 = <[r := y]> (m_rcv s) -> m_top s2 = m_top s -> r_addr y = r_addr x -> r_cap y = r_cap x ->
  r_sub y = r_sub x -> (forall ad r', e <> EvSub r' ad) -> (forall r', r' <> r -> puts r' [e] = [] /\ gots r' [e] = [] /\ e <> EvCloseR r') ->
  puts r (evs ++ [e]) = gots r (evs ++ [e]) ++ r_buf y -> length (r_buf y) <= r_cap x -> (r_closed y = true <-> EvCloseR r ∈ evs ++ [e]) -> RInv s2 (evs ++ [e]).
Proof.
  intros [H1 H2 H3 H4 H5 H6 H7 H8] Hx Er Et Ea Ec Es He Ho Hb Hl Hc.
  assert (Etop : forall ad, topic_of s2 ad = topic_of s ad) by (intros ad; unfold topic_of; by rewrite Et).
  assert (Hlen : r < length (m_rcv s)) by (by eapply lookup_lt_Some).
  assert (Hnot : forall ad r', EvSub r' ad ∈ evs ++ [e] <-> EvSub r' ad ∈ evs).
  { intros ad r'. rewrite elem_of_app, elem_of_list_singleton. pose proof (He ad r'). naive_solver. }
  assert (Hlook : forall r' x', m_rcv s2 !! r' = Some x' -> r' = r /\ x' = y \/ r' <> r /\ m_rcv s !! r' = Some x').
  { intros r' x' H. rewrite Er in H. apply list_lookup_insert_Some in H as [(? & ? & _)|[? ?]]; [by left|by right]. }
  split.
  - intros r' x' H. apply Hlook in H as [[-> ->]|[Hn H]]; [rewrite Ec; destruct (H1 r x Hx) as (_ & _ & ?); done|]. destruct (Ho r' Hn) as (E1 & E2 & _).
    rewrite puts_app, gots_app, E1, E2, !app_nil_r. by apply H1.
  - intros r' x' H. apply Hlook in H as [[-> ->]|[Hn H]]; [done|]. destruct (Ho r' Hn) as (_ & _ & E3). rewrite elem_of_app, elem_of_list_singleton, (H2 r' x' H). naive_solver.
  - intros r' x' H Hs. apply elem_of_app. left. apply Hlook in H as [[-> ->]|[Hn H]]; [rewrite Ea; apply H3; congruence|by apply H3].
  - intros r' H. rewrite Er in H. assert (r' <> r) as Hn. { intros ->. rewrite list_lookup_insert in H by done. done. } rewrite list_lookup_insert_ne in H by done.
    destruct (Ho r' Hn) as (E1 & E2 & E3). destruct (H4 r' H) as (? & ? & ?). rewrite puts_app, gots_app, E1, E2, !app_nil_r, elem_of_app, elem_of_list_singleton. naive_solver.
  - intros ad r'. rewrite Etop, Hnot. apply H5.
  - intros ad. rewrite Etop. apply H6.
  - intros ad. rewrite Etop. apply H7.
  - intros ad r' H. rewrite Etop in H. destruct (H8 _ _ H) as (x' & Hx' & Ha & Hs). rewrite Er. destruct (decide (r' = r)) as [->|Hn].
    + exists y. rewrite list_lookup_insert by done. rewrite Hx in Hx'. injection Hx' as <-. split; [done|]. split; congruence.
    + exists x'. by rewrite list_lookup_insert_ne by done.
Qed.

Lemma RInv_init : RInv m_init [].
Proof.
  split; cbn; try done.
  - intros r _. split; [done|]. split; [done|]. apply not_elem_of_nil.
  - intros ad r. unfold topic_of. cbn. by rewrite !elem_of_nil.
  - intros ad. unfold topic_of. cbn. constructor.
  - intros ad r H. unfold topic_of in H. cbn in H. by apply elem_of_nil in H.
Qed.

Lemma RInv_step s evs lb s2 ev : RInv s evs -> mstep s lb = Some (s2, ev) -> RInv s2 (evs ++ ev).
Proof.
  intros HI H.
  destruct (mstep_mt _ _ _ _ H) as [Er Et Ec He|a k Hk -> ->|r x Hr Hs Hl -> ->|n a m -> ->|i c Hc -> ->|i c p Hc Hm ->|i c Hc Hp Hl -> ->|i c v b Hc Hp -> ->|i c v r rem x Hc Hp Hr Hlen -> ->|r x m q Hr Hs Hb -> ->|r x Hr Hs -> ->].
  - eapply RInv_frame; [done|done| |].
    + intros ad. unfold topic_of. by rewrite Et.
    + destruct He as [->|[[n ->]|[r ->]]]; by repeat constructor.
  - rewrite app_nil_r. destruct HI as [H1 H2 H3 H4 H5 H6 H7 H8].
    assert (Hlook : forall r' x', (m_rcv s ++ [MRcv a k false false []]) !! r' = Some x' -> m_rcv s !! r' = Some x' \/ m_rcv s !! r' = None /\ x' = MRcv a k false false []).
    { intros r' x' Hx. apply lookup_app_Some in Hx as [Hx|[Hge Hx]]; [by left|]. right. split; [by apply lookup_ge_None|]. by apply list_lookup_singleton_Some in Hx as [_ ->]. }
    split; cbn; try done.
    + intros r' x' [Hx|[Hn ->]]%Hlook; [by apply H1|]. destruct (H4 r' Hn) as (-> & -> & _). cbn. split_and!; [done|lia|done].
    + intros r' x' [Hx|[Hn ->]]%Hlook; [by apply H2|]. destruct (H4 r' Hn) as (_ & _ & ?). done.
    + intros r' x' [Hx|[Hn ->]]%Hlook; [by apply H3|done].
    + intros r' Hx. apply lookup_ge_None in Hx. rewrite app_length in Hx. cbn in Hx. apply H4, lookup_ge_None. lia.
    + intros ad r' Hin. destruct (H8 _ _ Hin) as (x & Hx & ? & ?). exists x. split; [by apply lookup_app_l_Some|done].
  - destruct HI as [H1 H2 H3 H4 H5 H6 H7 H8]. assert (Hlen : r < length (m_rcv s)) by (by eapply lookup_lt_Some).
    set (y := MRcv (r_addr x) (r_cap x) true (r_closed x) (r_buf x)).
    assert (Hlook : forall r' x', <[r := y]> (m_rcv s) !! r' = Some x' -> r' = r /\ x' = y \/ r' <> r /\ m_rcv s !! r' = Some x').
    { intros r' x' Hx. apply list_lookup_insert_Some in Hx as [(? & ? & _)|[? ?]]; [by left|by right]. }
    assert (E1 : forall r', puts r' (evs ++ [EvSub r (r_addr x)]) = puts r' evs) by (intros; by rewrite puts_app, app_nil_r).
    assert (E2 : forall r', gots r' (evs ++ [EvSub r (r_addr x)]) = gots r' evs) by (intros; by rewrite gots_app, app_nil_r).
    assert (E3 : forall r', EvCloseR r' ∈ evs ++ [EvSub r (r_addr x)] <-> EvCloseR r' ∈ evs) by (intros; rewrite elem_of_app, elem_of_list_singleton; naive_solver).
    assert (Hfresh : forall ad, EvSub r ad ∉ evs). { intros ad Hin. apply H5, H8 in Hin as (x' & Hx' & _ & ?). congruence. }
    split; cbn [set_top m_rcv set_rcv].
    + intros r' x' [[-> ->]|[Hn Hx]]%Hlook; rewrite E1, E2; [by apply (H1 r x)|by apply H1].
    + intros r' x' [[-> ->]|[Hn Hx]]%Hlook; rewrite E3; [by apply (H2 r x)|by apply H2].
    + intros r' x' [[-> ->]|[Hn Hx]]%Hlook Hs'; apply elem_of_app; [right; left|left; by apply H3].
    + intros r' Hx. rewrite E1, E2, E3. assert (r' <> r). { intros ->. by rewrite list_lookup_insert in Hx. } rewrite list_lookup_insert_ne in Hx by done. by apply H4.
    + intros ad r'. rewrite topic_set. rewrite elem_of_app, elem_of_list_singleton, <-(H5 ad r'). destruct (decide (ad = r_addr x)) as [->|Hn]; cbn [t_subs].
      * rewrite elem_of_app, elem_of_list_singleton. naive_solver.
      * rewrite topic_rcv. naive_solver.
    + intros ad. rewrite topic_set. destruct (decide (ad = r_addr x)) as [->|Hn]; cbn [t_subs]; [|by rewrite topic_rcv].
      apply NoDup_app. split; [done|]. split; [|apply NoDup_singleton]. intros r' Hin [= ->]%elem_of_list_singleton. by apply (Hfresh (r_addr x)), H5.
    + intros ad. rewrite topic_set. destruct (decide (ad = r_addr x)) as [->|Hn]; cbn [t_subs t_ver]; [|by rewrite topic_rcv].
      rewrite app_length, H7. cbn. lia.
    + intros ad r'. rewrite topic_set. intros Hin. assert (Hcase : r' = r /\ ad = r_addr x \/ r' ∈ t_subs (topic_of s ad)).
      { destruct (decide (ad = r_addr x)) as [->|Hn]; cbn [t_subs] in Hin; [|by right]. apply elem_of_app in Hin as [?|?%elem_of_list_singleton]; [by right|by left]. }
      destruct Hcase as [[-> ->]|Hold]; [exists y; by rewrite list_lookup_insert|]. destruct (H8 _ _ Hold) as (x' & Hx' & ? & Hs'). assert (r' <> r) by congruence.
      exists x'. by rewrite list_lookup_insert_ne.
  - eapply RInv_frame; [done|done|done|by repeat constructor].
  - eapply RInv_frame; [done|done|done|by repeat constructor].
  - eapply RInv_frame; [done|done|done|]. destruct Hm; by repeat constructor.
  - eapply RInv_frame; [done|done| |by repeat constructor]. intros ad. rewrite topic_call, topic_set. by destruct (decide (ad = _)) as [->|].
  - eapply RInv_frame; [done|done| |by destruct b; repeat constructor]. intros ad. rewrite topic_call, topic_set. by destruct (decide (ad = _)) as [->|].
  - destruct (ri_buf _ _ HI r x Hr) as (Hb & _ & _). eapply (RInv_one _ _ _ _ r x (MRcv (r_addr x) (r_cap x) (r_sub x) (r_closed x) (r_buf x ++ [k_msg c])) HI Hr); cbn [set_call m_rcv set_rcv m_top r_addr r_cap r_sub r_closed r_buf]; try reflexivity; try done.
    + intros r' Hn. cbn. by destruct (Nat.eqb_spec r r').
    + rewrite puts_app, gots_app. cbn. rewrite Nat.eqb_refl, Hb, app_nil_r, app_assoc. done.
    + rewrite app_length. cbn. lia.
    + rewrite (ri_closed _ _ HI r x Hr), elem_of_app, elem_of_list_singleton. naive_solver.
  - destruct (ri_buf _ _ HI r x Hr) as (Hb2 & Hl & _). eapply (RInv_one _ _ _ _ r x (MRcv (r_addr x) (r_cap x) true (r_closed x) q) HI Hr); cbn [set_call m_rcv set_rcv m_top r_addr r_cap r_sub r_closed r_buf]; try reflexivity; try done.
    + intros r' Hn. cbn. by destruct (Nat.eqb_spec r r').
    + rewrite puts_app, gots_app. cbn. rewrite Nat.eqb_refl, Hb2, Hb, app_nil_r. cbn. by rewrite <-app_assoc.
    + rewrite Hb in Hl. cbn in Hl. lia.
    + rewrite (ri_closed _ _ HI r x Hr), elem_of_app, elem_of_list_singleton. naive_solver.
  - destruct (ri_buf _ _ HI r x Hr) as (Hb2 & Hl & _). eapply (RInv_one _ _ _ _ r x (MRcv (r_addr x) (r_cap x) true true (r_buf x)) HI Hr); cbn [set_call m_rcv set_rcv m_top r_addr r_cap r_sub r_closed r_buf]; try reflexivity; try done.
    + intros r' Hn. cbn. split; [done|]. split; [done|]. congruence.
    + by rewrite puts_app, gots_app, !app_nil_r.
    + rewrite elem_of_app, elem_of_list_singleton. naive_solver.
Qed.

Lemma rinv ls s evs : mrun m_init ls = Some (s, evs) -> RInv s evs.
Proof.
  intros Hr. change evs with ([] ++ evs). eapply (run_inv mstep RInv (fun _ => True) m_init []) with (4 := Hr); [exact RInv_init| |by apply Forall_true].
  intros. by eapply RInv_step.
Qed.
