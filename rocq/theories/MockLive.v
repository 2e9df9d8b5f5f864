(** More about the mock router: closed senders, the size of receivers, and when
    Next returns. *)
From Coq Require Import ZArith NArith Ascii String Lia.
From stdpp Require Import base gmap strings list.
From Verif Require Import GoBase Run Mock MockFacts MockCalls MockOrder.

Local Open Scope list_scope.

(** ** Specification *)

(** The address and credit given with each call of NewReceiver, in order. *)
Definition receivers (ls : list mlabel) : list (string * Z) := omap (fun l => match l with MNewReceiver a c => Some (a, c) | _ => None end) ls.

(** ** Proof *)

(** Receivers keep the address and size they were made with. *)
Lemma shape_step s lb s2 ev : mstep s lb = Some (s2, ev) ->
  (fun x => (r_addr x, r_cap x)) <$> m_rcv s2 = ((fun x => (r_addr x, r_cap x)) <$> m_rcv s) ++ ((fun p => (p.1, credit p.2)) <$> receivers [lb]).
Proof.
  intros H. assert (forall r x y, m_rcv s !! r = Some x -> r_addr y = r_addr x -> r_cap y = r_cap x ->
      (fun x => (r_addr x, r_cap x)) <$> <[r := y]> (m_rcv s) = (fun x => (r_addr x, r_cap x)) <$> m_rcv s) as Hins.
  { intros r x y Hx H1 H2. rewrite list_fmap_insert. apply list_insert_id. by rewrite list_lookup_fmap, Hx, H1, H2. }
  destruct lb; cbn [receivers omap list_omap fmap list_fmap mstep] in *; rewrite ?app_nil_r.
  - by injection H as <- <-.
  - injection H as <- <-. cbn. by rewrite fmap_app.
  - destruct (m_rcv s !! r) as [x|] eqn:Er; [|done]. destruct (_ || _); [done|]. injection H as <- <-. by eapply Hins.
  - destruct (m_snd s !! s0); [|done]. by injection H as <- <-.
  - destruct (m_calls s !! i); [|done]. by injection H as <- <-.
  - destruct (m_calls s !! i) as [c|]; [|done]. unfold send_step in H. destruct (k_pc c) as [| |v b [|r rem]|v r rem|v|]; try done.
    + destruct (m_snd s !! _) as [x|]; [|done]. destruct (s_closed x); [by injection H as <- <-|]. destruct (k_ctx c); by injection H as <- <-.
    + destruct (t_lock _); [done|]. by injection H as <- <-.
    + destruct b; by injection H as <- <-.
    + destruct (m_rcv s !! r) as [x|]; [|done]. destruct (r_closed x); by injection H as <- <-.
    + destruct (m_rcv s !! r) as [x|] eqn:Er; [|done]. destruct (_ <? _); [|done]. injection H as <- <-. by eapply Hins.
    + destruct (_ =? _); [done|]. by injection H as <- <-.
  - destruct (m_calls s !! i) as [c|]; [|done]. destruct (k_pc c), (k_ctx c); try done; by injection H as <- <-.
  - destruct (m_rcv s !! r) as [x|] eqn:Er; [|done]. destruct (r_sub x); [|done]. destruct ctx; [by injection H as <- <-|].
    destruct (r_buf x); [done|]. injection H as <- <-. by eapply Hins.
  - destruct (m_rcv s !! r) as [x|]; [|done]. destruct (_ && _); [|done]. by injection H as <- <-.
  - destruct (m_rcv s !! r) as [x|] eqn:Er; [|done]. destruct (r_sub x); [|done]. injection H as <- <-. by eapply Hins.
  - destruct (m_snd s !! s0); [|done]. by injection H as <- <-.
Qed.

Lemma receivers_app a b : receivers (a ++ b) = receivers a ++ receivers b.
Proof. apply omap_app. Qed.

Lemma shape_run ls s evs : mrun m_init ls = Some (s, evs) ->
  (fun x => (r_addr x, r_cap x)) <$> m_rcv s = (fun p => (p.1, credit p.2)) <$> receivers ls.
Proof.
  revert s evs. induction ls as [|lb ls IH] using rev_ind; intros s evs Hr; [by injection Hr as <- <-|].
  apply run_snoc in Hr as (s1 & ev1 & ev2 & H1 & H2 & ->). by rewrite (shape_step _ _ _ _ H2), (IH _ _ H1), receivers_app, fmap_app.
Qed.

Lemma full_iff ls s evs r : mrun m_init ls = Some (s, evs) ->
  full s r <-> exists a c, receivers ls !! r = Some (a, c) /\ length (puts r evs) = length (gots r evs) + (if (c <=? 0)%Z then 256 else Z.to_nat c).
Proof.
  intros Hr. pose proof (shape_run _ _ _ Hr) as Hs. pose proof (rinv _ _ _ Hr) as HR.
  assert (forall x, m_rcv s !! r = Some x -> exists a c, receivers ls !! r = Some (a, c) /\ r_cap x = credit c) as Hx.
  { intros x Hx. pose proof (f_equal (lookup r) Hs) as E. rewrite !list_lookup_fmap, Hx in E. destruct (receivers ls !! r) as [[a c]|]; [|done].
    exists a, c. split; [done|]. by injection E. }
  split.
  - intros (x & Ex & Hl). destruct (Hx _ Ex) as (a & c & Hc & Hcap). exists a, c. split; [done|].
    destruct (ri_buf _ _ HR _ _ Ex) as (-> & _). by rewrite app_length, Hl, Hcap.
  - intros (a & c & Hc & Hl). destruct (m_rcv s !! r) as [x|] eqn:Ex.
    + destruct (Hx _ eq_refl) as (a' & c' & Hc' & Hcap). exists x. split; [done|]. destruct (ri_buf _ _ HR _ _ Ex) as (Hb & _).
      rewrite Hb, app_length in Hl. assert (c' = c) as -> by congruence. rewrite Hcap. unfold credit. lia.
    + pose proof (f_equal (lookup r) Hs) as E. by rewrite !list_lookup_fmap, Ex, Hc in E.
Qed.

(** A Send with a sender that was closed before. *)
Record shut (i n : nat) (ad : string) (s : mst) (evs : list mev) : Prop := {
  sh_snd : exists x, m_snd s !! n = Some x /\ s_closed x = true;
  sh_call : exists c, m_calls s !! i = Some c /\ k_snd c = n /\ k_addr c = ad /\
    (k_pc c = SStart \/ exists x, k_pc c = SDone x /\ EvSent i ad x ∈ evs);
  sh_evs : Forall (fun e => match e with EvPut j _ _ _ => j <> i | EvSent j _ x => j = i -> x <> MOk | _ => True end) evs }.

Lemma closed_stays s lb s2 ev n : mstep s lb = Some (s2, ev) -> (exists x, m_snd s !! n = Some x /\ s_closed x = true) -> exists x, m_snd s2 !! n = Some x /\ s_closed x = true.
Proof.
  intros H (x & Hx & Hc).
  destruct lb; cbn [mstep] in H.
  - injection H as <- <-. exists x. split; [by apply lookup_app_l_Some|done].
  - injection H as <- <-. by exists x.
  - destruct (m_rcv s !! r); [|done]. destruct (_ || _); [done|]. injection H as <- <-. by exists x.
  - destruct (m_snd s !! s0); [|done]. injection H as <- <-. by exists x.
  - destruct (m_calls s !! i); [|done]. injection H as <- <-. by exists x.
  - destruct (m_calls s !! i) as [c|]; [|done]. unfold send_step in H. destruct (k_pc c) as [| |v b [|r rem]|v r rem|v|]; try done;
      repeat case_match; try done; injection H as <- <-; by exists x.
  - destruct (m_calls s !! i) as [c|]; [|done]. destruct (k_pc c), (k_ctx c); try done; injection H as <- <-; by exists x.
  - destruct (m_rcv s !! r) as [y|]; [|done]. destruct (r_sub y); [|done]. destruct ctx; [|destruct (r_buf y); [done|]]; injection H as <- <-; by exists x.
  - destruct (m_rcv s !! r) as [y|]; [|done]. destruct (_ && _); [|done]. injection H as <- <-. by exists x.
  - destruct (m_rcv s !! r) as [y|]; [|done]. destruct (r_sub y); [|done]. injection H as <- <-. by exists x.
  - destruct (m_snd s !! s0) as [y|] eqn:Ey; [|done]. injection H as <- <-. cbn. destruct (decide (s0 = n)) as [->|Hn].
    + rewrite list_lookup_insert by (by eapply lookup_lt_Some). by eexists.
    + rewrite list_lookup_insert_ne by done. by exists x.
Qed.

Lemma closed_sender ls s evs n : mrun m_init ls = Some (s, evs) -> EvCloseS n ∈ evs -> exists x, m_snd s !! n = Some x /\ s_closed x = true.
Proof.
  revert s evs. induction ls as [|lb ls IH] using rev_ind; intros s evs Hr Hin; [injection Hr as <- <-; by apply elem_of_nil in Hin|].
  apply run_snoc in Hr as (s1 & ev1 & ev2 & H1 & H2 & ->). apply elem_of_app in Hin as [Hin|Hin]; [eapply closed_stays; [exact H2|by eapply IH]|].
  destruct (mstep_mt _ _ _ _ H2) as [Er Et Ec He|a k Hk -> ->|r x Hr Hs Hl -> ->|n0 a m -> ->|i c Hc -> ->|i c p Hc Hm ->|i c Hc Hp Hl -> ->|i c v b Hc Hp -> ->|i c v r rem x Hc Hp Hr Hlen -> ->|r x m q Hr Hs Hb -> ->|r x Hr Hs -> ->];
    try (by apply elem_of_nil in Hin); try (by apply elem_of_list_singleton in Hin).
  - destruct He as [->|[[n0 ->]|[r ->]]]; [by apply elem_of_nil in Hin| |by apply elem_of_list_singleton in Hin]. apply elem_of_list_singleton in Hin as [= <-].
    destruct lb; cbn [mstep] in H2; try (exfalso; unfold send_step in H2; repeat case_match; discriminate H2).
    destruct (m_snd s1 !! s0) as [x|] eqn:Ex; [|done]. injection H2 as <- ->. cbn. rewrite list_lookup_insert by (by eapply lookup_lt_Some). by eexists.
  - destruct Hm; try (by apply elem_of_nil in Hin); by apply elem_of_list_singleton in Hin.
  - destruct b; [by apply elem_of_list_singleton in Hin|by apply elem_of_nil in Hin].
Qed.

Lemma shut_step i n ad s evs lb s2 ev : shut i n ad s evs -> mstep s lb = Some (s2, ev) -> shut i n ad s2 (evs ++ ev).
Proof.
  intros [Hn (c & Hc & Hs & Ha & Hp) He] H.
  assert (Hrest : m_calls s2 !! i = Some c -> Forall (fun e => match e with EvPut j _ _ _ => j <> i | EvSent j _ x => j = i -> x <> MOk | _ => True end) ev -> shut i n ad s2 (evs ++ ev)).
  { intros H1 H2. split; [by eapply closed_stays| |by apply Forall_app].
    exists c. split; [done|]. split; [done|]. split; [done|]. destruct Hp as [Hp|(x & Hp & Hx)]; [by left|right]. exists x. split; [done|]. apply elem_of_app. by left. }
  destruct lb as [a|a cr|r|n0 m|i0|i0|i0|r ctx|r|r|n0]; cbn [mstep] in H.
  - injection H as <- <-. apply Hrest; [done|constructor].
  - injection H as <- <-. apply Hrest; [done|constructor].
  - destruct (m_rcv s !! r); [|done]. destruct (_ || _); [done|]. injection H as <- <-. apply Hrest; [done|by repeat constructor].
  - destruct (m_snd s !! n0); [|done]. injection H as <- <-. apply Hrest; [by apply lookup_app_l_Some|by repeat constructor].
  - destruct (m_calls s !! i0) as [c0|] eqn:Hc0; [|done]. injection H as <- <-. destruct (decide (i0 = i)) as [->|Hne].
    + assert (c0 = c) as -> by congruence. rewrite app_nil_r. split; [done| |done].
      cbn. rewrite list_lookup_insert by (by eapply lookup_lt_Some). eexists. split; [reflexivity|]. done.
    + apply Hrest; [cbn; by rewrite list_lookup_insert_ne|constructor].
  - destruct (m_calls s !! i0) as [c0|] eqn:Hc0; [|done]. destruct (decide (i0 = i)) as [->|Hne].
    + assert (c0 = c) as -> by congruence. unfold send_step in H. destruct Hp as [Hp|(x & Hp & Hx)]; rewrite Hp in H; [|done].
      pose proof Hn as (y & Hy & Hyc). rewrite Hs, Hy, Hyc in H. injection H as <- <-. split; [done| |].
      * cbn. rewrite list_lookup_insert by (by eapply lookup_lt_Some). eexists. split; [reflexivity|]. cbn. split; [done|]. split; [done|]. right. eexists. split; [done|].
        apply elem_of_app. right. rewrite Ha. left.
      * apply Forall_app. split; [done|by repeat constructor].
    + unfold send_step in H. destruct (k_pc c0) as [| |v b [|r rem]|v r rem|v|]; try done;
        repeat case_match; try done; injection H as <- <-; (apply Hrest; [cbn; by rewrite list_lookup_insert_ne|repeat constructor; congruence]).
  - destruct (m_calls s !! i0) as [c0|] eqn:Hc0; [|done]. destruct (decide (i0 = i)) as [->|Hne].
    + assert (c0 = c) as -> by congruence. destruct Hp as [Hp|(x & Hp & Hx)]; rewrite Hp in H; [|done]. destruct (k_ctx c); [|done]. injection H as <- <-. split; [done| |].
      * cbn. rewrite list_lookup_insert by (by eapply lookup_lt_Some). eexists. split; [reflexivity|]. cbn. split; [done|]. split; [done|]. right. eexists. split; [done|].
        apply elem_of_app. right. rewrite Ha. left.
      * apply Forall_app. split; [done|by repeat constructor].
    + destruct (k_pc c0), (k_ctx c0); try done; injection H as <- <-; (apply Hrest; [cbn; by rewrite list_lookup_insert_ne|repeat constructor; congruence]).
  - destruct (m_rcv s !! r) as [y|]; [|done]. destruct (r_sub y); [|done]. destruct ctx; [|destruct (r_buf y); [done|]]; injection H as <- <-; (apply Hrest; [done|by repeat constructor]).
  - destruct (m_rcv s !! r) as [y|]; [|done]. destruct (_ && _); [|done]. injection H as <- <-. apply Hrest; [done|by repeat constructor].
  - destruct (m_rcv s !! r) as [y|]; [|done]. destruct (r_sub y); [|done]. injection H as <- <-. apply Hrest; [done|by repeat constructor].
  - destruct (m_snd s !! n0); [|done]. injection H as <- <-. apply Hrest; [done|by repeat constructor].
Qed.

Lemma shut_run ls s a n m s1 i ad ls' s2 b : mrun m_init ls = Some (s, a) -> EvCloseS n ∈ a -> mstep s (MSend n m) = Some (s1, [EvSend i n ad m]) ->
  mrun s1 ls' = Some (s2, b) ->
  (forall ad' r m', EvPut i ad' r m' ∉ b) /\ (forall ad' x, EvSent i ad' x ∈ b -> x <> MOk) /\
  ((exists x, EvSent i ad x ∈ b) \/ exists s3, mstep s2 (MStep i) = Some (s3, [EvSent i ad MClosed])).
Proof.
  intros Hr Hin Hs Hr'. destruct (closed_sender _ _ _ _ Hr Hin) as (x & Hx & Hc).
  assert (shut i n ad s1 []) as H0.
  { cbn in Hs. rewrite Hx in Hs. injection Hs as <- <- <-. split; [by exists x| |constructor].
    cbn. rewrite lookup_app_r, Nat.sub_diag by done. eexists. split; [reflexivity|]. cbn. split; [done|]. split; [done|]. by left. }
  pose proof (run_inv mstep (shut i n ad) (fun _ => True) s1 [] ls' s2 b H0) as H. cbn in H.
  destruct H as [(y & Hy & Hyc) (c & Hcc & Hs2 & Ha & Hp) He]; [intros; by eapply shut_step|by apply Forall_true|done|].
  rewrite Forall_forall in He. split; [intros ad' r m' Hi; by apply (He _ Hi)|]. split; [intros ad' z Hi; by apply (He _ Hi)|].
  destruct Hp as [Hp|(z & Hp & Hz)]; [right|left; by exists z].
  cbn. rewrite Hcc. unfold send_step. rewrite Hp, Hs2, Hy, Hyc, Ha. by eexists.
Qed.
