(** A session that failed is replaced: facts for C97. *)
From Coq Require Import ZArith NArith Ascii String Lia.
From stdpp Require Import base gmap strings list.
From Verif Require Import GoBase Run Session SessionFacts SessionCont SessionLink SessionSerial SessionEnd SessionAlone.

Local Open Scope list_scope.

(** ** Specification *)

(** The container's own steps, with connecting succeeding and the back-off
    strategy not giving up. *)
Definition healing (lb : clabel) : Prop :=
  match lb with
  | LDial (Dialed _) | LPublish | LTear | LTakeErr | LBackoff true | LNotified | LPauseEnd => True
  | _ => False
  end.
(** The container was started; its context has not ended; its strategy never
    gave up; no error handler called back. *)
Definition in_service (ls : list clabel) : Prop :=
  LStart ∈ ls /\ (forall c, LCCancel c ∉ ls) /\ LBackoff false ∉ ls /\ LHandlerCalls ∉ ls.

(** ** Reports are not lost *)

Lemma run_labels (I : list clabel -> cstate -> list cev -> Prop) s0 : I [] s0 [] ->
  (forall ls s evs l s2 ev, srun s0 ls = Some (s, evs) -> I ls s evs -> sstep s l = Some (s2, ev) -> I (ls ++ [l]) s2 (evs ++ ev)) ->
  forall ls s evs, srun s0 ls = Some (s, evs) -> I ls s evs.
Proof.
  intros H0 Hs ls. induction ls as [|l ls IH] using rev_ind; intros s evs Hr; [by injection Hr as <- <-|].
  apply run_snoc in Hr as (s1 & ev1 & ev2 & H1 & H2 & ->). eapply Hs; [exact H1|by apply IH|exact H2].
Qed.

Lemma run_join s l1 s1 e1 l2 s2 e2 : srun s l1 = Some (s1, e1) -> srun s1 l2 = Some (s2, e2) -> srun s (l1 ++ l2) = Some (s2, e1 ++ e2).
Proof. intros H1 H2. by rewrite run_app, H1, H2. Qed.

Lemma run_one s lb s1 e1 l2 s2 e2 : sstep s lb = Some (s1, e1) -> srun s1 l2 = Some (s2, e2) -> srun s (lb :: l2) = Some (s2, e1 ++ e2).
Proof. intros H1 H2. cbn [run]. by rewrite H1, H2. Qed.

Definition queued (s : cstate) (evs : list cev) : Prop :=
  (forall i l g, EvReport i l g ∈ evs -> g <= c_gen s) /\
  (busy (c_pc s) = true -> forall i l, EvReport i l (c_gen s) ∈ evs -> c_gen s ∈ c_errs s).

Lemma queued_frame s s2 evs ev : queued s evs -> c_gen s2 = c_gen s -> c_pc s2 = c_pc s -> c_errs s2 = c_errs s -> (forall i l g, EvReport i l g ∉ ev) -> queued s2 (evs ++ ev).
Proof.
  intros [H1 H2] E1 E2 E3 Hn. split; rewrite ?E1, ?E2, ?E3.
  - intros i l g Hin. apply elem_of_app in Hin as [Hin|Hin]; [by eapply H1|by apply Hn in Hin].
  - intros Hb i l Hin. apply elem_of_app in Hin as [Hin|Hin]; [by eapply H2|by apply Hn in Hin].
Qed.

Lemma queued_step s evs lb s2 ev : GInv s evs -> queued s evs -> sstep s lb = Some (s2, ev) -> queued s2 (evs ++ ev).
Proof.
  intros HG HQ H. destruct (sstep_sc _ _ _ _ (gi_linked _ _ HG) H) as [Hc _].
  destruct Hc as [c Hb1 Hb2 -> ->|Hb1 Hb2 -> ->|j0 k l Hb1 Hl -> ->|i0 o0 c Hb1 Ho Hx -> ->|i0 Hb1 Ho|Hc Hb1].
  - apply (queued_frame s); try done. intros ? ? ?. by rewrite elem_of_list_singleton.
  - apply (queued_frame s); try done. intros ? ? ?. by rewrite elem_of_list_singleton.
  - apply (queued_frame s); try done. intros ? ? ?. by rewrite elem_of_list_singleton.
  - apply (queued_frame s); try done. intros ? ? ?. by apply not_elem_of_nil.
  - destruct Ho as [o l|o l p l' er ok ev' Ho Hl Ht].
    + apply (queued_frame s); try done. intros ? ? ?. by rewrite elem_of_list_singleton.
    + destruct Ht as [| | | | | | | | | | | | | | | | | | | | |g e Hp Hlen| | |]; try (apply (queued_frame s); try done; intros ? ? ?; rewrite ?elem_of_list_singleton; by try apply not_elem_of_nil).
      destruct HQ as [H1 H2]. pose proof (gi_op _ _ HG _ _ Ho) as Hop. unfold op_ok in Hop. rewrite Hp in Hop. split; cbn.
      * intros i l1 g1 Hin. apply elem_of_app in Hin as [Hin|Hin]; [by eapply H1|]. apply elem_of_list_singleton in Hin as [= _ _ ->]. done.
      * intros Hb i l1 Hin. apply elem_of_app. apply elem_of_app in Hin as [Hin|Hin]; [left; by eapply H2|].
        apply elem_of_list_singleton in Hin as [= _ _ ->]. right. left.
  - pose proof (gi_local _ _ HG) as Hlo. destruct HQ as [H1 H2].
    unfold cont_step in Hc. destruct lb, (c_pc s) eqn:Ep; try discriminate Hc; open_step Hc; injection Hc as <- <-.
    all: try (split; cbn; [intros i l g Hin; apply elem_of_app in Hin as [Hin|Hin]; [by eapply H1|]; repeat (apply elem_of_cons in Hin as [Hin|Hin]; [discriminate Hin|]); by apply elem_of_nil in Hin|]).
    all: try (intros Hb; discriminate Hb).
    all: try (intros _ i l Hin; apply elem_of_app in Hin as [Hin|Hin]; [|repeat (apply elem_of_cons in Hin as [Hin|Hin]; [discriminate Hin|]); by apply elem_of_nil in Hin]; apply (H2 eq_refl i l Hin)).
  + split; cbn; rewrite Hlo.
    * intros i l g Hin. apply elem_of_app in Hin as [Hin|Hin]; [apply H1 in Hin; lia|]. apply elem_of_list_singleton in Hin. discriminate Hin.
    * intros _ i l Hin. apply elem_of_app in Hin as [Hin|Hin]; [apply H1 in Hin; lia|]. apply elem_of_list_singleton in Hin. discriminate Hin.
  + apply (queued_frame s); try done; [by split; [|rewrite Ep]|]. intros ? ? ?. by rewrite elem_of_list_singleton.
  + apply (queued_frame s); try done; [by split; [|rewrite Ep]|]. intros ? ? ?. apply not_elem_of_nil.
  + split; cbn; [|done]. intros i l0 g Hin. apply elem_of_app in Hin as [Hin|Hin]; [by eapply H1|]. apply elem_of_list_singleton in Hin. discriminate Hin.
  + split; cbn.
    * intros i l0 g Hin. apply elem_of_app in Hin as [Hin|Hin]; [by eapply H1|]. apply elem_of_list_singleton in Hin. discriminate Hin.
    * intros _ i l0 Hin. apply elem_of_app in Hin as [Hin|Hin]; [|apply elem_of_list_singleton in Hin; discriminate Hin].
      pose proof (H2 eq_refl _ _ Hin) as Hq. rewrite ?Heql in Hq. apply elem_of_cons in Hq as [Hq|Hq]; [|done]. apply Nat.eqb_neq in Heqb. congruence.
Qed.

Lemma is_queued ls s evs : srun c_init ls = Some (s, evs) -> queued s evs.
Proof.
  intros Hr. cut (GInv s ([] ++ evs) /\ queued s ([] ++ evs)); [by intros [_ ?]|].
  eapply (run_inv sstep (fun s evs => GInv s evs /\ queued s evs) (fun _ => True) c_init []) with (4 := Hr).
  - split; [exact GInv_init|]. split; cbn; intros; by apply elem_of_nil in H || (apply elem_of_nil in H0).
  - intros s1 evs1 lb s2 ev [HG HQ] _ H. split; [by eapply GInv_step|by eapply queued_step].
  - by apply Forall_true.
Qed.

(** ** The container in service *)

Definition serving (p : cpc) : bool :=
  match p with CDial | CPublish _ | CTear _ | CLoop | CFailed | CNotify | CPause => true | _ => false end.

Lemma in_service_pc ls s evs : srun c_init ls = Some (s, evs) -> in_service ls -> serving (c_pc s) = true /\ c_ctx s = None.
Proof.
  intros Hr. cut ((forall c, LCCancel c ∉ ls) -> LBackoff false ∉ ls -> LHandlerCalls ∉ ls ->
    c_ctx s = None /\ (serving (c_pc s) = true \/ c_pc s = CIdle /\ LStart ∉ ls)).
  { intros H (Hs & Hc & Hb & Hh). destruct (H Hc Hb Hh) as [Hx [?|[_ ?]]]; done. }
  revert ls s evs Hr. apply (run_labels (fun ls s evs => (forall c, LCCancel c ∉ ls) -> LBackoff false ∉ ls -> LHandlerCalls ∉ ls ->
    c_ctx s = None /\ (serving (c_pc s) = true \/ c_pc s = CIdle /\ LStart ∉ ls))).
  { intros _ _ _. split; [done|]. right. split; [done|]. apply not_elem_of_nil. }
  intros ls s evs lb s2 ev Hr IH H Hc Hb Hh. pose proof (ginv _ _ _ Hr) as HG.
  destruct IH as [Hx Hp]; [intros c Hin; eapply Hc, elem_of_app; by left|intros Hin; eapply Hb, elem_of_app; by left|intros Hin; eapply Hh, elem_of_app; by left|].
  assert (Hc' : forall c, lb <> LCCancel c) by (intros c ->; apply (Hc c), elem_of_app; right; left).
  assert (Hb' : lb <> LBackoff false) by (intros ->; apply Hb, elem_of_app; right; left).
  assert (Hh' : lb <> LHandlerCalls) by (intros ->; apply Hh, elem_of_app; right; left).
  assert (Hsame : lb <> LStart -> c_ctx s2 = c_ctx s -> c_pc s2 = c_pc s -> c_ctx s2 = None /\ (serving (c_pc s2) = true \/ c_pc s2 = CIdle /\ LStart ∉ ls ++ [lb])).
  { intros Hn -> ->. split; [done|]. destruct Hp as [?|[? ?]]; [by left|right]. split; [done|]. rewrite elem_of_app, elem_of_list_singleton. naive_solver. }
  destruct (sstep_sc _ _ _ _ (gi_linked _ _ HG) H) as [Hd _].
  destruct Hd as [c Hb1 Hb2 -> ->|Hb1 Hb2 -> ->|j0 k l Hb1 Hl -> ->|i0 o0 c Hb1 Ho Hxx -> ->|i0 Hb1 Ho|Hd Hb1].
  - by destruct (Hc' c).
  - apply Hsame; by try congruence.
  - apply Hsame; by try congruence.
  - apply Hsame; by try congruence.
  - assert (Hn : lb <> LStart) by (destruct Hb1 as [->|[->|[r ->]]]; discriminate).
    destruct Ho; apply Hsame; by try congruence.
  - clear Hsame. destruct Hp as [Hp|[Hp Hns]].
    + unfold cont_step in Hd. destruct lb, (c_pc s) eqn:Ep; try discriminate Hd; try discriminate Hp; rewrite ?Hx in Hd; open_step Hd; try discriminate Hd;
        try (by destruct Hh'); try (by destruct Hb'); injection Hd as <- <-; cbn; rewrite ?Ep, ?Hx; split; try done; by left.
    + unfold cont_step in Hd. rewrite Hp in Hd. destruct lb; try discriminate Hd; injection Hd as <- <-; cbn; split; try done; by left.
Qed.

(** What the container's own steps leave alone. *)
Definition aside (s s' : cstate) : Prop :=
  c_links s' = c_links s /\ c_ops s' = c_ops s /\ c_ctx s' = c_ctx s /\ c_panic s' = c_panic s /\ c_gen s <= c_gen s'.
Lemma aside_trans a b c : aside a b -> aside b c -> aside a c.
Proof. unfold aside. intros (H1 & H2 & H3 & H4 & H5) (H6 & H7 & H8 & H9 & H10). rewrite H6, H7, H8, H9. split_and!; try done. lia. Qed.

Record ready (s : cstate) : Prop := {
  rd_pc : serving (c_pc s) = true;
  rd_ctx : c_ctx s = None;
  rd_pan : c_panic s = false;
  rd_lock : c_lock s = match c_pc s with CNotify => true | _ => false end;
  rd_loc : c_local s = match c_pc s with CPublish _ => S (c_gen s) | _ => c_gen s end;
  rd_errs : Forall (fun h => h <= c_gen s) (c_errs s);
}.

Lemma ready_run ls s evs : srun c_init ls = Some (s, evs) -> in_service ls -> c_panic s = false -> ready s.
Proof.
  intros Hr Hi Hp. destruct (in_service_pc _ _ _ Hr Hi) as [H1 H2]. pose proof (kinv _ _ _ Hr) as HK. pose proof (ki_g _ _ HK) as HG. split; try done.
  - rewrite (ki_lock _ _ HK). by destruct (c_pc s).
  - exact (gi_local _ _ HG).
  - eapply Forall_impl; [exact (gi_errs _ _ HG)|]. by intros h [? _].
Qed.

(** Up to the loop. *)
Lemma to_loop s (sid : nat) : ready s -> exists ls s' ev, Forall healing ls /\ length ls <= 6 /\ srun s ls = Some (s', ev) /\ c_pc s' = CLoop /\ ready s' /\ aside s s' /\
  c_errs s' = c_errs s /\ (busy (c_pc s) = false -> c_gen s < c_gen s').
Proof.
  destruct s as [pc loc prev se gen lock ctx er ok li op pan]. intros [H1 H2 H3 H4 H5 H6]. cbn in *. subst ctx pan.
  destruct pc; try discriminate H1; cbn in *; subst lock loc.
  - eexists [LDial (Dialed sid); LPublish; LTear], _, _. split; [repeat constructor|]. split; [cbn; lia|]. split; [repeat (eapply run_one; [cbn; reflexivity|]); reflexivity|].
    cbn. split_and!; try done; [|unfold aside; cbn; split_and!; try done; lia|intros _; lia].
    split; cbn; try done. eapply Forall_impl; [exact H6|cbn; lia].
  - eexists [LPublish; LTear], _, _. split; [repeat constructor|]. split; [cbn; lia|]. split; [repeat (eapply run_one; [cbn; reflexivity|]); reflexivity|].
    cbn. split_and!; try done; [|unfold aside; cbn; split_and!; try done; lia|intros _; lia].
    split; cbn; try done. eapply Forall_impl; [exact H6|cbn; lia].
  - eexists [LTear], _, _. split; [repeat constructor|]. split; [cbn; lia|]. split; [repeat (eapply run_one; [cbn; reflexivity|]); reflexivity|].
    cbn. split_and!; try done.
  - eexists [], _, _. split; [constructor|]. split; [cbn; lia|]. split; [repeat (eapply run_one; [cbn; reflexivity|]); reflexivity|].
    cbn. split_and!; try done.
  - eexists [LBackoff true; LNotified; LPauseEnd; LDial (Dialed sid); LPublish; LTear], _, _. split; [repeat constructor|]. split; [cbn; lia|]. split; [repeat (eapply run_one; [cbn; reflexivity|]); reflexivity|].
    cbn. split_and!; try done; [|unfold aside; cbn; split_and!; try done; lia|intros _; lia].
    split; cbn; try done. eapply Forall_impl; [exact H6|cbn; lia].
  - eexists [LNotified; LPauseEnd; LDial (Dialed sid); LPublish; LTear], _, _. split; [repeat constructor|]. split; [cbn; lia|]. split; [repeat (eapply run_one; [cbn; reflexivity|]); reflexivity|].
    cbn. split_and!; try done; [|unfold aside; cbn; split_and!; try done; lia|intros _; lia].
    split; cbn; try done. eapply Forall_impl; [exact H6|cbn; lia].
  - eexists [LPauseEnd; LDial (Dialed sid); LPublish; LTear], _, _. split; [repeat constructor|]. split; [cbn; lia|]. split; [repeat (eapply run_one; [cbn; reflexivity|]); reflexivity|].
    cbn. split_and!; try done; [|unfold aside; cbn; split_and!; try done; lia|intros _; lia].
    split; cbn; try done. eapply Forall_impl; [exact H6|cbn; lia].
Qed.

(** Reports of earlier sessions are dropped. *)
Lemma drain q : forall s r, ready s -> c_pc s = CLoop -> c_errs s = q ++ r -> c_gen s ∉ q ->
  exists s' ev, srun s (replicate (length q) LTakeErr) = Some (s', ev) /\ c_pc s' = CLoop /\ ready s' /\ aside s s' /\ c_errs s' = r /\ c_gen s' = c_gen s.
Proof.
  induction q as [|h q IH]; intros s r HR Hp He Hg.
  - exists s, []. cbn. split_and!; try done.
  - assert (H1 : sstep s LTakeErr = Some (cs_errs (q ++ r) s, [EvIgnored (c_local s) h])).
    { unfold sstep, cont_step. rewrite (rd_pan _ HR), Hp, He. cbn. rewrite (rd_loc _ HR), Hp. destruct (Nat.eqb_spec h (c_gen s)) as [->|]; [|done].
      destruct Hg. left. }
    assert (HR1 : ready (cs_errs (q ++ r) s)).
    { destruct HR as [R1 R2 R3 R4 R5 R6]. split; cbn; try done. rewrite He in R6. by inversion R6. }
    destruct (IH (cs_errs (q ++ r) s) r HR1 Hp eq_refl) as (s' & ev & H2 & H3 & H4 & H5 & H6 & H7); [cbn; intros Hin; apply Hg; by right|].
    exists s', ([EvIgnored (c_local s) h] ++ ev). cbn [length replicate run]. rewrite H1, H2. split; [done|]. split_and!; try done.
Qed.

Lemma heals s (sid : nat) : ready s -> exists ls s' ev, Forall healing ls /\ length ls <= length (c_errs s) + 12 /\ srun s ls = Some (s', ev) /\
  c_pc s' = CLoop /\ ready s' /\ aside s s' /\ c_errs s' = [] /\
  (busy (c_pc s) = false \/ c_gen s ∈ c_errs s -> c_gen s < c_gen s').
Proof.
  intros HR. destruct (to_loop s sid HR) as (l1 & s1 & ev1 & Ha & Hb & Hc & Hd & He & Hf & Hg & Hh).
  destruct (decide (c_gen s1 ∈ c_errs s1)) as [Hin|Hn].
  - destruct (elem_of_list_split_l _ _ Hin) as (q & r & Eq & Hnq).
    destruct (drain q s1 (c_gen s1 :: r) He Hd Eq Hnq) as (s2 & ev2 & I1 & I2 & I3 & I4 & I5 & I6).
    assert (H3 : sstep s2 LTakeErr = Some (cs_pc CFailed (cs_errs r s2), [EvEnd (c_local s2) (Some (c_gen s1))])).
    { unfold sstep, cont_step. rewrite (rd_pan _ I3), I2, I5. cbn. rewrite (rd_loc _ I3), I2, I6, Nat.eqb_refl. done. }
    assert (HR3 : ready (cs_pc CFailed (cs_errs r s2))).
    { destruct I3 as [R1 R2 R3 R4 R5 R6]. rewrite I2 in R4, R5. split; cbn; try done. rewrite I5 in R6. by inversion R6. }
    destruct (to_loop _ sid HR3) as (l4 & s4 & ev4 & J1 & J2 & J3 & J4 & J5 & J6 & J7 & J8). cbn in J7, J8.
    assert (Hgt : c_gen s1 < c_gen s4) by (specialize (J8 eq_refl); lia).
    destruct (drain r s4 [] J5 J4) as (s5 & ev5 & K1 & K2 & K3 & K4 & K5 & K6); [by rewrite app_nil_r| |].
    { intros Hin'. pose proof (rd_errs _ He) as Hall. rewrite Eq in Hall. apply Forall_app in Hall as [_ Hall]. inversion Hall as [|? ? _ Hall']. subst.
      rewrite Forall_forall in Hall'. apply Hall' in Hin'. lia. }
    exists (l1 ++ replicate (length q) LTakeErr ++ LTakeErr :: l4 ++ replicate (length r) LTakeErr), s5,
      (ev1 ++ ev2 ++ [EvEnd (c_local s2) (Some (c_gen s1))] ++ ev4 ++ ev5).
    split; [rewrite Forall_app, Forall_app; split; [done|]; split; [by apply Forall_replicate|]; constructor; [done|]; apply Forall_app; split; [done|by apply Forall_replicate]|].
    split; [rewrite <-Hg, Eq, !app_length, !replicate_length; cbn; rewrite !app_length, !replicate_length; lia|].
    split. { apply (run_join _ _ _ _ _ _ _ Hc). apply (run_join _ _ _ _ _ _ _ I1). cbn [run]. rewrite H3. by rewrite (run_join _ _ _ _ _ _ _ J3 K1). }
    split_and!; try done.
    + eapply aside_trans; [exact Hf|]. eapply aside_trans; [exact I4|]. eapply aside_trans; [|exact K4].
      eapply (aside_trans _ (cs_pc CFailed (cs_errs r s2))); [|exact J6]. unfold aside. cbn. by split_and!.
    + intros _. destruct Hf as (_ & _ & _ & _ & ?). lia.
  - destruct (drain (c_errs s1) s1 [] He Hd) as (s2 & ev2 & I1 & I2 & I3 & I4 & I5 & I6); [by rewrite app_nil_r|done|].
    exists (l1 ++ replicate (length (c_errs s1)) LTakeErr), s2, (ev1 ++ ev2).
    split; [apply Forall_app; split; [done|by apply Forall_replicate]|]. split; [rewrite app_length, replicate_length, Hg; lia|].
    split; [exact (run_join _ _ _ _ _ _ _ Hc I1)|]. split_and!; try done; [by eapply aside_trans|].
    intros [Hbz|Hin]; [specialize (Hh Hbz); lia|]. destruct Hf as (_ & _ & _ & _ & Hle). rewrite Hg in Hn. rewrite I6.
    destruct (decide (c_gen s = c_gen s1)) as [E|]; [|lia]. by rewrite E in Hin.
Qed.

Lemma service_more ls l2 : in_service ls -> Forall (fun lb => (forall c, lb <> LCCancel c) /\ lb <> LBackoff false /\ lb <> LHandlerCalls) l2 -> in_service (ls ++ l2).
Proof.
  intros (H1 & H2 & H3 & H4) Hf. rewrite Forall_forall in Hf. split; [apply elem_of_app; by left|]. split; [|split].
  - intros c Hin. apply elem_of_app in Hin as [Hin|Hin]; [by eapply H2|]. destruct (Hf _ Hin) as [Hz _]. by destruct (Hz c).
  - intros Hin. apply elem_of_app in Hin as [Hin|Hin]; [done|]. by destruct (Hf _ Hin) as (_ & ? & _).
  - intros Hin. apply elem_of_app in Hin as [Hin|Hin]; [done|]. by destruct (Hf _ Hin) as (_ & _ & ?).
Qed.

(** The last session established, by its events. *)
Lemma last_est ls s evs : srun c_init ls = Some (s, evs) -> 1 <= c_gen s -> exists sid, last (ests evs) = Some (c_gen s, sid) /\ c_sess s = Some sid.
Proof.
  intros Hr Hg. pose proof (ginv _ _ _ Hr) as HG. pose proof (gi_gens _ _ HG) as Hs. pose proof (gi_sess _ _ HG) as Hc.
  destruct (last (ests evs)) as [[g sid]|] eqn:El.
  - exists sid. cbn in Hc. split; [|done]. assert (Hl : last (fst <$> ests evs) = Some g) by (by rewrite fmap_last, El).
    rewrite Hs in Hl. destruct (c_gen s) as [|n]; [lia|]. rewrite seq_S, last_snoc in Hl. injection Hl as <-. done.
  - apply last_None in El. rewrite El in Hs. destruct (c_gen s); [lia|done].
Qed.

Lemma heals_run ls s evs (sid : nat) : srun c_init ls = Some (s, evs) -> in_service ls -> c_panic s = false ->
  exists ls' s' ev g' sid', Forall healing ls' /\ length ls' <= length (c_errs s) + 12 /\ srun s ls' = Some (s', ev) /\
    c_errs s' = [] /\ last (ests (evs ++ ev)) = Some (g', sid') /\ forall i l h, EvReport i l h ∈ evs -> h < g'.
Proof.
  intros Hr Hi Hp. pose proof (ready_run _ _ _ Hr Hi Hp) as HR. destruct (heals s sid HR) as (l1 & s1 & ev1 & Ha & Hb & Hc & Hd & He & Hf & Hg & Hh).
  pose proof (run_join _ _ _ _ _ _ _ Hr Hc) as Hr1. pose proof (kinv _ _ _ Hr1) as HK. pose proof (ki_busy _ _ HK) as Hbz. rewrite Hd in Hbz.
  destruct (last_est _ _ _ Hr1 (Hbz eq_refl)) as (sid' & Hla & _). exists l1, s1, ev1, (c_gen s1), sid'. split_and!; try done.
  intros i l h Hin. destruct (is_queued _ _ _ Hr) as [Q1 Q2]. pose proof (Q1 _ _ _ Hin) as Hle. destruct Hf as (_ & _ & _ & _ & Hmono).
  destruct (decide (h = c_gen s)) as [->|]; [|lia]. apply Hh. destruct (busy (c_pc s)) eqn:Eb; [right; by eapply Q2|by left].
Qed.

(** ** From an error of the network to the next session *)

Lemma fails_to_report ls s evs i l g e s1 ev : srun c_init ls = Some (s, evs) -> serial l evs -> sstep s (LNet i (NErr e)) = Some (s1, ev) -> EvNetErr i l g ∈ ev ->
  (forall c, LCtx i c ∉ ls) ->
  exists o lk, c_ops s1 !! i = Some o /\ c_links s1 !! l = Some lk /\ o_link o = l /\ (o_kind o = KNext \/ o_kind o = KSend \/ o_kind o = KAccept) /\ o_ctx o = None /\ l_gen lk = g /\ c_panic s1 = false /\ o_pc o = PFail (net_err e) /\
    sstep s1 (LStep i) = Some (set_op i o (PReport g (net_err e)) s1, []).
Proof.
  intros Hr Hs H Hin Hx. pose proof (ainv _ _ _ Hr) as HA. pose proof (sinv _ _ _ _ Hr Hs) as HS.
  unfold sstep in H. destruct (c_panic s) eqn:Ep; [discriminate H|]. destruct (c_ops s !! i) as [o|] eqn:Eo; [|discriminate H].
  destruct (c_links s !! o_link o) as [lk|] eqn:El; [|discriminate H].
  assert (Hc : o_ctx o = None). { destruct (o_ctx o) as [c|] eqn:Ec; [|done]. destruct (Hx c). by eapply ctx_label. }
  pose proof (ai_kind _ _ HA _ _ Eo) as Hk.
  assert (Hi : i < length (c_ops s)) by (by eapply lookup_lt_Some).
  assert (Hl : o_link o < length (c_links s)) by (by eapply lookup_lt_Some).
  unfold net_step in H. destruct (o_pc o) eqn:Epc; try discriminate H.
  - injection H as <- <-. apply elem_of_list_singleton in Hin as [= -> ->].
    exists (Op (o_link o) (o_kind o) (o_ctx o) (PFail (net_err e))), (locked false lk). cbn.
    rewrite !list_lookup_insert by done. split_and!; try done; [destruct (o_kind o) eqn:Ek; rewrite ?Epc in Hk; naive_solver|].
    unfold sstep. cbn. rewrite Ep, !list_lookup_insert by done. cbn. rewrite ?list_lookup_insert by done. unfold op_step. cbn.
    rewrite Hc. rewrite bool_decide_eq_false_2 by (intros [? _]; done). rewrite bool_decide_eq_false_2 by (destruct e; done). done.
  - destruct (o_kind o) eqn:Ek; unfold ret in H; try discriminate H.
    1,3: injection H as <- <-; apply elem_of_list_singleton in Hin as [= -> ->].
    1,2: assert (Hg : l_gen lk = g0) by
      (destruct (si_link _ _ _ HS _ El) as (_ & _ & Hok & _); specialize (Hok _ _ Eo eq_refl); rewrite Ek in Hok; specialize (Hok ltac:(done));
       unfold okpc in Hok; rewrite Epc in Hok; by destruct Hok as [-> _]).
    1,2: exists (Op (o_link o) (o_kind o) (o_ctx o) (PFail (net_err e))), lk; cbn; rewrite ?Ek;
      rewrite !list_lookup_insert by done; split_and!; try done; [naive_solver|];
      unfold sstep; cbn; rewrite Ep, !list_lookup_insert by done; cbn; rewrite El; unfold op_step; cbn; rewrite Ek;
      rewrite Hc, Hg; rewrite bool_decide_eq_false_2 by (intros [? _]; done); rewrite bool_decide_eq_false_2 by (destruct e; done); done.
    all: injection H as <- <-; apply elem_of_list_singleton in Hin; discriminate Hin.
  - unfold ret in H. injection H as <- <-. apply elem_of_list_singleton in Hin. discriminate Hin.
Qed.

Lemma healing_mild lb : healing lb -> (forall c, lb <> LCCancel c) /\ lb <> LBackoff false /\ lb <> LHandlerCalls.
Proof. destruct lb; cbn; try done. by destruct next. Qed.

Lemma ready_op i o p s : ready s -> ready (set_op i o p s).
Proof. intros [R1 R2 R3 R4 R5 R6]. by split. Qed.

Lemma recovers ls s evs i l g e s1 ev (sid : nat) : srun c_init ls = Some (s, evs) -> in_service ls -> serial l evs -> sstep s (LNet i (NErr e)) = Some (s1, ev) ->
  EvNetErr i l g ∈ ev -> (forall c, LCtx i c ∉ ls) ->
  exists ls' s' ev' o lk sid', Forall (fun lb => healing lb \/ lb = LStep i) ls' /\ length ls' <= 90 /\ srun s1 ls' = Some (s', ev') /\ EvReport i l g ∈ ev' /\
    ready s' /\ c_pc s' = CLoop /\ c_errs s' = [] /\ last (ests (evs ++ ev ++ ev')) = Some (c_gen s', sid') /\ c_sess s' = Some sid' /\ g < c_gen s' /\
    c_ops s1 !! i = Some o /\ o_link o = l /\ o_ctx o = None /\ o_pc o = PFail (net_err e) /\ (o_kind o = KNext \/ o_kind o = KSend \/ o_kind o = KAccept) /\
    c_ops s' = <[i := Op l (o_kind o) None (PClear (net_err e))]> (c_ops s1) /\ c_links s' = c_links s1 /\ c_links s1 !! l = Some lk /\ l_gen lk = g.
Proof.
  intros Hr Hi Hs H Hin Hx. destruct (fails_to_report _ _ _ _ _ _ _ _ _ Hr Hs H Hin Hx) as (o & lk & Ho & Hlk & Hol & Hok & Hoc & Hlg & Hp1 & Hopc & H2).
  pose proof (run_join _ _ _ _ _ _ _ Hr (run_one _ _ _ _ [] _ _ H eq_refl)) as Hr1. rewrite app_nil_r in Hr1.
  assert (Hi1 : in_service (ls ++ [LNet i (NErr e)])) by (apply service_more; [done|by repeat constructor]).
  pose proof (ready_op i o (PReport g (net_err e)) _ (ready_run _ _ _ Hr1 Hi1 Hp1)) as HR2. set (s2 := set_op i o (PReport g (net_err e)) s1) in *.
  pose proof (run_join _ _ _ _ _ _ _ Hr1 (run_one _ _ _ _ [] _ _ H2 eq_refl)) as Hr2. rewrite !app_nil_r in Hr2.
  assert (Hlen : i < length (c_ops s1)) by (by eapply lookup_lt_Some).
  assert (Ho2 : c_ops s2 !! i = Some (Op l (o_kind o) None (PReport g (net_err e)))) by (cbn; rewrite list_lookup_insert by done; by rewrite Hol, Hoc).
  destruct (heals s2 sid HR2) as (l3 & s3 & ev3 & A1 & A2 & A3 & A4 & A5 & (A61 & A62 & A63 & A64 & A65) & A7 & A8).
  assert (Hle : g <= c_gen s2) by exact (gi_op _ _ (ginv _ _ _ Hr2) _ _ Ho2).
  set (s4 := set_op i (Op l (o_kind o) None (PReport g (net_err e))) (PClear (net_err e)) (cs_errs [g] s3)).
  assert (H4 : sstep s3 (LStep i) = Some (s4, [EvReport i l g])).
  { unfold sstep. rewrite (rd_pan _ A5), A62, Ho2. cbn. rewrite A61. cbn. rewrite Hlk. unfold op_step. cbn. rewrite A7. cbn. done. }
  assert (HR4 : ready s4).
  { apply ready_op. destruct A5 as [R1 R2 R3 R4 R5 R6]. split; cbn; try done. constructor; [lia|constructor]. }
  destruct (heals s4 sid HR4) as (l5 & s5 & ev5 & B1 & B2 & B3 & B4 & B5 & (B61 & B62 & B63 & B64 & B65) & B7 & B8).
  assert (Hrun : srun s1 (LStep i :: l3 ++ LStep i :: l5) = Some (s5, ev3 ++ [EvReport i l g] ++ ev5)).
  { apply (run_one _ _ _ _ _ _ _ H2). eapply run_join; [exact A3|]. apply (run_one _ _ _ _ _ _ _ H4). exact B3. }
  assert (Hlt : g < c_gen s5).
  { destruct (decide (g = c_gen s3)) as [E|]; [|cbn in B65; lia]. cbn in B8. rewrite E. apply B8. right. rewrite E. left. }
  pose proof (run_join _ _ _ _ _ _ _ Hr1 Hrun) as Hr5. destruct (last_est _ _ _ Hr5 ltac:(lia)) as (sid' & Hla & Hse).
  assert (Hq : length (c_errs s2) <= errs_cap).
  { change (c_errs s2) with (c_errs s1). clear - Hr1. revert Hr1. generalize (ls ++ [LNet i (NErr e)]), (evs ++ ev). intros L E Hr.
    cut (linked s1 /\ length (c_errs s1) <= errs_cap); [by intros [_ ?]|].
    eapply (run_inv sstep (fun s _ => linked s /\ length (c_errs s) <= errs_cap) (fun _ => True) c_init []) with (4 := Hr).
    - split; [intros ? ? Hn; discriminate Hn|cbn; lia].
    - intros sa ea lb sb eb [HL Hq] _ Hst. destruct (sstep_sc _ _ _ _ HL Hst) as [Hd _]. split; [by eapply linked_step|].
      destruct Hd as [c Hb1 Hb2 -> ->|Hb1 Hb2 -> ->|j0 k lx Hb1 Hl -> ->|i0 o0 c Hb1 Ho Hxx -> ->|i0 Hb1 Ho|Hd Hb1]; cbn; try done.
      + destruct Ho as [|ox lx p l' er ok ev' Ho Hl Ht]; [done|]. destruct Ht; cbn; try done. rewrite app_length. cbn. lia.
      + unfold cont_step in Hd. destruct lb, (c_pc sa); try discriminate Hd; open_step Hd; injection Hd as <- <-; cbn; try done.
        all: cbn in *; lia.
    - by apply Forall_true. }
  exists (LStep i :: l3 ++ LStep i :: l5), s5, (ev3 ++ [EvReport i l g] ++ ev5), o, lk, sid'.
  split. { constructor; [by right|]. apply Forall_app. split; [eapply Forall_impl; [exact A1|by left]|]. constructor; [by right|]. eapply Forall_impl; [exact B1|by left]. }
  split. { cbn. rewrite app_length. cbn. change (c_errs s4) with [g] in B2. cbn in B2. unfold errs_cap in Hq. lia. }
  split; [done|]. split; [apply elem_of_app; right; left|]. rewrite <-app_assoc in Hla.
  split_and!; try done.
  - rewrite B62. cbn. rewrite A62. cbn. by rewrite list_insert_insert.
  - by rewrite B61; cbn; rewrite A61.
Qed.

(** ** The next session is used *)

(** Its own steps, then the network accepting. *)
Definition goes_out (n : nat) : list clabel := [LStep n; LStep n; LStep n; LStep n; LNet n NOk; LNet n NOk].

Local Ltac tidy := unfold set_op, set_link, cs_ops, cs_links, locked;
  cbn [c_pc c_local c_prev c_sess c_gen c_lock c_ctx c_errs c_oks c_links c_ops c_panic o_link o_kind o_ctx l_closed l_rcv l_snd l_gen l_curr];
  rewrite ?list_insert_insert.

Lemma goes_out_ok s n l k g gr gs sid : c_panic s = false -> c_lock s = false -> c_sess s = Some sid -> g <> c_gen s -> (k = KSend \/ k = KNext) ->
  c_ops s !! n = Some (Op l k None PStart) -> c_links s !! l = Some (Lnk false g None (gr, None) (gs, None) false) ->
  exists s', srun s (goes_out n) = Some (s', [EvNew n l sid (c_gen s); EvUse n l sid (c_gen s); EvRet n l k ROk]).
Proof.
  destruct s as [pc loc prev se gen lock ctx er ok li op pan]. cbn [c_panic c_lock c_sess c_gen c_ops c_links]. intros -> -> -> Hg Hk Ho Hl.
  assert (Hi : n < length op) by (by eapply lookup_lt_Some). assert (Hj : l < length li) by (by eapply lookup_lt_Some).
  apply Nat.eqb_neq in Hg.
  change [EvNew n l sid gen; EvUse n l sid gen; EvRet n l k ROk] with ([] ++ [] ++ [] ++ [EvNew n l sid gen] ++ [EvUse n l sid gen] ++ [EvRet n l k ROk] ++ []).
  unfold goes_out. destruct Hk as [-> | ->]; eexists.
  all: eapply run_one; [unfold sstep; cbn; rewrite Ho; cbn; rewrite Hl; cbn; reflexivity|]; tidy.
  all: eapply run_one; [unfold sstep; cbn; rewrite list_lookup_insert by done; cbn; rewrite Hl; cbn; rewrite Hg; cbn; reflexivity|]; tidy.
  all: eapply run_one; [unfold sstep; cbn; rewrite list_lookup_insert by done; cbn; rewrite Hl; cbn; reflexivity|]; tidy.
  all: eapply run_one; [unfold sstep; cbn; rewrite list_lookup_insert by done; cbn; rewrite list_lookup_insert by done; cbn; reflexivity|]; tidy.
  all: eapply run_one; [unfold sstep; cbn; rewrite list_lookup_insert by done; cbn; rewrite list_lookup_insert by done; cbn; reflexivity|]; tidy.
  all: eapply run_one; [unfold sstep; cbn; rewrite list_lookup_insert by done; cbn; rewrite list_lookup_insert by done; cbn; reflexivity|]; reflexivity.
Qed.

Lemma closed_called ls s evs j l : srun c_init ls = Some (s, evs) -> c_links s !! j = Some l -> l_closed l = true -> exists i, EvCall i j KClose ∈ evs.
Proof.
  intros Hr. cut (AInv s ([] ++ evs) /\ forall l, c_links s !! j = Some l -> l_closed l = true -> exists i, EvCall i j KClose ∈ ([] ++ evs)).
  { intros [_ H]. exact (H l). }
  eapply (run_inv sstep (fun s evs => AInv s evs /\ forall l, c_links s !! j = Some l -> l_closed l = true -> exists i, EvCall i j KClose ∈ evs) (fun _ => True) c_init []) with (4 := Hr).
  - split; [exact AInv_init|]. intros l0 Hl0. discriminate Hl0.
  - intros s1 evs1 lb s2 ev [HA IH] _ H. split; [by eapply AInv_step|]. intros l2 Hl2 Hc2.
    assert (Hold : forall l1, c_links s1 !! j = Some l1 -> l_closed l1 = true -> exists i, EvCall i j KClose ∈ evs1 ++ ev).
    { intros l1 Hl1 Hc1. destruct (IH _ Hl1 Hc1) as [i Hin]. exists i. apply elem_of_app. by left. }
    destruct (sstep_sc _ _ _ _ (gi_linked _ _ (ai_g _ _ HA)) H) as [Hd _].
    destruct Hd as [c Hb1 Hb2 -> ->|Hb1 Hb2 -> ->|j0 k lx Hb1 Hl -> ->|i0 o0 c Hb1 Ho Hxx -> ->|i0 Hb1 Ho|Hd Hb1]; cbn in Hl2; try (by eapply Hold).
    + apply lookup_app_Some in Hl2 as [Hl2|[_ Hl2]]; [by eapply Hold|]. apply list_lookup_singleton_Some in Hl2 as [_ <-]. discriminate Hc2.
    + destruct Ho as [o lx|o lx p l' er ok ev' Ho Hl Ht]; cbn in Hl2; [by eapply Hold|].
      destruct (decide (o_link o = j)) as [<-|Hne]; [|rewrite list_lookup_insert_ne in Hl2 by done; by eapply Hold].
      rewrite list_lookup_insert in Hl2 by (by eapply lookup_lt_Some). injection Hl2 as <-.
      pose proof (ai_called _ _ HA _ _ Ho) as Hcall.
      destruct Ht; cbn in Hc2; try (by eapply Hold); try (eexists; apply elem_of_app; left; rewrite <-H1; eassumption).
      eapply Hold; [exact Hl|]. destruct (o_kind o); exact Hc2.
    + assert (El : c_links s2 = c_links s1).
      { unfold cont_step in Hd. destruct lb, (c_pc s1); try discriminate Hd; open_step Hd; by injection Hd as <- <-. }
      rewrite El in Hl2. by eapply Hold.
  - by apply Forall_true.
Qed.

(** With no Close called, the link is free and open when the call failed. *)
Lemma link_free ls s evs i l o lk e : srun c_init ls = Some (s, evs) -> serial l evs -> (forall i', EvCall i' l KClose ∉ evs) ->
  c_ops s !! i = Some o -> o_link o = l -> o_pc o = PFail e -> o_kind o <> KClose -> c_links s !! l = Some lk -> l_lock lk = false /\ l_closed lk = false.
Proof.
  intros Hr Hs Hn Ho Hol Hp Hk Hl. pose proof (ainv _ _ _ Hr) as HA. pose proof (sinv _ _ _ _ Hr Hs) as HS. split.
  - destruct (l_lock lk) eqn:El; [|done]. destruct (ai_lock _ _ HA _ _ Hl El) as (i' & o' & Ho' & Hol' & Hh).
    pose proof (ai_called _ _ HA _ _ Ho') as Hcall. rewrite Hol' in Hcall.
    assert (Hk' : o_kind o' <> KClose) by (intros E; rewrite E in Hcall; by eapply Hn).
    assert (i = i') as ->.
    { eapply (si_one _ _ _ HS); try done; unfold is_done, holds in *; [by rewrite Hp|]. by destruct (o_pc o'). }
    rewrite Ho in Ho'. injection Ho' as <-. unfold holds in Hh. by rewrite Hp in Hh.
  - destruct (l_closed lk) eqn:El; [|done]. destruct (closed_called _ _ _ _ _ Hr Hl El) as [i' Hin]. by destruct (Hn i').
Qed.

Lemma serial_ext l evs ev : serial l evs -> (forall i k, EvCall i l k ∉ ev) -> serial l (evs ++ ev).
Proof.
  intros Hs Hn a i k b E Hk i' k' Hin Hk'. destruct (decide (length a < length evs)) as [Hlt|Hge].
  - assert (E1 : evs = a ++ EvCall i l k :: drop (S (length a)) evs).
    { assert (Hlk : evs !! length a = Some (EvCall i l k)).
      { assert (H1 : (evs ++ ev) !! length a = Some (EvCall i l k)) by (rewrite E, lookup_app_r, Nat.sub_diag by lia; done). by rewrite lookup_app_l in H1. }
      rewrite <-(take_drop_middle evs _ _ Hlk) at 1. f_equal. assert (H2 : take (length a) (evs ++ ev) = a) by (rewrite E; apply take_app).
      rewrite <-H2 at 2. by rewrite take_app_le by lia. }
    by eapply (Hs _ _ _ _ E1).
  - exfalso. apply (Hn i k). assert (H1 : (evs ++ ev) !! length a = Some (EvCall i l k)) by (rewrite E, lookup_app_r, Nat.sub_diag by lia; done).
    rewrite lookup_app_r in H1 by lia. by eapply elem_of_list_lookup_2.
Qed.

Lemma net_no_call s i r s1 ev : sstep s (LNet i r) = Some (s1, ev) -> forall n l k, EvCall n l k ∉ ev.
Proof.
  unfold sstep, net_step, ret. intros H n l k Hin. open_step H; injection H as <- <-; repeat (apply elem_of_cons in Hin as [Hin|Hin]; [discriminate Hin|]); by apply elem_of_nil in Hin.
Qed.

(** Everything up to and including the failed call's clearing of its link. *)
Lemma clears ls s evs i l g e s1 ev (sid : nat) k : srun c_init ls = Some (s, evs) -> in_service ls -> serial l evs -> (forall i', EvCall i' l KClose ∉ evs) ->
  EvCall i l k ∈ evs -> sstep s (LNet i (NErr e)) = Some (s1, ev) -> EvNetErr i l g ∈ ev -> (forall c, LCtx i c ∉ ls) ->
  exists ls' s' ev' sid' gr gs, Forall (fun lb => healing lb \/ lb = LStep i) ls' /\ length ls' <= 91 /\ srun s1 ls' = Some (s', ev') /\ EvReport i l g ∈ ev' /\
    c_panic s' = false /\ c_lock s' = false /\ c_sess s' = Some sid' /\ g < c_gen s' /\ last (ests (evs ++ ev ++ ev')) = Some (c_gen s', sid') /\
    c_links s' !! l = Some (Lnk false g None (gr, None) (gs, None) false) /\ i < length (c_ops s') /\
    match k with
    | KNext => c_ops s' !! i = Some (Op l KNext None PStart)
    | _ => EvRet i l k (RErr (net_err e)) ∈ ev'
    end.
Proof.
  intros Hr Hi Hs Hn Hcall H Hin Hx.
  destruct (recovers _ _ _ _ _ _ _ _ _ sid Hr Hi Hs H Hin Hx) as (l1 & s2 & ev2 & o & lk & sid' & A1 & A2 & A3 & A4 & A5 & A6 & A7 & A8 & A9 & A10 & A11 & A12 & A13 & A14 & A15 & A16 & A17 & A18 & A19).
  pose proof (run_join _ _ _ _ _ _ _ Hr (run_one _ _ _ _ [] _ _ H eq_refl)) as Hr1. rewrite app_nil_r in Hr1.
  pose proof (net_no_call _ _ _ _ _ H) as Hnc.
  assert (Hk : o_kind o = k).
  { destruct (ai_call _ _ (ainv _ _ _ Hr1) i l k) as (o' & Ho' & _ & Hk'); [apply elem_of_app; by left|]. rewrite A11 in Ho'. by injection Ho' as <-. }
  destruct (link_free _ _ _ i l o lk (net_err e) Hr1) as [Hlk Hcl]; try done.
  { by apply serial_ext. } { intros i'. rewrite elem_of_app. intros [?|?]; [by eapply Hn|by eapply Hnc]. } { destruct A15 as [E|[E|E]]; rewrite E; done. }
  destruct lk as [lc lg lcu [lr1 lr2] [ls1 ls2] lo]. cbn in *. subst lo lc lg.
  assert (Hlt : i < length (c_ops s1)) by (by eapply lookup_lt_Some). assert (Hlt' : l < length (c_links s1)) by (by eapply lookup_lt_Some).
  assert (H3 : exists s3 ev3, sstep s2 (LStep i) = Some (s3, ev3) /\ c_panic s3 = c_panic s2 /\ c_lock s3 = c_lock s2 /\ c_sess s3 = c_sess s2 /\ c_gen s3 = c_gen s2 /\
    c_links s3 !! l = Some (Lnk false g None (lr1, None) (ls1, None) false) /\ length (c_ops s3) = length (c_ops s1) /\ ests ev3 = [] /\
    match k with KNext => c_ops s3 !! i = Some (Op l KNext None PStart) | _ => EvRet i l k (RErr (net_err e)) ∈ ev3 end).
  { unfold sstep. rewrite (rd_pan _ A5), A16, list_lookup_insert by done. cbn. rewrite A17, A18. cbn. unfold fails. cbn. rewrite Hk.
    destruct k; cbn; unfold ret; eexists _, _; (split; [reflexivity|]); cbn; rewrite ?A16, ?A17, ?insert_length, ?list_insert_insert, ?list_lookup_insert by done;
      rewrite ?(rd_pan _ A5); split_and!; try done; left. }
  destruct H3 as (s3 & ev3 & H3 & B1 & B2 & B3 & B4 & B5 & B6 & B7 & B8).
  exists (l1 ++ [LStep i]), s3, (ev2 ++ ev3), sid', lr1, ls1.
  split; [apply Forall_app; split; [done|]; by repeat constructor; right|]. split; [rewrite app_length; cbn; lia|].
  split. { eapply run_join; [exact A3|]. pose proof (run_one _ _ _ _ [] _ _ H3 eq_refl) as Hq. by rewrite app_nil_r in Hq. }
  split; [apply elem_of_app; by left|]. rewrite B1, B2, B3, B4, B5, B6. rewrite (rd_pan _ A5), (rd_lock _ A5), A6.
  split_and!; try done.
  - rewrite !app_assoc, ests_app, B7, app_nil_r. by rewrite <-app_assoc.
  - destruct k; try done; apply elem_of_app; by right.
Qed.

Lemma next_resumes ls s evs i l g e s1 ev (sid : nat) : srun c_init ls = Some (s, evs) -> in_service ls -> serial l evs -> (forall i', EvCall i' l KClose ∉ evs) ->
  EvCall i l KNext ∈ evs -> sstep s (LNet i (NErr e)) = Some (s1, ev) -> EvNetErr i l g ∈ ev -> (forall c, LCtx i c ∉ ls) ->
  exists ls' s' ev' g' sid', Forall (fun lb => healing lb \/ lb = LStep i \/ lb = LNet i NOk) ls' /\ length ls' <= 97 /\ srun s1 ls' = Some (s', ev') /\
    EvReport i l g ∈ ev' /\ g < g' /\ last (ests (evs ++ ev ++ ev')) = Some (g', sid') /\ EvUse i l sid' g' ∈ ev' /\ EvRet i l KNext ROk ∈ ev'.
Proof.
  intros Hr Hi Hs Hn Hcall H Hin Hx.
  destruct (clears _ _ _ _ _ _ _ _ _ sid _ Hr Hi Hs Hn Hcall H Hin Hx) as (l1 & s2 & ev2 & sid' & gr & gs & A1 & A2 & A3 & A4 & A5 & A6 & A7 & A8 & A9 & A10 & A11 & A12).
  destruct (goes_out_ok s2 i l KNext g gr gs sid' A5 A6 A7 ltac:(lia) (or_intror eq_refl) A12 A10) as [s3 H3].
  exists (l1 ++ goes_out i), s3, (ev2 ++ [EvNew i l sid' (c_gen s2); EvUse i l sid' (c_gen s2); EvRet i l KNext ROk]), (c_gen s2), sid'.
  split. { apply Forall_app. split; [eapply Forall_impl; [exact A1|]; intros lb [?|?]; [by left|right; by left]|]. unfold goes_out. repeat constructor; right; by (left + right). }
  split; [rewrite app_length; cbn; lia|]. split; [by eapply run_join|]. split; [apply elem_of_app; by left|]. split; [done|].
  split. { rewrite !app_assoc, ests_app. cbn. rewrite app_nil_r. by rewrite <-app_assoc. }
  split; apply elem_of_app; right; [right; left|right; right; left].
Qed.

Lemma send_resumes ls s evs i l g e s1 ev (sid : nat) : srun c_init ls = Some (s, evs) -> in_service ls -> serial l evs -> (forall i', EvCall i' l KClose ∉ evs) ->
  EvCall i l KSend ∈ evs -> sstep s (LNet i (NErr e)) = Some (s1, ev) -> EvNetErr i l g ∈ ev -> (forall c, LCtx i c ∉ ls) ->
  exists ls' s' ev', Forall (fun lb => healing lb \/ lb = LStep i) ls' /\ length ls' <= 91 /\ srun s1 ls' = Some (s', ev') /\
    EvReport i l g ∈ ev' /\ EvRet i l KSend (RErr (net_err e)) ∈ ev' /\
    exists n s2 g' sid', g < g' /\ last (ests (evs ++ ev ++ ev')) = Some (g', sid') /\
      srun s' (LOp l KSend :: goes_out n) = Some (s2, [EvCall n l KSend; EvNew n l sid' g'; EvUse n l sid' g'; EvRet n l KSend ROk]).
Proof.
  intros Hr Hi Hs Hn Hcall H Hin Hx.
  destruct (clears _ _ _ _ _ _ _ _ _ sid _ Hr Hi Hs Hn Hcall H Hin Hx) as (l1 & s2 & ev2 & sid' & gr & gs & A1 & A2 & A3 & A4 & A5 & A6 & A7 & A8 & A9 & A10 & A11 & A12).
  exists l1, s2, ev2. split_and!; try done.
  set (s3 := cs_ops (c_ops s2 ++ [Op l KSend None PStart]) s2).
  assert (H3 : sstep s2 (LOp l KSend) = Some (s3, [EvCall (length (c_ops s2)) l KSend])) by (unfold sstep; by rewrite A5, A10).
  destruct (goes_out_ok s3 (length (c_ops s2)) l KSend g gr gs sid' A5 A6 A7 ltac:(cbn; lia) (or_introl eq_refl)) as [s4 H4]; [|done|].
  { cbn. by rewrite lookup_app_r, Nat.sub_diag by lia. }
  exists (length (c_ops s2)), s4, (c_gen s2), sid'. split_and!; try done. exact (run_one _ _ _ _ _ _ _ H3 H4).
Qed.
