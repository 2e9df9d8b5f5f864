(** Proofs that the receiving loops can end once their context has (C109). *)
From Coq Require Import ZArith NArith Ascii String Lia.
From stdpp Require Import base gmap strings list.
From Verif Require Import GoBase Run Session SessionFacts SessionLink SessionAlone Loops LoopsFacts.

Local Open Scope list_scope.

(** ** Specification *)

(** The loop's goroutine and the network's answers to it; neither the container
    nor anybody else does anything. *)
Definition unaided (l : wlabel) : Prop :=
  match l with WGo | WSess (LStep _) | WSess (LWaitCtx _) | WSess (LNet _ _) => True | _ => False end.

(** ** The link is closed *)

Definition ended (s : wstate) (evs : list wev) : Prop :=
  w_pc s = WEnded -> WReturned ∈ evs /\ exists i r, WE (EvCall i (w_link s) KClose) ∈ evs /\ WE (EvRet i (w_link s) KClose r) ∈ evs.

Lemma ended_step k s evs lb s2 ev : WInv k s evs -> ended s evs -> wstep k s lb = Some (s2, ev) -> ended s2 (evs ++ ev).
Proof.
  intros HI HE H E2. unfold wstep in H. destruct (w_crash s) eqn:Ec; [discriminate H|].
  assert (w_pc s = WEnded -> w_link s2 = w_link s -> WReturned ∈ evs ++ ev /\ exists i r, WE (EvCall i (w_link s2) KClose) ∈ evs ++ ev /\ WE (EvRet i (w_link s2) KClose r) ∈ evs ++ ev) as Hold.
  { intros Ep ->. destruct (HE Ep) as (Ha & i & r & Hb & Hc). split; [set_solver|]. exists i, r. set_solver. }
  destruct lb as [lb|c|].
  - destruct (match lb with LOp _ _ => _ | _ => _ end); [|discriminate H]. destruct (sstep _ _) as [[s' e]|]; [|discriminate H]. injection H as <- <-. by apply Hold.
  - destruct (w_ctx s); [discriminate H|]. destruct (current _) eqn:Ecu; [destruct (sstep _ _) as [[s' e]|]; [|discriminate H]|]; injection H as <- <-; by apply Hold.
  - destruct (w_pc s) as [| |i|m|i m|m| |i|] eqn:Ep.
    + destruct (sstep _ _) as [[s' e]|]; [|discriminate H]. injection H as <- <-. discriminate E2.
    + destruct (calls_inv _ _ _ _ _ _ H) as (cls & _ & _ & -> & _). discriminate E2.
    + destruct (result _ _) as [r|]; [|discriminate H]. injection H as <- <-. unfold after_next in E2. destruct r, k; cbn in E2; repeat case_match; discriminate E2.
    + destruct (calls_inv _ _ _ _ _ _ H) as (cls & _ & _ & -> & _). discriminate E2.
    + destruct (result _ _) as [r|]; [|discriminate H]. injection H as <- <-. unfold after_accept in E2. destruct r, k; cbn in E2; repeat case_match; discriminate E2.
    + injection H as <- <-. discriminate E2.
    + destruct (calls_inv _ _ _ _ _ _ H) as (cls & _ & _ & -> & _). discriminate E2.
    + destruct (result s i) as [r|] eqn:Er; [|discriminate H]. injection H as <- <-. cbn [to w_link]. split; [set_solver|].
      destruct (wv_run _ _ _ HI) as [cls Hrun]. pose proof (ainv _ _ _ Hrun) as HA. pose proof (wv_kind _ _ _ HI) as Hk. rewrite Ep in Hk. destruct Hk as (o & Ho & Hk).
      destruct (wv_link _ _ _ HI) as [[_ Hs] _]; [by rewrite Ep|]. rewrite Ep in Hs. destruct (Hs i eq_refl) as (o' & Ho' & El). rewrite Ho in Ho'. injection Ho' as <-.
      unfold result in Er. rewrite Ho in Er. destruct (o_pc o) eqn:Epc; try discriminate Er. injection Er as ->.
      exists i, r. pose proof (ai_called _ _ HA _ _ Ho) as H1. pose proof (ai_done _ _ HA _ _ _ Ho Epc) as H2. rewrite El, Hk in H1, H2. apply elem_sess in H1, H2. set_solver.
    + discriminate H.
Qed.

Lemma is_ended k ls s evs : wrun k w_init ls = Some (s, evs) -> ended s evs.
Proof.
  revert s evs. induction ls as [|l ls IH] using rev_ind; intros s evs Hr; [by injection Hr as <- <-|].
  apply run_snoc in Hr as (s1 & ev1 & ev2 & H1 & H2 & ->). eapply ended_step; [by eapply winv|by apply IH|done].
Qed.

Lemma closes k ls s evs : wrun k w_init ls = Some (s, evs) -> WReturned ∈ evs ->
  exists i r, WE (EvCall i (w_link s) KClose) ∈ evs /\ WE (EvRet i (w_link s) KClose r) ∈ evs.
Proof. intros Hr Hin. pose proof (winv _ _ _ _ Hr) as HI. by destruct (is_ended _ _ _ _ Hr (wv_ret _ _ _ HI Hin)) as [_ ?]. Qed.

(** ** The way out *)

Section out.
Context (k : loop) (c : ctx_err).

Definition calm (s : wstate) : Prop := (exists evs, WInv k s evs) /\ w_ctx s = Some c /\ w_crash s = false /\ c_panic (w_s s) = false /\ c_lock (w_s s) = false.
Definition comes (s : wstate) (P : wstate -> list wev -> Prop) : Prop := exists ls s' ev, Forall unaided ls /\ wrun k s ls = Some (s', ev) /\ P s' ev.
Definition out (_ : wstate) (ev : list wev) : Prop := WReturned ∈ ev.

Lemma comes_here s (P : wstate -> list wev -> Prop) : P s [] -> comes s P.
Proof. intros H. by exists [], s, []. Qed.
Lemma comes_step s l s1 e1 (P : wstate -> list wev -> Prop) : unaided l -> wstep k s l = Some (s1, e1) -> comes s1 (fun s2 e2 => P s2 (e1 ++ e2)) -> comes s P.
Proof. intros Hu H (ls & s' & ev & Hf & Hr & HP). exists (l :: ls), s', (e1 ++ ev). split; [by constructor|]. split; [cbn [run]; by rewrite H, Hr|done]. Qed.
Lemma comes_out s l s1 e1 : unaided l -> wstep k s l = Some (s1, e1) -> comes s1 out -> comes s out.
Proof. intros Hu H Hc. eapply comes_step; [done..|]. destruct Hc as (ls & s' & ev & Hf & Hr & HP). exists ls, s', ev. split_and!; try done. unfold out in *. set_solver. Qed.
Lemma comes_trans s (P : wstate -> list wev -> Prop) : comes s P -> (forall s1 e1, P s1 e1 -> comes s1 out) -> comes s out.
Proof.
  intros (ls & s1 & e1 & Hf & Hr & HP) H. destruct (H s1 e1 HP) as (ls2 & s2 & e2 & Hf2 & Hr2 & HP2). exists (ls ++ ls2), s2, (e1 ++ e2). split; [by apply Forall_app|]. split; [by rewrite run_app, Hr, Hr2|]. unfold out in *. set_solver.
Qed.

(** Steps of the call that is running. *)
Lemma own_step s lb s' e i : calm s -> current (w_pc s) = Some i -> (lb = LStep i \/ lb = LWaitCtx i \/ exists r, lb = LNet i r) -> sstep (w_s s) lb = Some (s', e) ->
  c_panic s' = false -> c_lock s' = false -> (w_pc s = WAccepting i None -> forall l ob g, EvUse i l ob g ∉ e) ->
  let s1 := W s' (Some c) (w_link s) (w_pc s) false in unaided (WSess lb) /\ wstep k s (WSess lb) = Some (s1, WE <$> e) /\ calm s1.
Proof.
  intros ([evs HI] & Hx & Hcr & Hp & Hl) Hcu Hlb Hs Hp' Hl' Hu s1. split; [by destruct Hlb as [->|[->|[r ->]]]|].
  assert (wstep k s (WSess lb) = Some (s1, WE <$> e)) as Hw.
  { unfold wstep. rewrite Hcr. replace (match lb with LOp j _ => _ | LCtx i _ => _ | _ => _ end) with true by (by destruct Hlb as [->|[->|[r ->]]]). rewrite Hs. cbn zeta.
    replace (match w_pc s with WAccepting i None => _ | _ => false end) with false; [unfold s1; by rewrite Hx, app_nil_r|].
    destruct (w_pc s) as [| | | |i' [m|]| | | |]; try done. injection Hcu as ->. symmetry. apply not_true_iff_false. intros Hex. apply existsb_exists in Hex as (x & Hin & Hex).
    destruct x; try discriminate Hex. apply Nat.eqb_eq in Hex as ->. apply elem_of_list_In in Hin. by apply (Hu eq_refl) in Hin. }
  split; [done|]. split; [|done]. exists (evs ++ (WE <$> e)). by eapply WInv_step.
Qed.

Definition fresh (p : opc) : Prop := match p with PFail e => e = ECtx c | PReport _ _ | PClear _ | PClosing | PDone _ => False | _ => True end.
Definition eased (s : wstate) (p : opc) : Prop := fresh p \/ length (c_errs (w_s s)) < errs_cap \/ exists e, p = PClear e.
Definition rank (p : opc) : nat :=
  match p with PStart => 8 | PAwait _ => 7 | PGot _ _ => 6 | PGet => 5 | PCreate | PUse _ _ | PWait _ _ => 4 | PFail _ => 3 | PReport _ _ => 2 | PClear _ => 1 | PClosing | PDone _ => 0 end.

Definition receiving (p : wpc) (i : nat) : Prop := p = WNext i \/ exists m, p = WAccepting i m.

(** One step of a call of Next or Accept. *)
Lemma call_step s i o : calm s -> receiving (w_pc s) i -> c_ops (w_s s) !! i = Some o -> eased s (o_pc o) -> (forall r, o_pc o <> PDone r) ->
  exists l s1 e o1, unaided l /\ wstep k s l = Some (s1, e) /\ calm s1 /\ w_pc s1 = w_pc s /\ c_ops (w_s s1) !! i = Some o1 /\ o_kind o1 = o_kind o /\
    (fresh (o_pc o) -> fresh (o_pc o1) \/ exists r, o_pc o1 = PDone r /\ (o_kind o = KNext -> r = RErr (ECtx c))) /\
    rank (o_pc o1) < rank (o_pc o) /\ (eased s1 (o_pc o1) \/ exists r, o_pc o1 = PDone r).
Proof.
  intros HC Hrc Ho He Hnd. pose proof HC as ([evs HI] & Hx & Hcr & Hp & Hl).
  assert (current (w_pc s) = Some i) as Hcu by (by destruct Hrc as [->|[m ->]]).
  assert (w_pc s <> WNew) as Hnn by (by destruct Hrc as [->|[m ->]]).
  destruct (wv_link _ _ _ HI Hnn) as [[_ Hsole] _]. destruct (Hsole i Hcu) as (o' & Ho' & Elk). rewrite Ho in Ho'. injection Ho' as <-.
  assert (exists l, c_links (w_s s) !! w_link s = Some l /\ sane l /\ at_pc o l /\ o_ctx o = Some c /\ fine (w_pc s) (sess evs) o l) as (l & Hlk & [Hcl Hsa] & Hat & Hox & Hfi).
  { pose proof (wv_open _ _ _ HI) as Hop. destruct Hrc as [Ep|[m Ep]]; rewrite Ep in *; destruct Hop as (l & Hlk & Hsa & Hop & _); cbn [current] in Hop; destruct Hop as (o' & Ho' & Hat & Hox & Hf); rewrite Ho in Ho'; injection Ho' as <-;
      exists l; (destruct Hf as [Hf|Hf]; [congruence|]); split_and!; try done; congruence. }
  assert (o_kind o = KNext \/ o_kind o = KAccept) as Hkd.
  { destruct Hrc as [Ep|[m Ep]]; rewrite Ep in Hfi; cbn in Hfi; [left; tauto|right; destruct m; tauto]. }
  assert (i < length (c_ops (w_s s))) as Hlt by (by eapply lookup_lt_Some).
  (* a step to [p'], changing the link or not *)
  assert (forall lb p' ln er ok ev, lb = LStep i \/ lb = LWaitCtx i \/ (exists r, lb = LNet i r) ->
    sstep (w_s s) lb = Some (set_op i o p' (CState (c_pc (w_s s)) (c_local (w_s s)) (c_prev (w_s s)) (c_sess (w_s s)) (c_gen (w_s s)) (c_lock (w_s s)) (c_ctx (w_s s)) er ok ln (c_ops (w_s s)) false), ev) ->
    (w_pc s = WAccepting i None -> forall l ob g, EvUse i l ob g ∉ ev) ->
    (fresh (o_pc o) -> fresh p' \/ exists r, p' = PDone r /\ (o_kind o = KNext -> r = RErr (ECtx c))) -> rank p' < rank (o_pc o) ->
    (fresh p' \/ length er < errs_cap \/ (exists e, p' = PClear e) \/ exists r, p' = PDone r) ->
    exists l s1 e o1, unaided l /\ wstep k s l = Some (s1, e) /\ calm s1 /\ w_pc s1 = w_pc s /\ c_ops (w_s s1) !! i = Some o1 /\ o_kind o1 = o_kind o /\
    (fresh (o_pc o) -> fresh (o_pc o1) \/ exists r, o_pc o1 = PDone r /\ (o_kind o = KNext -> r = RErr (ECtx c))) /\
    rank (o_pc o1) < rank (o_pc o) /\ (eased s1 (o_pc o1) \/ exists r, o_pc o1 = PDone r)) as Hgo.
  { intros lb p' ln er ok ev Hlb Hs Hu Hfr Hrk Hq. edestruct (own_step s lb _ _ i HC Hcu Hlb Hs) as (Hun & Hw & HC1); [done|exact Hl|exact Hu|].
    eexists _, _, _, _. split; [exact Hun|]. split; [exact Hw|]. split; [exact HC1|]. split; [done|]. split; [cbn; by apply list_lookup_insert|]. split; [done|]. cbn [o_pc]. split; [done|]. split; [done|].
    unfold eased. cbn. tauto. }
  assert (forall lb p' ev, lb = LStep i \/ lb = LWaitCtx i \/ (exists r, lb = LNet i r) -> sstep (w_s s) lb = Some (set_op i o p' (w_s s), ev) ->
    sstep (w_s s) lb = Some (set_op i o p' (CState (c_pc (w_s s)) (c_local (w_s s)) (c_prev (w_s s)) (c_sess (w_s s)) (c_gen (w_s s)) (c_lock (w_s s)) (c_ctx (w_s s)) (c_errs (w_s s)) (c_oks (w_s s)) (c_links (w_s s)) (c_ops (w_s s)) false), ev)) as Hsame.
  { intros lb p' ev _ ->. unfold set_op, cs_ops. cbn. by rewrite Hp. }
  assert (forall e s', fails i o e s' = Some (set_op i o (PDone (RErr e)) s', [EvRet i (o_link o) (o_kind o) (RErr e)])) as Hfails.
  { intros e s'. unfold fails, ret. rewrite Hox. by destruct Hkd as [->| ->]. }
  assert (forall s2, part (o_kind o) s2 = l_rcv s2) as Hpart by (intros s2; by destruct Hkd as [->| ->]).
  unfold at_pc in Hat. destruct (o_pc o) as [|g|g n|x g| | |ob g|e|g e|e| |r] eqn:Epc.
  - (* PStart *) destruct (l_curr l) as [sid|] eqn:Ecur.
    + eapply (Hgo (LStep i) PGet); [by left| | |by left|cbn; lia|by left].
      * apply Hsame; [by left|]. unfold sstep. rewrite Hp, Ho, Elk, Hlk. unfold op_step. rewrite Epc, Hat, Hcl, Ecur. by destruct Hkd as [->| ->].
      * intros _ ? ? ?; apply not_elem_of_nil.
    + eapply (Hgo (LStep i) (PAwait (l_gen l))); [by left| | |by left|cbn; lia|by left].
      * apply Hsame; [by left|]. unfold sstep. rewrite Hp, Ho, Elk, Hlk. unfold op_step. rewrite Epc, Hat, Hcl, Ecur. by destruct Hkd as [->| ->].
      * intros _ ? ? ?; apply not_elem_of_nil.
  - (* PAwait *) destruct (g =? c_gen (w_s s)) eqn:Eg.
    + eapply (Hgo (LStep i) (PWait g (c_gen (w_s s)))); [by left| | |by left|cbn; lia|by left].
      * apply Hsame; [by left|]. unfold sstep. rewrite Hp, Ho, Elk, Hlk. unfold op_step. by rewrite Epc, Hl, Eg.
      * intros _ ? ? ?; apply not_elem_of_nil.
    + eapply (Hgo (LStep i) (PGot (c_sess (w_s s)) (c_gen (w_s s)))); [by left| | |by left|cbn; lia|by left].
      * apply Hsame; [by left|]. unfold sstep. rewrite Hp, Ho, Elk, Hlk. unfold op_step. by rewrite Epc, Hl, Eg.
      * intros _ ? ? ?; apply not_elem_of_nil.
  - (* PWait *) eapply (Hgo (LWaitCtx i) (PFail (ECtx c))); [by right; left| | |by left|cbn; lia|by left].
    + apply Hsame; [by right; left|]. unfold sstep. by rewrite Hp, Ho, Epc, Hox.
    + intros _ ? ? ?; apply not_elem_of_nil.
  - (* PGot *) eapply (Hgo (LStep i) PGet (<[w_link s := Lnk (l_closed l) g x (l_rcv l) (l_snd l) false]> (c_links (w_s s)))); [by left| | |by left|cbn; lia|by left].
    + unfold sstep. rewrite Hp, Ho, Elk, Hlk. unfold op_step. destruct Hat as (Hlo & _). rewrite Epc, Hlo, Elk. unfold set_op, set_link, cs_links, cs_ops, cs_errs. cbn. rewrite Hp. reflexivity.
    + intros _ ? ? ?; apply not_elem_of_nil.
  - (* PGet *) destruct Hat as [Hlo Hcur]. destruct (l_curr l) as [sid|] eqn:Ecur; [|done]. destruct (l_rcv l) as [g [ob|]] eqn:Erc.
    + destruct (g =? l_gen l) eqn:Eg.
      * eapply (Hgo (LStep i) (PUse ob g)); [by left| | |by left|cbn; lia|by left].
        -- apply Hsame; [by left|]. unfold sstep. rewrite Hp, Ho, Elk, Hlk. unfold op_step. by rewrite Epc, Hlo, Hpart, Erc, Eg.
        -- intros Ep. rewrite Ep in Hfi. cbn in Hfi. destruct Hfi as (_ & _ & Hno & _). by rewrite Erc in Hno.
      * eapply (Hgo (LStep i) PCreate (<[w_link s := locked true l]> (c_links (w_s s)))); [by left| | |by left|cbn; lia|by left].
        -- unfold sstep. rewrite Hp, Ho, Elk, Hlk. unfold op_step. rewrite Epc, Hlo, Hpart, Erc, Eg, Ecur, Elk. unfold set_op, set_link, cs_links, cs_ops, cs_errs. cbn. rewrite Hp. reflexivity.
        -- intros _ ? ? ? Hin. by apply elem_of_list_singleton in Hin.
    + eapply (Hgo (LStep i) PCreate (<[w_link s := locked true l]> (c_links (w_s s)))); [by left| | |by left|cbn; lia|by left].
      -- unfold sstep. rewrite Hp, Ho, Elk, Hlk. unfold op_step. rewrite Epc, Hlo, Hpart, Erc, Ecur, Elk. unfold set_op, set_link, cs_links, cs_ops, cs_errs. cbn. rewrite Hp. reflexivity.
      -- intros _ ? ? ? Hin. by apply elem_of_list_singleton in Hin.
  - (* PCreate *) eapply (Hgo (LNet i (NErr (Some c))) (PFail (ECtx c)) (<[w_link s := locked false l]> (c_links (w_s s)))); [right; right; by eexists| | |by left|cbn; lia|by left].
    + unfold sstep. rewrite Hp, Ho, Elk, Hlk. unfold net_step. rewrite Epc, Elk. unfold set_op, set_link, cs_links, cs_ops, cs_errs. cbn. rewrite Hp. reflexivity.
    + intros _ ? ? ? Hin. by apply elem_of_list_singleton in Hin.
  - (* PUse *) destruct Hkd as [Hkd|Hkd].
    + eapply (Hgo (LNet i (NErr (Some c))) (PFail (ECtx c))); [right; right; by eexists| | |by left|cbn; lia|by left].
      * apply Hsame; [right; right; by eexists|]. unfold sstep. rewrite Hp, Ho, Elk, Hlk. unfold net_step. rewrite Epc, Hkd. reflexivity.
      * intros _ ? ? ? Hin. by apply elem_of_list_singleton in Hin.
    + eapply (Hgo (LNet i (NErr (Some c))) (PDone (RErr (ECtx c)))); [right; right; by eexists| | | |cbn; lia|].
      * apply Hsame; [right; right; by eexists|]. unfold sstep. rewrite Hp, Ho, Elk, Hlk. unfold net_step. rewrite Epc, Hkd. reflexivity.
      * intros _ ? ? ? Hin. by apply elem_of_list_singleton in Hin.
      * intros _. right. by eexists.
      * do 3 right. by eexists.
  - (* PFail *) destruct Hat as [Hlo Hnc]. destruct (decide (e = ECtx c)) as [->|Hne].
    + eapply (Hgo (LStep i) (PDone (RErr (ECtx c)))); [by left| | | |cbn; lia|].
      * apply Hsame; [by left|]. unfold sstep. rewrite Hp, Ho, Elk, Hlk. unfold op_step. rewrite Epc, bool_decide_true; [apply Hfails|]. by rewrite Hox.
      * intros _ ? ? ? Hin. by apply elem_of_list_singleton in Hin.
      * intros _. right. by eexists.
      * do 3 right. by eexists.
    + eapply (Hgo (LStep i) (PReport (l_gen l) e)); [by left| | | |cbn; lia|].
      * apply Hsame; [by left|]. unfold sstep. rewrite Hp, Ho, Elk, Hlk. unfold op_step. rewrite Epc, bool_decide_false, bool_decide_false; [done|done|]. rewrite Hox. cbn. intros [_ [= E]]. done.
      * intros _ ? ? ?; apply not_elem_of_nil.
      * intros Hf. cbn in Hf. done.
      * right. left. destruct He as [Hf|[Hr|[e' Hr]]]; [cbn in Hf; done|done|discriminate Hr].
  - (* PReport *) destruct He as [[]|[Hr|[e' Hr]]]; [|discriminate Hr].
    eapply (Hgo (LStep i) (PClear e) (c_links (w_s s)) (c_errs (w_s s) ++ [g])); [by left| | |by intros []|cbn; lia|].
    + unfold sstep. rewrite Hp, Ho, Elk, Hlk. unfold op_step. rewrite Epc. apply Nat.ltb_lt in Hr. rewrite Hr. unfold set_op, set_link, cs_links, cs_ops, cs_errs. cbn. rewrite Hp. reflexivity.
    + intros _ ? ? ? Hin. by apply elem_of_list_singleton in Hin.
    + right. right. left. by eexists.
  - (* PClear *) destruct Hat as [Hlo _].
    eapply (Hgo (LStep i) (PDone (RErr e)) (<[w_link s := Lnk (l_closed l) (l_gen l) None (fst (l_rcv l), None) (fst (l_snd l), None) false]> (c_links (w_s s)))); [by left| | |by intros []|cbn; lia|].
    + unfold sstep. rewrite Hp, Ho, Elk, Hlk. unfold op_step. rewrite Epc, Hlo, Hfails. unfold set_link. rewrite Elk. unfold set_op, set_link, cs_links, cs_ops, cs_errs. cbn. rewrite Hp. reflexivity.
    + intros _ ? ? ? Hin. by apply elem_of_list_singleton in Hin.
    + do 3 right. by eexists.
  - done.
  - by destruct (Hnd r).
Qed.

Lemma call_ends n : forall s i o, rank (o_pc o) <= n -> calm s -> receiving (w_pc s) i -> c_ops (w_s s) !! i = Some o -> eased s (o_pc o) \/ (exists r, o_pc o = PDone r) ->
  comes s (fun s1 _ => calm s1 /\ w_pc s1 = w_pc s /\ exists r, result s1 i = Some r /\ (forall r0, o_pc o = PDone r0 -> r = r0) /\ (fresh (o_pc o) -> o_kind o = KNext -> r = RErr (ECtx c))).
Proof.
  induction n as [|n IH]; intros s i o Hrk HC Hrc Ho He;
    (assert ((exists r, o_pc o = PDone r) \/ forall r, o_pc o <> PDone r) as [[r Epc]|Hnd] by (destruct (o_pc o); [by right..|left; by eexists]);
     [apply comes_here; split; [done|]; split; [done|]; exists r; unfold result; rewrite Ho, Epc; split; [done|]; split; [congruence|by intros []]|]);
    (destruct He as [He|[r Epc]]; [|by destruct (Hnd r)]);
    destruct (call_step _ _ _ HC Hrc Ho He Hnd) as (l & s1 & e & o1 & Hun & Hw & HC1 & Hpc & Ho1 & Hk1 & Hfr & Hlt & He1).
  - lia.
  - eapply comes_step; [exact Hun|exact Hw|]. assert (rank (o_pc o1) <= n) as Hr1 by lia. assert (receiving (w_pc s1) i) as Hrc1 by (by rewrite Hpc).
    destruct (IH s1 i o1 Hr1 HC1 Hrc1 Ho1 He1) as (ls & s2 & ev & Hf & Hr & HC2 & Hpc2 & r & Hres & Hq0 & Hq). exists ls, s2, ev. split; [done|]. split; [done|]. split; [done|]. split; [congruence|].
    exists r. split; [done|]. split; [intros r0 E; by destruct (Hnd r0)|].
    intros Hf0 Hk0. destruct (Hfr Hf0) as [Hf1|(r1 & Epc1 & Hr1')]; [apply Hq; [done|congruence]|]. rewrite (Hq0 _ Epc1). by apply Hr1'.
Qed.

(** A call the loop makes. *)
Lemma goes_call s kd p ev : calm s -> w_pc s <> WNew -> wstep k s WGo = calls s kd p ev ->
  exists s1 e1, wstep k s WGo = Some (s1, e1) /\ calm s1 /\ w_pc s1 = p (length (c_ops (w_s s))) /\ w_link s1 = w_link s /\
    c_ops (w_s s1) !! length (c_ops (w_s s)) = Some (Op (w_link s) kd (Some c) PStart).
Proof.
  intros HC Hn Hc. pose proof HC as ([evs HI] & Hx & Hcr & Hp & Hl). destruct (wv_link _ _ _ HI Hn) as [_ [l Hlk]].
  assert (exists s1 e1, calls s kd p ev = Some (s1, e1)) as (s1 & e1 & E).
  { unfold calls. rewrite Hx. cbn [run]. unfold sstep at 1. rewrite Hp, Hlk. unfold sstep. cbn [cs_ops c_panic c_ops]. rewrite Hp. rewrite lookup_app_r by lia. rewrite Nat.sub_diag. cbn. by eexists _, _. }
  exists s1, e1. rewrite <- Hc in E. split; [done|]. pose proof (WInv_step _ _ _ _ _ _ HI E) as HI1. rewrite Hc in E. destruct (calls_inv _ _ _ _ _ _ E) as (cls & _ & _ & -> & _ & _). cbn in *.
  split; [split; [by eexists|done]|]. split; [done|]. split; [done|]. rewrite lookup_app_r by lia. rewrite Nat.sub_diag. cbn. by rewrite Hx.
Qed.
Lemma goes_to s p ev : calm s -> wstep k s WGo = Some (to p s, ev) -> calm (to p s).
Proof. intros ([evs HI] & Hx & Hcr & Hp & Hl) H. split; [exists (evs ++ ev); by eapply WInv_step|done]. Qed.
Lemma go_at s : calm s -> w_crash s = false.
Proof. by intros (_ & _ & ? & _). Qed.

Lemma from_closing s i : calm s -> w_pc s = WClosing i -> comes s out.
Proof.
  intros HC Ep. assert (forall s, calm s -> w_pc s = WClosing i -> is_Some (result s i) -> comes s out) as Hdone.
  { clear s HC Ep. intros s HC Ep [r Hr]. eapply (comes_step s WGo); [done| |apply comes_here]; [unfold wstep; rewrite (go_at _ HC), Ep, Hr; reflexivity|]. by left. }
  assert (forall s l, calm s -> w_pc s = WClosing i -> (exists o, c_ops (w_s s) !! i = Some o /\ o_pc o = PClosing /\ c_links (w_s s) !! o_link o = Some l) -> comes s out) as Hshut.
  { clear s HC Ep. intros s l HC Ep (o & Ho & Epc & Hlk). pose proof HC as (_ & _ & _ & Hp & Hl). assert (i < length (c_ops (w_s s))) as Hlt by (by eapply lookup_lt_Some).
    edestruct (own_step s (LNet i NOk) (set_op i o (PDone ROk) (set_link (o_link o) (locked false l) (w_s s))) [EvRet i (o_link o) (o_kind o) ROk] i HC) as (Hun & Hw & HC1); [by rewrite Ep|right; right; by eexists| |done|done|by rewrite Ep|].
    - unfold sstep. rewrite Hp, Ho, Hlk. unfold net_step. by rewrite Epc.
    - eapply comes_out; [exact Hun|exact Hw|]. apply Hdone; [done|done|]. unfold result. cbn. rewrite list_lookup_insert by done. by eexists. }
  pose proof HC as ([evs HI] & _ & _ & Hp & Hl). pose proof (wv_kind _ _ _ HI) as Hk. rewrite Ep in Hk. destruct Hk as (o & Ho & Hk).
  destruct (wv_link _ _ _ HI) as [[Hs1 Hs2] [l Hlk]]; [by rewrite Ep|]. rewrite Ep in Hs1, Hs2. destruct (Hs2 i eq_refl) as (o' & Ho' & Elk). rewrite Ho in Ho'. injection Ho' as <-.
  destruct (wv_run _ _ _ HI) as [cls Hrun]. pose proof (ainv _ _ _ Hrun) as HA. pose proof (ai_kind _ _ HA _ _ Ho) as Hkp. assert (i < length (c_ops (w_s s))) as Hlt by (by eapply lookup_lt_Some).
  destruct (o_pc o) as [|g|g n|x g| | |ob g|e|g e|e| |r] eqn:Epc; try (by destruct Hkp).
  - assert (l_lock l = false) as Hlo.
    { destruct (l_lock l) eqn:E; [|done]. destruct (ai_lock _ _ HA _ _ Hlk E) as (i' & o' & Ho' & El' & Hh). destruct (Hs1 _ _ Ho' El') as [[= <-]|Hd].
      - rewrite Ho in Ho'. injection Ho' as <-. unfold holds in Hh. by rewrite Epc in Hh.
      - unfold holds in Hh. unfold is_done in Hd. by destruct (o_pc o'). }
    destruct (snd (l_rcv l)) as [ob|] eqn:Er.
    + edestruct (own_step s (LStep i) (set_op i o PClosing (set_link (o_link o) (Lnk true (l_gen l) None (fst (l_rcv l), None) (fst (l_snd l), None) true) (w_s s))) [] i HC) as (Hun & Hw & HC1); [by rewrite Ep|by left| |done|done|by rewrite Ep|].
      * unfold sstep. rewrite Hp, Ho, Elk, Hlk. unfold op_step. by rewrite Epc, Hlo, Hk, Er, Elk.
      * eapply comes_out; [exact Hun|exact Hw|]. eapply Hshut; [done|done|]. cbn. rewrite list_lookup_insert by done. eexists. split; [reflexivity|]. cbn. split; [done|]. rewrite Elk. apply list_lookup_insert. by eapply lookup_lt_Some.
    + edestruct (own_step s (LStep i) (set_op i o (PDone ROk) (set_link (o_link o) (Lnk true (l_gen l) None (fst (l_rcv l), None) (fst (l_snd l), None) false) (w_s s))) [EvRet i (o_link o) (o_kind o) ROk] i HC) as (Hun & Hw & HC1); [by rewrite Ep|by left| |done|done|by rewrite Ep|].
      * unfold sstep. rewrite Hp, Ho, Elk, Hlk. unfold op_step. unfold ret; rewrite Epc, Hlo, Hk, Er, Elk; reflexivity.
      * eapply comes_out; [exact Hun|exact Hw|]. apply Hdone; [done|done|]. unfold result. cbn. rewrite list_lookup_insert by done. by eexists.
  - eapply Hshut; [done|done|]. exists o. split_and!; try done. by rewrite Elk.
  - apply Hdone; [done|done|]. unfold result. rewrite Ho, Epc. by eexists.
Qed.

Lemma from_close s : calm s -> w_pc s = WClose -> comes s out.
Proof.
  intros HC Ep. destruct (goes_call s KClose WClosing (fun _ => [])) as (s1 & e1 & Hw & HC1 & Ep1 & _); [done|by rewrite Ep|unfold wstep; by rewrite (go_at _ HC), Ep|].
  eapply (comes_out s WGo); [done|exact Hw|]. by eapply from_closing.
Qed.

Lemma own_now s : calm s -> is_own s (ECtx c) = true.
Proof. intros (_ & Hx & _). unfold is_own. rewrite Hx. by apply bool_decide_true. Qed.

Lemma from_top s : calm s -> w_pc s = WTop -> comes s out.
Proof.
  intros HC Ep. destruct (goes_call s KNext WNext (fun _ => [])) as (s1 & e1 & Hw & HC1 & Ep1 & _ & Ho1); [done|by rewrite Ep|unfold wstep; by rewrite (go_at _ HC), Ep|].
  eapply (comes_out s WGo); [done|exact Hw|]. eapply comes_trans; [eapply (call_ends 8 s1 _ _); [|done|left; exact Ep1|exact Ho1|left; by left]; cbn; lia|].
  intros s2 e2 (HC2 & Ep2 & r & Hr & _ & Hown). cbn in Hown. specialize (Hown I eq_refl). subst r. rewrite Ep1 in Ep2.
  assert (wstep k s2 WGo = Some (to WClose s2, [])) as Hw2.
  { unfold wstep. rewrite (go_at _ HC2), Ep2, Hr. unfold after_next. rewrite (own_now _ HC2). by destruct k. }
  eapply (comes_out s2 WGo); [done|exact Hw2|]. apply from_close; [by eapply goes_to|done].
Qed.

Lemma from_hand s m : calm s -> w_pc s = WHand m -> comes s out.
Proof.
  intros HC Ep. assert (wstep k s WGo = Some (to WTop s, [WHanded m])) as Hw by (unfold wstep; by rewrite (go_at _ HC), Ep).
  eapply (comes_out s WGo); [done|exact Hw|]. apply from_top; [by eapply goes_to|done].
Qed.

Lemma after_accepting s i m r : calm s -> w_pc s = WAccepting i m -> result s i = Some r -> comes s out.
Proof.
  intros HC Ep Hr. assert (wstep k s WGo = Some (to (after_accept k s m r) s, [])) as Hw by (unfold wstep; by rewrite (go_at _ HC), Ep, Hr).
  eapply (comes_out s WGo); [done|exact Hw|]. pose proof (goes_to _ _ _ HC Hw) as HC1. revert HC1. unfold after_accept. 
  destruct k eqn:Ek, r as [|e]; intros HC1; try (rewrite <- Ek in *; by eapply from_hand); destruct (is_own s e); rewrite <- Ek in *; [by apply from_close|by apply from_top].
Qed.

Lemma from_accepting s i m o : calm s -> w_pc s = WAccepting i m -> c_ops (w_s s) !! i = Some o -> eased s (o_pc o) \/ (exists r, o_pc o = PDone r) -> comes s out.
Proof.
  intros HC Ep Ho He. eapply comes_trans; [eapply (call_ends (rank (o_pc o)) s i o); [done|done|right; by exists m|done|done]|].
  intros s2 e2 (HC2 & Ep2 & r & Hr & _). rewrite Ep in Ep2. by eapply after_accepting.
Qed.

Lemma from_accept s m : calm s -> w_pc s = WAccept m -> comes s out.
Proof.
  intros HC Ep. destruct (goes_call s KAccept (fun j => WAccepting j m) (fun j => [WCalls j m])) as (s1 & e1 & Hw & HC1 & Ep1 & _ & Ho1); [done|by rewrite Ep|unfold wstep; by rewrite (go_at _ HC), Ep|].
  eapply (comes_out s WGo); [done|exact Hw|]. eapply from_accepting; [done|exact Ep1|exact Ho1|left; by left].
Qed.

Lemma from_next s i o : calm s -> w_pc s = WNext i -> c_ops (w_s s) !! i = Some o -> eased s (o_pc o) \/ (exists r, o_pc o = PDone r) -> comes s out.
Proof.
  intros HC Ep Ho He. eapply comes_trans; [eapply (call_ends (rank (o_pc o)) s i o); [done|done|by left|done|done]|].
  intros s2 e2 (HC2 & Ep2 & r & Hr & _). rewrite Ep in Ep2.
  assert (exists ev, wstep k s2 WGo = Some (to (after_next k s2 i r).1 s2, ev)) as [ev Hw] by (unfold wstep; rewrite (go_at _ HC2), Ep2, Hr; by eexists).
  eapply (comes_out s2 WGo); [done|exact Hw|]. pose proof (goes_to _ _ _ HC2 Hw) as HC3. revert HC3. clear Hw. unfold after_next.
  destruct r as [|e]; [intros HC3; by eapply from_accept|].
  destruct k; cbn [fst]; intros HC3; [destruct (is_own s2 e); [by apply from_close|by apply from_top]|destruct (is_own s2 e); [by apply from_close|by eapply from_accept]|by apply from_close].
Qed.

Lemma from_new s : calm s -> w_pc s = WNew -> comes s out.
Proof.
  intros HC Ep. pose proof HC as ([evs HI] & Hx & Hcr & Hp & Hl).
  assert (exists s' e, sstep (w_s s) LLink = Some (s', e) /\ c_panic s' = false /\ c_lock s' = false) as (s' & e & Hs & Hp' & Hl') by (unfold sstep; rewrite Hp, Hl; by eexists _, _).
  assert (wstep k s WGo = Some (W s' (w_ctx s) (length (c_links (w_s s))) WTop (w_crash s), WE <$> e)) as Hw by (unfold wstep; by rewrite Hcr, Ep, Hs).
  eapply (comes_out s WGo); [done|exact Hw|]. apply from_top; [|done]. split; [exists (evs ++ (WE <$> e)); by eapply WInv_step|done].
Qed.

Lemma gets_out s : calm s -> w_pc s <> WEnded -> length (c_errs (w_s s)) < errs_cap -> comes s out.
Proof.
  intros HC Hne Hroom. pose proof HC as ([evs HI] & _). pose proof (wv_kind _ _ _ HI) as Hk. destruct (w_pc s) as [| |i|m|i m|m| |i|] eqn:Ep; try done.
  - by apply from_new.
  - by apply from_top.
  - destruct Hk as (o & Ho & _). eapply from_next; [done..|]. left. right. by left.
  - by eapply from_accept.
  - destruct Hk as (o & Ho & _). eapply from_accepting; [done..|]. left. right. by left.
  - by eapply from_hand.
  - by apply from_close.
  - by eapply from_closing.
Qed.
End out.

Lemma kept_ctx k ls : forall s s' ev c, wrun k s ls = Some (s', ev) -> w_ctx s = Some c -> w_ctx s' = Some c.
Proof.
  induction ls as [|l ls IH]; intros s s' ev c H Hx; [by injection H as <- <-|]. cbn [run] in H. destruct (wstep k s l) as [[s1 e1]|] eqn:E; [|discriminate H].
  destruct (wrun k s1 ls) as [[s2 e2]|] eqn:E2; [|discriminate H]. injection H as <- <-. eapply IH; [exact E2|]. clear IH E2. unfold wstep in E. destruct (w_crash s); [discriminate E|].
  destruct l as [lb|c'|]; [destruct (match lb with LOp _ _ => _ | _ => _ end); [|discriminate E]; destruct (sstep _ _) as [[? ?]|]; [|discriminate E]; by injection E as <- <-|by rewrite Hx in E|].
  destruct (w_pc s) as [| |i|m|i m|m| |i|]; try discriminate E; try (destruct (calls_inv _ _ _ _ _ _ E) as (? & _ & _ & -> & _); done);
    try (destruct (sstep _ _) as [[? ?]|]; [|discriminate E]; by injection E as <- <-); try (destruct (result _ _); [|discriminate E]; by injection E as <- <-). by injection E as <- <-.
Qed.

Lemma told_ctx k ls : forall s s' ev c, wrun k s ls = Some (s', ev) -> WCancel c ∈ ls -> w_ctx s' = Some c.
Proof.
  induction ls as [|l ls IH]; intros s s' ev c H Hin; [by apply elem_of_nil in Hin|]. cbn [run] in H. destruct (wstep k s l) as [[s1 e1]|] eqn:E; [|discriminate H].
  destruct (wrun k s1 ls) as [[s2 e2]|] eqn:E2; [|discriminate H]. injection H as <- <-. apply elem_of_cons in Hin as [<-|Hin]; [|by eapply IH].
  eapply kept_ctx; [exact E2|]. unfold wstep in E. destruct (w_crash s); [discriminate E|]. destruct (w_ctx s); [discriminate E|].
  destruct (current _); [destruct (sstep _ _) as [[? ?]|]; [|discriminate E]|]; by injection E as <- <-.
Qed.

Lemma can_end k ls s evs c : wrun k w_init ls = Some (s, evs) -> WCancel c ∈ ls -> WCrash ∉ evs -> WReturned ∉ evs -> c_panic (w_s s) = false -> c_lock (w_s s) = false -> length (c_errs (w_s s)) < errs_cap ->
  exists ls' s' ev, Forall unaided ls' /\ wrun k s ls' = Some (s', ev) /\ WReturned ∈ ev.
Proof.
  intros Hr Hc Hcr Hre Hp Hl Hroom. pose proof (winv _ _ _ _ Hr) as HI. apply (gets_out k c); [|intros E; by destruct (is_ended _ _ _ _ Hr E)|done].
  split; [by eexists|]. split; [by eapply told_ctx|]. split; [|done]. destruct (w_crash s) eqn:E; [|done]. by apply (wv_crash2 _ _ _ HI) in E.
Qed.

(** ** Where it cannot *)

(** A loop whose call of Next waits to report an error stays there once the
    container has stopped and the queue of errors is full. *)
Lemma stuck k ls s evs i o g e : wrun k w_init ls = Some (s, evs) -> WE EvStopped ∈ evs -> errs_cap <= length (c_errs (w_s s)) -> w_pc s = WNext i -> c_ops (w_s s) !! i = Some o -> o_pc o = PReport g e ->
  forall ls' s' ev, wrun k s ls' = Some (s', ev) -> WReturned ∉ ev.
Proof.
  intros Hr Hst Hf Ep Ho Epc. destruct (wv_run _ _ _ (winv _ _ _ _ Hr)) as [cls Hrun]. apply elem_sess in Hst.
  enough (forall ls' s' ev, wrun k s ls' = Some (s', ev) -> WReturned ∉ ev /\ w_pc s' = WNext i /\ exists cls', srun (w_s s) cls' = Some (w_s s', sess ev)) as H by (intros ls' s' ev Hr'; by apply (H ls' s')).
  intros ls'. induction ls' as [|l ls' IH] using rev_ind; intros s' ev Hr'.
  - injection Hr' as <- <-. split; [apply not_elem_of_nil|]. split; [done|]. by exists [].
  - apply run_snoc in Hr' as (s1 & ev1 & ev2 & H1 & H2 & ->). destruct (IH _ _ H1) as (Hn & Ep1 & cls1 & Hc1).
    assert (forall lb s2 e2, sstep (w_s s1) lb = Some (s2, e2) -> srun (w_s s) (cls1 ++ [lb]) = Some (s2, sess ev1 ++ e2)) as Hsn.
    { intros lb s2 e2 E. rewrite run_app, Hc1, run_one, E. done. }
    unfold wstep in H2. destruct (w_crash s1); [discriminate H2|]. rewrite Ep1 in H2. cbn [current] in H2. destruct l as [lb|c|].
    + destruct (match lb with LOp _ _ => _ | _ => _ end); [|discriminate H2]. destruct (sstep (w_s s1) lb) as [[s2 e2]|] eqn:E; [|discriminate H2]. injection H2 as <- <-. rewrite app_nil_r.
      split; [rewrite elem_of_app; intros [?|Hx]; [done|by apply not_ret_WE in Hx]|]. split; [done|]. rewrite sess_app, sess_WE. eexists. by apply Hsn.
    + destruct (w_ctx s1); [discriminate H2|]. destruct (sstep _ _) as [[s2 e2]|] eqn:E; [|discriminate H2]. injection H2 as <- <-.
      split; [rewrite elem_of_app; intros [?|Hx]; [done|by apply not_ret_WE in Hx]|]. split; [done|]. rewrite sess_app, sess_WE. eexists. by apply Hsn.
    + exfalso. destruct (result s1 i) as [r|] eqn:Er; [|discriminate H2]. unfold result in Er. destruct (c_ops (w_s s1) !! i) as [o1|] eqn:Ho1; [|discriminate Er]. destruct (o_pc o1) eqn:Epc1; try discriminate Er. injection Er as ->.
      assert (srun c_init (cls ++ cls1) = Some (w_s s1, sess evs ++ sess ev1)) as Hc2 by (by rewrite run_app, Hrun, Hc1).
      pose proof (ai_done _ _ (ainv _ _ _ Hc2) _ _ _ Ho1 Epc1) as Hin. apply elem_of_app in Hin as [Hin|Hin].
      * destruct (ai_ret _ _ (ainv _ _ _ Hrun) _ _ _ _ Hin) as (o2 & Ho2 & _ & _ & Epc2). congruence.
      * by apply (stuck_report _ _ _ _ _ _ _ _ _ _ Hrun Hc1 Hst Hf Ho Epc) in Hin.
Qed.
