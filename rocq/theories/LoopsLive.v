(** Proofs that the receiving loops go on (C109). *)
From Coq Require Import ZArith NArith Ascii String Lia.
From stdpp Require Import base gmap strings list.
From Verif Require Import GoBase Run Session SessionFacts SessionCont SessionLink SessionLive Loops LoopsFacts.

Local Open Scope list_scope.

Definition looping (p : wpc) : bool := match p with WNew | WClosing _ | WEnded => false | _ => true end.
(** A link without a session had none from the start or reported it. *)
Definition cleared (s : wstate) (evs : list wev) : Prop :=
  looping (w_pc s) = true -> forall l, c_links (w_s s) !! w_link s = Some l ->
    (l_curr l = None -> l_gen l = 0 \/ exists i, EvReport i (w_link s) (l_gen l) ∈ sess evs) /\
    (forall i o e, current (w_pc s) = Some i -> c_ops (w_s s) !! i = Some o -> o_pc o = PClear e -> exists i', EvReport i' (w_link s) (l_gen l) ∈ sess evs).

Lemma cleared_sess k s evs lb s' e cr evs2 : WInv k s evs -> cleared s evs -> w_crash s = false ->
  match lb with LOp j _ => match w_pc s with WNew => true | _ => negb (j =? w_link s) end | LCtx i _ => bool_decide (current (w_pc s) <> Some i) | _ => true end = true ->
  sstep (w_s s) lb = Some (s', e) -> sess evs2 = e -> cleared (W s' (w_ctx s) (w_link s) (w_pc s) cr) (evs ++ evs2).
Proof.
  intros HI HC Hcr Hlb H Es Hlp l2 Hl2. cbn [w_s w_link w_pc] in *. rewrite sess_app, Es. specialize (HC Hlp). destruct (wv_run _ _ _ HI) as [cls Hr]. pose proof (ginv _ _ _ Hr) as HG.
  assert (w_pc s <> WNew) as Hn by (intros E; by rewrite E in Hlp). destruct (wv_link _ _ _ HI Hn) as [Hso Hli]. pose proof (wv_open _ _ _ HI) as Hop.
  assert ((forall i c, current (w_pc s) = Some i -> lb <> LCtx i c) /\ forall k0, lb <> LOp (w_link s) k0) as [Hn1 Hn2].
  { split; [intros i c Hc ->; by apply bool_decide_eq_true in Hlb|]. intros k0 ->. destruct (w_pc s); try done; by rewrite Nat.eqb_refl in Hlb. }
  assert (forall g, (exists i, EvReport i (w_link s) g ∈ sess evs) -> exists i, EvReport i (w_link s) g ∈ sess evs ++ e) as Hmore by (intros g [i Hi]; exists i; apply elem_of_app; by left).
  destruct (step_split _ _ _ _ _ _ _ HG Hso Hn2 Hn1 H Hli) as [_ [(E1 & Eo & _)|(i & o & l & Hc & Hown & Ho & El & Hl & Hcase)]].
  - rewrite E1 in Hl2. destruct (HC _ Hl2) as [H1 H2]. split; [intros Hcu; destruct (H1 Hcu) as [?|?]; [by left|right; by apply Hmore]|].
    intros i o er Hc Ho Ep. destruct Hso as [_ Hex]. destruct (Hex _ Hc) as (o1 & Ho1 & _). rewrite (Eo _ _ Hc Ho1) in Ho. injection Ho as <-. apply Hmore. by eapply H2.
  - assert (exists o', c_ops (w_s s) !! i = Some o' /\ at_pc o' l /\ sane l) as (o' & Ho' & Ha & Hsn).
    { destruct (w_pc s); try discriminate Hc; try discriminate Hlp; injection Hc as ->; destruct Hop as (l0 & Hl0 & Hs0 & (o0 & Ho0 & Ha0 & _) & _); rewrite Hl in Hl0; injection Hl0 as <-; by exists o0. }
    rewrite Ho in Ho'. injection Ho' as <-. unfold at_pc in Ha.
    destruct Hcase as [[Ep Ec]|(p & l' & er & ok & Ht & ->)]; [rewrite Ep in Ha; by destruct Ha|].
    assert (l2 = l') as ->. { unfold upd in Hl2; cbn in Hl2. rewrite El, list_lookup_insert in Hl2 by (by eapply lookup_lt_Some). by injection Hl2 as <-. }
    destruct (HC _ Hl) as [H1 H2].
    assert (o_kind o <> KClose) as Hkc.
    { pose proof (wv_kind _ _ _ HI) as Hkd. destruct (w_pc s); try discriminate Hc; try discriminate Hlp; injection Hc as ->; destruct Hkd as (o2 & Ho2 & Ek); congruence. }
    assert (forall i0 o0 e0, current (w_pc s) = Some i0 -> c_ops (upd (w_s s) i o p l' er ok) !! i0 = Some o0 -> o_pc o0 = PClear e0 -> p = PClear e0) as Hp.
    { intros i0 o0 e0 Hc0 Ho0 Ep0. assert (i0 = i) as -> by congruence. unfold upd in Ho0; cbn in Ho0. rewrite list_lookup_insert in Ho0 by (by eapply lookup_lt_Some). by injection Ho0 as <-. }
    assert (l_curr l = None -> l_gen l = 0 \/ exists i0, EvReport i0 (w_link s) (l_gen l) ∈ sess evs ++ e) as H1'.
    { intros Hcu. destruct (H1 Hcu) as [?|?]; [by left|right; by apply Hmore]. }
    destruct Ht as [? ? ? ?|? ? ? ?|? ? ? ?|sid Ep ? ? ? Ec|Ep ? ? ? Ec|g Ep ? ->|g Ep ? Hg|g n Ep ?|g n c Ep Ex|x g Ep ?|ob Ep ? Er|sid Ep ? Ec|sid Ep Ec|c Ep|ob g Ep ?|ob g ok Ep ?|ob g c Ep ?|ob g c Ep ?|Ep ?|e0 Ep ? ?|e0 Ep ?|g e0 Ep ?|e0 Ep ? ?|e0 Ep ? ?|r Ep];
      rewrite ?Ep in Ha; (split; [|intros i0 o0 e1 Hc0 Ho0 Ep0; specialize (Hp _ _ _ Hc0 Ho0 Ep0); try discriminate Hp]); try done; try exact H1'.
    + intros Hcu. cbn in Hcu. by destruct Ha as (_ & _ & ?).
    + destruct (o_kind o); exact H1'.
    + injection Hp as ->. destruct Ha as (_ & _ & ->). exists i. rewrite El. apply elem_of_app. right. left.
    + intros _. right. apply Hmore. by eapply H2.
    + intros _. right. apply Hmore. by eapply H2.
Qed.

Lemma is_cleared k ls s evs : wrun k w_init ls = Some (s, evs) -> cleared s evs.
Proof.
  revert s evs. induction ls as [|l ls IH] using rev_ind; intros s evs Hr; [by injection Hr as <- <-|].
  apply run_snoc in Hr as (s1 & ev1 & ev2 & H1 & H2 & ->). pose proof (winv _ _ _ _ H1) as HI. specialize (IH _ _ H1).
  assert (forall kd p ev, calls s1 kd p ev = Some (s, ev2) -> (forall i, sess (ev i) = []) -> (forall i, current (p i) = Some i) -> looping (w_pc s1) = true -> cleared s (ev1 ++ ev2)) as Hcalls.
  { intros kd p ev Hc He Hcu Hlp. destruct (calls_inv _ _ _ _ _ _ Hc) as (_ & _ & _ & -> & -> & _). intros _ l2 Hl2. cbn [w_s w_link w_pc cs_ops c_links c_ops] in *. rewrite sess_app. destruct (IH Hlp _ Hl2) as [G1 G2]. split.
    - intros Hn. destruct (G1 Hn) as [?|[i Hi]]; [by left|]. right. exists i. apply elem_of_app. by left.
    - intros i o e Hi Ho Ep. rewrite Hcu in Hi. injection Hi as <-. rewrite lookup_app_r, Nat.sub_diag in Ho by lia. by injection Ho as <-. }
  assert (forall p ev, Some (to p s1, ev) = Some (s, ev2) -> sess ev = [] -> current p = None -> looping p = false \/ looping (w_pc s1) = true -> cleared s (ev1 ++ ev2)) as Hto.
  { intros p ev [= <- <-] He Hcu Hlp Hl l2 Hl2. cbn [w_s w_link w_pc to] in *. destruct Hlp as [Hlp|Hlp]; [congruence|]. rewrite sess_app, He, app_nil_r. destruct (IH Hlp _ Hl2) as [G1 G2]. split; [done|]. intros i o e Hi. congruence. }
  unfold wstep in H2. destruct (w_crash s1) eqn:Hcr; [discriminate H2|]. destruct l as [lb|c|].
  - destruct (match lb with LOp j _ => _ | LCtx i _ => _ | _ => _ end) eqn:Hlb; [|discriminate H2]. destruct (sstep (w_s s1) lb) as [[s' e]|] eqn:Hs; [|discriminate H2]. cbn zeta in H2. injection H2 as <- <-.
    eapply cleared_sess; [done..|]. rewrite sess_app, sess_WE. assert (forall b : bool, sess (if b then [WCrash] else []) = []) as -> by (by intros []). by rewrite app_nil_r.
  - destruct (w_ctx s1); [discriminate H2|]. destruct (current (w_pc s1)) as [i|] eqn:Hc.
    + unfold sstep in H2. destruct (c_panic (w_s s1)); [discriminate H2|]. destruct (c_ops (w_s s1) !! i) as [o|] eqn:Ho; [|discriminate H2]. destruct (o_ctx o); [discriminate H2|]. injection H2 as <- <-.
      intros Hlp l2 Hl2. cbn [w_s w_link w_pc cs_ops c_links c_ops fmap list_fmap] in *. rewrite sess_app, app_nil_r. destruct (IH Hlp _ Hl2) as [G1 G2]. split; [done|].
      intros i' o' e Hi Ho' Ep. rewrite Hc in Hi. injection Hi as <-. rewrite list_lookup_insert in Ho' by (by eapply lookup_lt_Some). injection Ho' as <-. by apply (G2 i o e).
    + injection H2 as <- <-. intros Hlp l2 Hl2. rewrite app_nil_r. by apply IH.
  - destruct (w_pc s1) eqn:Ep.
    + unfold sstep in H2. destruct (c_panic (w_s s1)); [discriminate H2|]. destruct (c_lock (w_s s1)); [discriminate H2|]. injection H2 as <- <-.
      intros _ l2 Hl2. cbn [w_s w_link w_pc cs_links c_links c_ops] in *. rewrite lookup_app_r, Nat.sub_diag in Hl2 by lia. cbn in Hl2. injection Hl2 as <-. cbn. split; [|done]. intros Hn. left.
      destruct (wv_run _ _ _ HI) as [cls Hr]. destruct (decide (c_gen (w_s s1) = 0)) as [?|Hg]; [done|]. destruct (newest_sess _ _ (ginv _ _ _ Hr) Hg) as (sid & Hsid & _). congruence.
    + by eapply Hcalls.
    + destruct (result s1 i) as [r|]; [|discriminate H2]. cbn zeta in H2. apply (Hto _ _ H2); [| |by right]; destruct r, k; cbn; try done; by destruct (is_own _ _).
    + by eapply Hcalls.
    + destruct (result s1 i) as [r|]; [|discriminate H2]. apply (Hto _ _ H2); [done| |by right]. destruct r, k; cbn; try done; by destruct (is_own _ _).
    + apply (Hto _ _ H2); [done|done|by right].
    + by eapply Hcalls.
    + destruct (result s1 i) as [r|]; [|discriminate H2]. apply (Hto _ _ H2); [done|done|by left].
    + done.
Qed.

(** ** A call gets through *)

Definition by_net (i : nat) (lb : clabel) : Prop := lb = LStep i \/ lb = LNet i NOk.
Definition gets (s : cstate) (i : nat) : Prop :=
  exists ls s' ev o, Forall (by_net i) ls /\ srun s ls = Some (s', ev) /\ c_panic s' = false /\ c_ops s' !! i = Some o /\ o_pc o = PDone ROk.

Lemma gets_step s i s1 e lb : by_net i lb -> sstep s lb = Some (s1, e) -> gets s1 i -> gets s i.
Proof.
  intros Hb H (ls & s' & ev & o & Hf & Hr & Hp & Ho & Hd). exists (lb :: ls), s', (e ++ ev), o. split; [by constructor|]. split; [cbn [run]; by rewrite H, Hr|done].
Qed.

Section gets.
Context (i j : nat) (k : kind) (Hk : k = KNext \/ k = KAccept).

Lemma gets_use s x ob g l : c_panic s = false -> c_ops s !! i = Some (Op j k x (PUse ob g)) -> c_links s !! j = Some l -> gets s i.
Proof using Hk.
  intros Hp Ho Hl. destruct Hk as [-> | ->].
  - exists [LNet i NOk]. eexists _, _, _. split; [by repeat constructor; right|]. split; [cbn [run]; unfold sstep; rewrite Hp; cbn; rewrite Ho; cbn; rewrite Hl; cbn; reflexivity|]. cbn. split; [done|].
    rewrite list_lookup_insert by (by eapply lookup_lt_Some). done.
  - exists [LNet i NOk]. eexists _, _, _. split; [by repeat constructor; right|]. split; [cbn [run]; unfold sstep; rewrite Hp; cbn; rewrite Ho; cbn; rewrite Hl; cbn; reflexivity|]. unfold report_ok. destruct (_ <? _); cbn; (split; [done|]);
      rewrite list_lookup_insert by (by eapply lookup_lt_Some); done.
Qed.

Lemma gets_create s x l sid : c_panic s = false -> c_ops s !! i = Some (Op j k x PCreate) -> c_links s !! j = Some l -> l_curr l = Some sid -> gets s i.
Proof using Hk.
  intros Hp Ho Hl Hc. eapply (gets_step _ _ _ _ (LNet i NOk)); [by right|unfold sstep; rewrite Hp; cbn; rewrite Ho; cbn; rewrite Hl; cbn; rewrite Hc; reflexivity|].
  eapply (gets_use _ x sid (l_gen l)); [done|cbn; by rewrite list_lookup_insert by (by eapply lookup_lt_Some)|cbn; by rewrite list_lookup_insert by (by eapply lookup_lt_Some)].
Qed.

Lemma gets_get s x l sid : c_panic s = false -> c_ops s !! i = Some (Op j k x PGet) -> c_links s !! j = Some l -> l_curr l = Some sid -> l_lock l = false -> gets s i.
Proof using Hk.
  intros Hp Ho Hl Hc Hlo. assert (part k l = l_rcv l) as Hpa by (by destruct Hk as [-> | ->]).
  assert (forall b, gets (set_op i (Op j k x PGet) PCreate (set_link j (locked b l) s)) i) as Hcr.
  { intros b. eapply gets_create; [done|cbn; by rewrite list_lookup_insert by (by eapply lookup_lt_Some)|cbn; by rewrite list_lookup_insert by (by eapply lookup_lt_Some)|done]. }
  destruct (l_rcv l) as [g [ob|]] eqn:Er.
  - destruct (g =? l_gen l) eqn:Eg.
    + eapply (gets_step _ _ _ _ (LStep i)); [by left|unfold sstep; rewrite Hp; cbn; rewrite Ho; cbn; rewrite Hl; unfold op_step; cbn; rewrite Hlo, Hpa, Eg; reflexivity|].
      eapply gets_use; [done|cbn; by rewrite list_lookup_insert by (by eapply lookup_lt_Some)|done].
    + eapply (gets_step _ _ _ _ (LStep i)); [by left|unfold sstep; rewrite Hp; cbn; rewrite Ho; cbn; rewrite Hl; unfold op_step; cbn; rewrite Hlo, Hpa, Eg, Hc; reflexivity|]. apply Hcr.
  - eapply (gets_step _ _ _ _ (LStep i)); [by left|unfold sstep; rewrite Hp; cbn; rewrite Ho; cbn; rewrite Hl; unfold op_step; cbn; rewrite Hlo, Hpa, Hc; reflexivity|]. apply Hcr.
Qed.

Lemma gets_got s x l sid g : c_panic s = false -> c_ops s !! i = Some (Op j k x (PGot (Some sid) g)) -> c_links s !! j = Some l -> l_lock l = false -> gets s i.
Proof using Hk.
  intros Hp Ho Hl Hlo. eapply (gets_step _ _ _ _ (LStep i)); [by left|unfold sstep; rewrite Hp; cbn; rewrite Ho; cbn; rewrite Hl; unfold op_step; cbn; rewrite Hlo; reflexivity|].
  eapply gets_get; [done|cbn; by rewrite list_lookup_insert by (by eapply lookup_lt_Some)|cbn; by rewrite list_lookup_insert by (by eapply lookup_lt_Some)|done|done].
Qed.

Lemma gets_await s x l g sid : c_panic s = false -> c_lock s = false -> c_sess s = Some sid -> g <> c_gen s -> c_ops s !! i = Some (Op j k x (PAwait g)) -> c_links s !! j = Some l -> l_lock l = false -> gets s i.
Proof using Hk.
  intros Hp Hcl Hse Hg Ho Hl Hlo. apply Nat.eqb_neq in Hg. eapply (gets_step _ _ _ _ (LStep i)); [by left|unfold sstep; rewrite Hp; cbn; rewrite Ho; cbn; rewrite Hl; unfold op_step; cbn; rewrite Hcl, Hg, Hse; reflexivity|].
  eapply gets_got; [done|cbn; by rewrite list_lookup_insert by (by eapply lookup_lt_Some)|done|done].
Qed.

Lemma gets_wait s x l g n sid : c_panic s = false -> c_lock s = false -> c_sess s = Some sid -> n <> c_gen s -> g <> c_gen s -> c_ops s !! i = Some (Op j k x (PWait g n)) -> c_links s !! j = Some l -> l_lock l = false -> gets s i.
Proof using Hk.
  intros Hp Hcl Hse Hn Hg Ho Hl Hlo. apply Nat.eqb_neq in Hn. eapply (gets_step _ _ _ _ (LStep i)); [by left|unfold sstep; rewrite Hp; cbn; rewrite Ho; cbn; rewrite Hl; unfold op_step; cbn; rewrite Hn; reflexivity|].
  eapply gets_await; [done|done|done|exact Hg|cbn; by rewrite list_lookup_insert by (by eapply lookup_lt_Some)|done|done].
Qed.

Lemma gets_start s x l sid : c_panic s = false -> c_lock s = false -> c_sess s = Some sid -> (l_curr l = None -> l_gen l <> c_gen s) -> c_ops s !! i = Some (Op j k x PStart) -> c_links s !! j = Some l -> l_lock l = false -> l_closed l = false -> gets s i.
Proof using Hk.
  intros Hp Hcl Hse Hn Ho Hl Hlo Hcl2. assert (k <> KClose) as Hkc by (by destruct Hk as [-> | ->]).
  assert (op_step s i (Op j k x PStart) l = match l_curr l with Some _ => Some (set_op i (Op j k x PStart) PGet s, []) | None => Some (set_op i (Op j k x PStart) (PAwait (l_gen l)) s, []) end) as E.
  { unfold op_step. cbn. rewrite Hlo, Hcl2. by destruct k. }
  destruct (l_curr l) as [sid'|] eqn:Ec; (eapply (gets_step _ _ _ _ (LStep i)); [by left|unfold sstep; rewrite Hp; cbn; rewrite Ho; cbn; rewrite Hl; exact E|]).
  - eapply gets_get; [done|cbn; by rewrite list_lookup_insert by (by eapply lookup_lt_Some)|done|done|done].
  - eapply gets_await; [done|done|done|by apply Hn|cbn; by rewrite list_lookup_insert by (by eapply lookup_lt_Some)|done|done].
Qed.
End gets.

(** ** The loop goes on *)

(** The container was started, its context has not ended, its strategy never gave
    up and no error handler called back. *)
Definition serviced (ls : list wlabel) : Prop :=
  WSess LStart ∈ ls /\ (forall c, WSess (LCCancel c) ∉ ls) /\ WSess (LBackoff false) ∉ ls /\ WSess LHandlerCalls ∉ ls.
(** The loop goes on, the container mends its connection, calls proceed and the
    network lets them. *)
Definition friendly (lb : wlabel) : Prop := lb = WGo \/ exists x, lb = WSess x /\ (healing x \/ exists i, x = LStep i \/ x = LNet i NOk).

Definition Good (k : loop) (s : wstate) : Prop :=
  exists ls evs, wrun k w_init ls = Some (s, evs) /\ serviced ls /\ c_panic (w_s s) = false /\ w_ctx s = None /\ w_crash s = false.
Definition leads (k : loop) (s : wstate) (P : wstate -> list wev -> Prop) : Prop :=
  exists ls s' ev, Forall friendly ls /\ wrun k s ls = Some (s', ev) /\ Good k s' /\ P s' ev.

Lemma friendly_mild lb : friendly lb -> (forall c, lb <> WSess (LCCancel c)) /\ lb <> WSess (LBackoff false) /\ lb <> WSess LHandlerCalls.
Proof. intros [->|(x & -> & [Hx|(i & [->| ->])])]; try done. destruct x; cbn in Hx; try done. by destruct next. Qed.

Lemma serviced_more ls l2 : serviced ls -> Forall friendly l2 -> serviced (ls ++ l2).
Proof.
  intros (H1 & H2 & H3 & H4) Hf. rewrite Forall_forall in Hf. split; [apply elem_of_app; by left|]. split; [|split].
  - intros c Hin. apply elem_of_app in Hin as [Hin|Hin]; [by eapply H2|]. destruct (friendly_mild _ (Hf _ Hin)) as [Hz _]. by destruct (Hz c).
  - intros Hin. apply elem_of_app in Hin as [Hin|Hin]; [done|]. by destruct (friendly_mild _ (Hf _ Hin)) as (_ & ? & _).
  - intros Hin. apply elem_of_app in Hin as [Hin|Hin]; [done|]. by destruct (friendly_mild _ (Hf _ Hin)) as (_ & _ & ?).
Qed.

Lemma Good_run k s ls s' ev : Good k s -> Forall friendly ls -> wrun k s ls = Some (s', ev) -> c_panic (w_s s') = false -> w_ctx s' = None -> w_crash s' = false -> Good k s'.
Proof.
  intros (ls0 & evs & Hr & Hs & _) Hf Hw Hp Hx Hc. exists (ls0 ++ ls), (evs ++ ev). split; [by rewrite run_app, Hr, Hw|]. split; [by apply serviced_more|done].
Qed.

Lemma Good_service k s : Good k s -> exists evs cls, WInv k s evs /\ cleared s evs /\ srun c_init cls = Some (w_s s, sess evs) /\ in_service cls.
Proof.
  intros (ls & evs & Hr & Hs & _). exists evs. destruct (labels _ _ _ _ Hr) as [_ (cls & Hc & H1 & H2)]. exists cls. split; [by eapply winv|]. split; [by eapply is_cleared|]. split; [done|]. destruct Hs as (S1 & S2 & S3 & S4).
  split; [by apply H2|]. split; [intros c Hin; destruct (H1 _ Hin) as [?|?]; [by eapply S2|done]|]. split; intros Hin; by destruct (H1 _ Hin).
Qed.

Lemma leads_here k s (P : wstate -> list wev -> Prop) : Good k s -> P s [] -> leads k s P.
Proof. intros HG HP. exists [], s, []. by split_and!. Qed.

Lemma leads_more k s ls s1 e1 (P : wstate -> list wev -> Prop) : Forall friendly ls -> wrun k s ls = Some (s1, e1) -> leads k s1 (fun s2 e2 => P s2 (e1 ++ e2)) -> leads k s P.
Proof. intros Hf Hr (ls2 & s2 & e2 & Hf2 & Hr2 & HG & HP). exists (ls ++ ls2), s2, (e1 ++ e2). split; [by apply Forall_app|]. split; [by rewrite run_app, Hr, Hr2|done]. Qed.

Lemma leads_trans k s (P Q : wstate -> list wev -> Prop) : leads k s P -> (forall s1 e1, Good k s1 -> P s1 e1 -> leads k s1 (fun s2 e2 => Q s2 (e1 ++ e2))) -> leads k s Q.
Proof. intros (ls & s1 & e1 & Hf & Hr & HG & HP) H. eapply leads_more; [done|done|]. by apply H. Qed.

Lemma lift k s ls : forall s' ev, w_crash s = false -> (forall i, w_pc s <> WAccepting i None) -> Forall (fun lb => match lb with LOp _ _ | LCtx _ _ => False | _ => True end) ls ->
  srun (w_s s) ls = Some (s', ev) -> wrun k s (WSess <$> ls) = Some (W s' (w_ctx s) (w_link s) (w_pc s) false, WE <$> ev).
Proof.
  revert s. induction ls as [|lb ls IH]; intros s s' ev Hc Hn Hf Hr.
  - injection Hr as <- <-. destruct s; cbn in *. by subst.
  - inversion Hf as [|? ? Hlb Hf']; subst. cbn [run] in Hr. destruct (sstep (w_s s) lb) as [[s1 e1]|] eqn:E; [|discriminate Hr]. destruct (srun s1 ls) as [[s2 e2]|] eqn:E2; [|discriminate Hr]. injection Hr as <- <-.
    assert (wstep k s (WSess lb) = Some (W s1 (w_ctx s) (w_link s) (w_pc s) false, WE <$> e1)) as Hw.
    { unfold wstep. rewrite Hc. replace (match lb with LOp j _ => _ | LCtx i _ => _ | _ => _ end) with true by (by destruct lb). rewrite E. cbn zeta. destruct (w_pc s) as [| | | |i [m|]| | | |]; cbn; rewrite ?app_nil_r; try done. by destruct (Hn i). }
    cbn [fmap list_fmap run]. rewrite Hw. specialize (IH (W s1 (w_ctx s) (w_link s) (w_pc s) false) s2 e2 eq_refl Hn Hf' E2). cbn [w_ctx w_link w_pc] in IH. rewrite IH. by rewrite fmap_app.
Qed.

(** The container does what mends it, or the call gets through. *)
Lemma Good_lift k s ls s' ev : Good k s -> Forall (fun x => healing x \/ exists i, x = LStep i \/ x = LNet i NOk) ls -> srun (w_s s) ls = Some (s', ev) -> c_panic s' = false ->
  let s2 := W s' None (w_link s) (w_pc s) false in Good k s2 /\ wrun k s (WSess <$> ls) = Some (s2, WE <$> ev) /\ Forall friendly (WSess <$> ls).
Proof.
  intros HG Hf Hr Hp s2. assert (Forall friendly (WSess <$> ls)) as Hfr.
  { apply Forall_forall. intros lb Hlb. apply elem_of_list_fmap in Hlb as (x & -> & Hx). right. exists x. split; [done|]. by apply (proj1 (Forall_forall _ _) Hf). }
  destruct HG as (ls0 & evs & Hr0 & Hs & Hp0 & Hx & Hc) eqn:E; clear E. pose proof (winv _ _ _ _ Hr0) as HI.
  assert (wrun k s (WSess <$> ls) = Some (s2, WE <$> ev)) as Hw.
  { unfold s2. rewrite <- Hx. apply lift; try done.
    - intros i Ep. pose proof (wv_told _ _ _ HI) as Ht. by rewrite Ep in Ht.
    - apply Forall_forall. intros lb Hlb. destruct (proj1 (Forall_forall _ _) Hf _ Hlb) as [Hh|(i & [->| ->])]; try done. by destruct lb. }
  split; [|done]. eapply Good_run; try done.
Qed.

Lemma leads_lift k s ls s' ev (P : wstate -> list wev -> Prop) : Good k s -> Forall (fun x => healing x \/ exists i, x = LStep i \/ x = LNet i NOk) ls -> srun (w_s s) ls = Some (s', ev) -> c_panic s' = false ->
  leads k (W s' None (w_link s) (w_pc s) false) (fun s2 e2 => P s2 ((WE <$> ev) ++ e2)) -> leads k s P.
Proof. intros HG Hf Hr Hp H. destruct (Good_lift _ _ _ _ _ HG Hf Hr Hp) as (_ & Hw & Hfr). by eapply leads_more. Qed.

Lemma leads_go k s s1 e1 (P : wstate -> list wev -> Prop) : wstep k s WGo = Some (s1, e1) -> leads k s1 (fun s2 e2 => P s2 (e1 ++ e2)) -> leads k s P.
Proof. intros H. apply (leads_more k s [WGo]); [by repeat constructor|]. cbn [run]. by rewrite H, app_nil_r. Qed.

Definition mended (s : cstate) : Prop := c_panic s = false /\ c_lock s = false /\ c_errs s = [] /\ 1 <= c_gen s /\ (exists sid, c_sess s = Some sid) /\ c_pc s = CLoop.

Lemma mends k s : Good k s -> leads k s (fun s2 _ => mended (w_s s2) /\ c_links (w_s s2) = c_links (w_s s) /\ c_ops (w_s s2) = c_ops (w_s s) /\ w_pc s2 = w_pc s /\ w_link s2 = w_link s).
Proof.
  intros HG. destruct (Good_service _ _ HG) as (evs & cls & HI & _ & Hr & Hs). assert (c_panic (w_s s) = false) as Hp by (by destruct HG as (? & ? & ? & ? & ? & _)).
  pose proof (ready_run _ _ _ Hr Hs Hp) as HR. destruct (heals _ 0 HR) as (l1 & s1 & ev1 & Ha & _ & Hc & Hd & He & (F1 & F2 & F3 & F4 & F5) & Hg & _).
  pose proof (run_join _ _ _ _ _ _ _ Hr Hc) as Hr1. pose proof (kinv _ _ _ Hr1) as HK. pose proof (ki_busy _ _ HK) as Hbz. rewrite Hd in Hbz. specialize (Hbz eq_refl).
  destruct (last_est _ _ _ Hr1 Hbz) as (sid & _ & Hse).
  assert (Forall (fun x => healing x \/ exists i, x = LStep i \/ x = LNet i NOk) l1) as Hf by (eapply List.Forall_impl; [|exact Ha]; by left).
  destruct (Good_lift _ _ _ _ _ HG Hf Hc (rd_pan _ He)) as (HG2 & Hw & Hfr). eapply leads_more; [done|done|]. apply leads_here; [done|]. cbn [w_s w_pc w_link]. split; [|done].
  split_and!; try done; [exact (rd_pan _ He)| |by exists sid]. rewrite (rd_lock _ He). by rewrite Hd.
Qed.

(** In a mended state the call of Next gets through, if it has not failed. *)
Lemma next_mended k s i : Good k s -> w_pc s = WNext i -> mended (w_s s) ->
  (forall o, c_ops (w_s s) !! i = Some o -> match o_pc o with PFail _ | PReport _ _ | PClear _ => False | _ => True end) ->
  leads k s (fun s2 _ => w_pc s2 = WNext i /\ result s2 i = Some ROk).
Proof.
  intros HG Hp (M1 & M2 & M3 & M4 & (sid & M5) & M6) Hpc. destruct (Good_service _ _ HG) as (evs & cls & HI & HC & Hr & Hs).
  assert (w_ctx s = None /\ w_crash s = false) as [Hx Hcr] by (by destruct HG as (? & ? & ? & ? & ? & ? & ?)).
  pose proof (wv_open _ _ _ HI) as Hop. rewrite Hp in Hop. destruct Hop as (l & Hl & Hsn & (o & Ho & Ha & Hox & [Hf|Hf]) & _); [congruence|]. specialize (Hpc _ Ho).
  assert (w_pc s <> WNew) as Hn by (by rewrite Hp). destruct (wv_link _ _ _ HI Hn) as [[_ Hex] _]. destruct (Hex i) as (o' & Ho' & El); [by rewrite Hp|]. assert (o' = o) as -> by congruence. clear Ho'.
  destruct Hf as [Hk Hf]. rewrite Hx in Hox. destruct o as [j kd x pc]. cbn in El, Hk, Hox, Hpc, Hf. subst j kd x.
  assert (l_curr l = None -> l_gen l <> c_gen (w_s s)) as Hgen.
  { intros Hcu Hg. destruct (HC (f_equal looping Hp) _ Hl) as [H1 _]. destruct (H1 Hcu) as [H0|[i' Hi']]; [lia|]. rewrite Hg in Hi'.
    destruct (is_queued _ _ _ Hr) as [_ Hq]. rewrite M6 in Hq. specialize (Hq eq_refl _ _ Hi'). rewrite M3 in Hq. by apply elem_of_nil in Hq. }
  unfold at_pc in Ha. cbn in Ha. destruct Hsn as [Hcl Hsn].
  assert (gets (w_s s) i -> leads k s (fun s2 _ => w_pc s2 = WNext i /\ result s2 i = Some ROk)) as Hgo.
  { intros (ls & s' & ev & o & Hfo & Hrun & Hpa & Hoo & Hd). eapply leads_lift; [done| |done|done|].
    - eapply List.Forall_impl; [|exact Hfo]. intros y Hy. right. by exists i.
    - apply leads_here.
      + eapply (Good_lift k s ls); [done| |done|done]. eapply List.Forall_impl; [|exact Hfo]. intros y Hy. right. by exists i.
      + cbn. split; [done|]. unfold result. cbn. by rewrite Hoo, Hd. }
  destruct pc as [|g|g n|x g| | |ob g|e|g e|e| |[|e]]; try done.
  - apply Hgo. by eapply gets_start; [by left|..].
  - apply Hgo. destruct Ha as (A1 & A2 & ->). eapply gets_await; [by left|done|done|done|by apply Hgen|done..].
  - apply Hgo. destruct Ha as (A1 & A2 & -> & ->). eapply gets_wait; [by left|done|done|done|by apply Hgen|by apply Hgen|done..].
  - apply Hgo. destruct Ha as (A1 & A2 & A3). destruct x as [x|]; [|done]. eapply gets_got; [by left|done..].
  - apply Hgo. destruct Ha as (A1 & A2). destruct (l_curr l) eqn:Ec; [|done]. eapply gets_get; [by left|done..].
  - apply Hgo. destruct Ha as (A1 & A2 & A3). destruct (l_curr l) eqn:Ec; [|done]. eapply gets_create; [by left|done..].
  - apply Hgo. eapply gets_use; [by left|done..].
  - apply leads_here; [done|]. split; [done|]. unfold result. by rewrite Ho.
  - by destruct Hf.
Qed.

Lemma next_simple k s i : Good k s -> w_pc s = WNext i -> (forall o, c_ops (w_s s) !! i = Some o -> match o_pc o with PFail _ | PReport _ _ | PClear _ => False | _ => True end) ->
  leads k s (fun s2 _ => w_pc s2 = WNext i /\ result s2 i = Some ROk).
Proof.
  intros HG Hp Hpc. eapply leads_trans; [by apply mends|]. cbn. intros s1 e1 HG1 (Hm & _ & Eo & Ep & _). apply next_mended; [done|congruence|done|]. by rewrite Eo.
Qed.

Lemma next_through k s i : Good k s -> w_pc s = WNext i -> leads k s (fun s2 _ => w_pc s2 = WNext i /\ result s2 i = Some ROk).
Proof.
  intros HG Hp.
  assert (forall s, Good k s -> w_pc s = WNext i -> exists l o, c_links (w_s s) !! w_link s = Some l /\ c_ops (w_s s) !! i = Some (Op (w_link s) KNext None (o_pc o)) /\ at_pc o l /\ c_panic (w_s s) = false) as Hget.
  { clear s HG Hp. intros s HG Hp. destruct (Good_service _ _ HG) as (evs & cls & HI & _). destruct HG as (? & ? & _ & _ & Hpa & Hx & Hcr). pose proof (wv_open _ _ _ HI) as Hop. rewrite Hp in Hop.
    destruct Hop as (l & Hl & Hsn & (o & Ho & Ha & Hox & [Hf|Hf]) & _); [congruence|]. destruct (wv_link _ _ _ HI) as [[_ Hex] _]; [by rewrite Hp|]. destruct (Hex i) as (o' & Ho' & El); [by rewrite Hp|]. assert (o' = o) as -> by congruence.
    destruct Hf as [Hk _]. exists l, o. split_and!; try done. rewrite Ho. destruct o; cbn in *. congruence. }
  assert (forall s e, Good k s -> w_pc s = WNext i -> c_ops (w_s s) !! i = Some (Op (w_link s) KNext None (PClear e)) -> leads k s (fun s2 _ => w_pc s2 = WNext i /\ result s2 i = Some ROk)) as Hclear.
  { clear s HG Hp. intros s e HG Hp Ho. destruct (Hget _ HG Hp) as (l & o & Hl & Ho' & Ha & Hpa). rewrite Ho in Ho'. injection Ho' as Ep. unfold at_pc in Ha. rewrite <- Ep in Ha. destruct Ha as [Ha _].
    assert (exists s', srun (w_s s) [LStep i] = Some (s', []) /\ c_panic s' = false /\ c_ops s' !! i = Some (Op (w_link s) KNext None PStart)) as (s' & Hs & Hp' & Ho2).
    { eexists. split; [cbn [run]; unfold sstep; rewrite Hpa; cbn; rewrite Ho; cbn; rewrite Hl; unfold op_step; cbn; rewrite Ha; reflexivity|]. cbn. split; [done|]. by rewrite list_lookup_insert by (by eapply lookup_lt_Some). }
    assert (Forall (fun x => healing x \/ exists i, x = LStep i \/ x = LNet i NOk) [LStep i]) as Hfr by (constructor; [right; exists i; by left|constructor]).
    eapply leads_lift; [done|exact Hfr|done|done|]. apply next_simple; [by eapply Good_lift|done|]. cbn. intros o2 Ho3. rewrite Ho2 in Ho3. by injection Ho3 as <-. }
  assert (forall s g e, Good k s -> w_pc s = WNext i -> c_ops (w_s s) !! i = Some (Op (w_link s) KNext None (PReport g e)) -> leads k s (fun s2 _ => w_pc s2 = WNext i /\ result s2 i = Some ROk)) as Hreport.
  { clear s HG Hp. intros s0 g e HG0 Hp0 Ho0. eapply leads_trans; [by apply mends|]. cbn. intros s e1 HG ((M1 & M2 & M3 & M4 & M5 & M6) & _ & Eo & Ep & El). rewrite Hp0 in Ep. rewrite <- Eo, <- El in Ho0. destruct (Hget _ HG Ep) as (l & o & Hl & _ & _ & Hpa).
    assert (exists s' ev, srun (w_s s) [LStep i] = Some (s', ev) /\ c_panic s' = false /\ c_ops s' !! i = Some (Op (w_link s) KNext None (PClear e))) as (s' & ev & Hs & Hp' & Ho2).
    { eexists _, _. split; [cbn [run]; unfold sstep; rewrite Hpa; cbn; rewrite Ho0; cbn; rewrite Hl; unfold op_step; cbn; rewrite M3; cbn; reflexivity|]. cbn. split; [done|]. by rewrite list_lookup_insert by (by eapply lookup_lt_Some). }
    assert (Forall (fun x => healing x \/ exists i, x = LStep i \/ x = LNet i NOk) [LStep i]) as Hfr by (constructor; [right; exists i; by left|constructor]).
    eapply leads_lift; [done|exact Hfr|done|done|]. eapply Hclear; [by eapply Good_lift|done|]. cbn. exact Ho2. }
  destruct (Hget _ HG Hp) as (l & o & Hl & Ho & Ha & Hpa). unfold at_pc in Ha. destruct (o_pc o) as [|g|g n|x g| | |ob g|e|g e|e| |r] eqn:Ep;
    try (apply next_simple; [done..|]; intros o' Ho'; rewrite Ho in Ho'; by injection Ho' as <-).
  - assert (exists s', srun (w_s s) [LStep i] = Some (s', []) /\ c_panic s' = false /\ c_ops s' !! i = Some (Op (w_link s) KNext None (PReport (l_gen l) e))) as (s' & Hs & Hp' & Ho2).
    { eexists. split; [cbn [run]; unfold sstep; rewrite Hpa; cbn; rewrite Ho; cbn; rewrite Hl; unfold op_step; cbn; rewrite bool_decide_eq_false_2 by (by destruct Ha); reflexivity|]. cbn. split; [done|]. by rewrite list_lookup_insert by (by eapply lookup_lt_Some). }
    assert (Forall (fun x => healing x \/ exists i, x = LStep i \/ x = LNet i NOk) [LStep i]) as Hfr by (constructor; [right; exists i; by left|constructor]).
    eapply leads_lift; [done|exact Hfr|done|done|]. eapply Hreport; [by eapply Good_lift|done|]. cbn. exact Ho2.
  - by eapply Hreport.
  - by eapply Hclear.
Qed.

Lemma Good_go k s s1 e1 : Good k s -> wstep k s WGo = Some (s1, e1) -> c_panic (w_s s1) = false -> w_ctx s1 = None -> w_crash s1 = false -> Good k s1.
Proof. intros HG H Hp Hx Hc. eapply (Good_run k s [WGo]); try done; [by repeat constructor|]. cbn [run]. rewrite H. reflexivity. Qed.

Lemma Good_facts k s : Good k s -> c_panic (w_s s) = false /\ w_ctx s = None /\ w_crash s = false.
Proof. by intros (? & ? & _ & _ & ? & ? & ?). Qed.

(** A call the loop makes. *)
Lemma go_call k s kd p ev : Good k s -> w_pc s <> WNew -> wstep k s WGo = calls s kd p ev ->
  let i := length (c_ops (w_s s)) in exists s1, wstep k s WGo = Some (s1, WE (EvCall i (w_link s) kd) :: ev i) /\ Good k s1 /\ w_pc s1 = p i /\ w_link s1 = w_link s.
Proof.
  intros HG Hn Hc i. destruct (Good_facts _ _ HG) as (Hp & Hx & Hcr). destruct (Good_service _ _ HG) as (evs & cls & HI & _). destruct (wv_link _ _ _ HI Hn) as [_ [l Hl]].
  assert (calls s kd p ev = Some (W (cs_ops (c_ops (w_s s) ++ [Op (w_link s) kd None PStart]) (w_s s)) None (w_link s) (p i) false, WE (EvCall i (w_link s) kd) :: ev i)) as E.
  { unfold calls. rewrite Hx. cbn [run]. unfold sstep. rewrite Hp, Hl, Hcr. done. }
  eexists. split; [rewrite Hc; exact E|]. split; [|done]. eapply Good_go; [done|by rewrite Hc|done..].
Qed.

Definition hands (m : nat) (_ : wstate) (ev : list wev) : Prop := WGot m ∈ ev /\ WHanded (Some m) ∈ ev.

(** The call of Accept for a message gets through, or has returned. *)
Lemma accept_through k s j m : Good k s -> w_pc s = WAccepting j (Some m) -> leads k s (fun s2 _ => w_pc s2 = WAccepting j (Some m) /\ exists r, result s2 j = Some r /\ (result s j = None -> r = ROk)).
Proof.
  intros HG Hp. destruct (Good_facts _ _ HG) as (Hpa & Hx & Hcr). destruct (Good_service _ _ HG) as (evs & cls & HI & _). pose proof (wv_open _ _ _ HI) as Hop. rewrite Hp in Hop.
  destruct Hop as (l & Hl & [Hcl Hsn] & (o & Ho & Ha & Hox & [Hf|Hf]) & _); [congruence|]. destruct (wv_link _ _ _ HI) as [[_ Hex] _]; [by rewrite Hp|]. destruct (Hex j) as (o' & Ho' & El); [by rewrite Hp|]. assert (o' = o) as -> by congruence. clear Ho'.
  destruct Hf as (Hk & (ob & Hrc & _) & Hpc). rewrite Hx in Hox. destruct o as [j' kd x pc]. cbn in El, Hk, Hox, Hpc. subst j' kd x. rewrite Hrc in Hsn. cbn in Hsn. destruct Hsn as [_ Hcu]. unfold at_pc in Ha. cbn in Ha.
  assert (gets (w_s s) j -> leads k s (fun s2 _ => w_pc s2 = WAccepting j (Some m) /\ exists r, result s2 j = Some r /\ (result s j = None -> r = ROk))) as Hgo.
  { intros (ls & s' & ev & o & Hfo & Hrun & Hpa' & Hoo & Hd). assert (Forall (fun x => healing x \/ exists i, x = LStep i \/ x = LNet i NOk) ls) as Hfr by (eapply List.Forall_impl; [|exact Hfo]; intros y Hy; right; by exists j).
    eapply leads_lift; [done|exact Hfr|done|done|]. apply leads_here; [by eapply Good_lift|]. cbn. split; [done|]. exists ROk. split; [|done]. unfold result. cbn. by rewrite Hoo, Hd. }
  destruct pc as [|g|g n|x g| | |ob' g|e|g e|e| |r]; try done.
  - apply Hgo. eapply (gets_step _ _ _ _ (LStep j)); [by left|unfold sstep; rewrite Hpa; cbn; rewrite Ho; cbn; rewrite Hl; unfold op_step; cbn; rewrite Ha, Hcl, Hcu; reflexivity|].
    eapply (gets_get j (w_link s) KAccept); [by right|done|cbn; by rewrite list_lookup_insert by (by eapply lookup_lt_Some)|done|done|done].
  - apply Hgo. destruct Ha as (A1 & A2). eapply gets_get; [by right|done..].
  - apply Hgo. eapply gets_use; [by right|done..].
  - apply leads_here; [done|]. split; [done|]. exists r. split; [unfold result; by rewrite Ho|]. unfold result. rewrite Ho. done.
Qed.

Lemma from_next k s i : Good k s -> w_pc s = WNext i -> leads k s (fun s2 ev => hands i s2 ev).
Proof.
  intros HG Hp. eapply leads_trans; [by apply next_through|]. cbn. intros s1 e1 HG1 [Hp1 Hr1]. destruct (Good_facts _ _ HG1) as (P1 & X1 & C1).
  eapply (leads_go k s1 (to (WAccept (Some i)) s1)); [unfold wstep; rewrite C1, Hp1, Hr1; reflexivity|].
  assert (Good k (to (WAccept (Some i)) s1)) as HG2 by (eapply Good_go; [exact HG1|unfold wstep; rewrite C1, Hp1, Hr1; reflexivity|done..]).
  destruct (go_call k (to (WAccept (Some i)) s1) KAccept (fun j => WAccepting j (Some i)) (fun j => [WCalls j (Some i)]) HG2) as (s3 & H3 & HG3 & Hp3 & _); [done|unfold wstep; cbn [w_crash w_pc to]; by rewrite C1|].
  eapply leads_go; [exact H3|]. set (j := length (c_ops (w_s (to (WAccept (Some i)) s1)))) in *.
  assert (result s3 j = None) as Hr3.
  { destruct (calls_inv (to (WAccept (Some i)) s1) KAccept (fun j => WAccepting j (Some i)) (fun j => [WCalls j (Some i)]) s3 (WE (EvCall j (w_link (to (WAccept (Some i)) s1)) KAccept) :: [WCalls j (Some i)])) as (_ & _ & _ & -> & _).
    - rewrite <- H3. unfold wstep. cbn [w_crash w_pc to]. by rewrite C1.
    - unfold result. cbn. rewrite lookup_app_r by (unfold j; cbn; lia). unfold j. cbn. by rewrite Nat.sub_diag. }
  eapply leads_trans; [by eapply accept_through|]. cbn. intros s4 e4 HG4 (Hp4 & r & Hr4 & Hrok). destruct (Good_facts _ _ HG4) as (P4 & X4 & C4). rewrite (Hrok Hr3) in Hr4.
  assert (wstep k s4 WGo = Some (to (WHand (Some i)) s4, [])) as E5 by (unfold wstep; rewrite C4, Hp4, Hr4; by destruct k).
  eapply leads_go; [exact E5|]. assert (Good k (to (WHand (Some i)) s4)) as HG5 by (eapply Good_go; [exact HG4|exact E5|done..]).
  assert (wstep k (to (WHand (Some i)) s4) WGo = Some (to WTop (to (WHand (Some i)) s4), [WHanded (Some i)])) as E6 by (unfold wstep; cbn [w_crash w_pc to]; by rewrite C4).
  eapply leads_go; [exact E6|]. apply leads_here; [eapply Good_go; [exact HG5|exact E6|done..]|]. unfold hands. cbn. rewrite !elem_of_app, !elem_of_cons, !elem_of_app, !elem_of_cons. tauto.
Qed.

Lemma goes_on k s : Good k s -> leads k s (fun s2 ev => exists m, hands m s2 ev).
Proof.
  intros HG. assert (forall s e1, Good k s -> w_pc s = WTop -> leads k s (fun s2 ev => exists m, hands m s2 (e1 ++ ev))) as Htop.
  { clear s HG. intros s e1 HG Hp. destruct (go_call k s KNext WNext (fun _ => []) HG) as (s1 & H1 & HG1 & Hp1 & _); [by rewrite Hp|unfold wstep; destruct (Good_facts _ _ HG) as (_ & _ & ->); by rewrite Hp|].
    eapply leads_go; [exact H1|]. eapply leads_trans; [by eapply from_next|]. cbn. intros s2 e2 HG2 [H2 H3]. apply leads_here; [done|]. exists (length (c_ops (w_s s))). split; rewrite !elem_of_app, elem_of_cons, !elem_of_app; tauto. }
  assert (forall s m e1, Good k s -> w_pc s = WHand m -> leads k s (fun s2 ev => exists m, hands m s2 (e1 ++ ev))) as Hhand.
  { clear s HG. intros s m e1 HG Hp. destruct (Good_facts _ _ HG) as (P & X & C). assert (wstep k s WGo = Some (to WTop s, [WHanded m])) as E by (unfold wstep; by rewrite C, Hp).
    eapply leads_go; [exact E|]. eapply leads_trans; [eapply (Htop (to WTop s) (e1 ++ [WHanded m])); [eapply Good_go; [exact HG|exact E|done..]|done]|]. cbn. intros s2 e2 HG2 [m' Hm]. apply leads_here; [done|]. exists m'.
    by rewrite app_nil_r, <- app_assoc in *. }
  assert (forall s j m e1, Good k s -> w_pc s = WAccepting j m -> leads k s (fun s2 ev => exists m, hands m s2 (e1 ++ ev))) as Hacc.
  { clear s HG. intros s j m e1 HG Hp. destruct (Good_facts _ _ HG) as (P & X & C). destruct m as [m|]; [|destruct (Good_service _ _ HG) as (evs & cls & HI & _); pose proof (wv_told _ _ _ HI) as Ht; by rewrite Hp in Ht].
    eapply leads_trans; [by eapply accept_through|]. cbn. intros s1 e2 HG1 (Hp1 & r & Hr & _). destruct (Good_facts _ _ HG1) as (P1 & X1 & C1).
    assert (exists p, wstep k s1 WGo = Some (to p s1, []) /\ (p = WTop \/ p = WHand (Some m))) as (p & E & Hpp).
    { unfold wstep. rewrite C1, Hp1, Hr. eexists. split; [reflexivity|]. destruct k, r; cbn; unfold is_own; rewrite ?X1; [by right|by left|by right..]. }
    assert (Good k (to p s1)) as HG2 by (eapply Good_go; [exact HG1|exact E|done..]). eapply leads_go; [exact E|].
    destruct Hpp as [-> | ->]; [eapply leads_trans; [by eapply (Htop _ (e1 ++ e2))|]|eapply leads_trans; [by eapply (Hhand _ _ (e1 ++ e2))|]]; cbn; intros s2 e3 HG3 [m' Hm]; (apply leads_here; [done|]); exists m'; by rewrite app_nil_r, <- app_assoc in *. }
  destruct (Good_facts _ _ HG) as (P & X & C). destruct (Good_service _ _ HG) as (evs & cls & HI & _). pose proof (wv_told _ _ _ HI) as Ht.
  destruct (w_pc s) as [| |i|m|i m|m| |i|] eqn:Hp; try done.
  - eapply leads_trans; [by apply mends|]. cbn. intros s1 e1 HG1 ((M1 & M2 & M3 & M4 & M5 & M6) & _ & _ & Ep & _). rewrite Hp in Ep. destruct (Good_facts _ _ HG1) as (P1 & X1 & C1).
    assert (exists s2 e2, wstep k s1 WGo = Some (s2, e2) /\ w_pc s2 = WTop /\ c_panic (w_s s2) = false /\ w_ctx s2 = None /\ w_crash s2 = false) as (s2 & e2 & E & Hp2 & P2 & X2 & C2).
    { unfold wstep. rewrite C1, Ep. unfold sstep. rewrite M1, M2. eexists _, _. split; [reflexivity|]. done. }
    eapply leads_go; [exact E|]. eapply leads_trans; [eapply (Htop s2 (e1 ++ e2)); [by eapply Good_go|done]|]. cbn. intros s3 e3 HG3 [m' Hm]. apply leads_here; [done|]. exists m'. by rewrite app_nil_r, <- app_assoc in *.
  - by apply (Htop s []).
  - eapply leads_trans; [by eapply from_next|]. cbn. intros s1 e1 HG1 H1. apply leads_here; [done|]. exists i. by rewrite app_nil_r.
  - destruct (go_call k s KAccept (fun j => WAccepting j m) (fun j => [WCalls j m]) HG) as (s1 & H1 & HG1 & Hp1 & _); [by rewrite Hp|unfold wstep; by rewrite C, Hp|]. eapply leads_go; [exact H1|]. by eapply Hacc.
  - by eapply (Hacc s _ _ []).
  - by eapply (Hhand s _ []).
Qed.

Lemma progress k ls s evs : wrun k w_init ls = Some (s, evs) -> serviced ls -> (forall c, WCancel c ∉ ls) -> c_panic (w_s s) = false ->
  exists ls' s' ev m, Forall friendly ls' /\ wrun k s ls' = Some (s', ev) /\ WGot m ∈ ev /\ WHanded (Some m) ∈ ev.
Proof.
  intros Hr Hs Hc Hp. destruct (goes_on k s) as (ls' & s' & ev & Hf & Hr' & _ & m & H1 & H2); [|by exists ls', s', ev, m].
  exists ls, evs. split; [done|]. split; [done|]. split; [done|]. destruct (labels _ _ _ _ Hr) as [Hx _].
  assert (w_ctx s = None) as Hx2. { destruct (w_ctx s) as [c|]; [|done]. destruct (Hc c). by apply Hx. }
  split; [done|]. pose proof (winv _ _ _ _ Hr) as HI. destruct (w_crash s) eqn:E; [|done]. destruct (wv_crash1 _ _ _ HI E) as [i Ep]. pose proof (wv_told _ _ _ HI) as Ht. by rewrite Ep in Ht.
Qed.
