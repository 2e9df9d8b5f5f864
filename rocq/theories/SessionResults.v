(** What the methods of a link return. *)
From Coq Require Import ZArith NArith Ascii String Lia.
From stdpp Require Import base gmap strings list.
From Verif Require Import GoBase Run Session SessionFacts SessionLink SessionEnd SessionLive.

Local Open Scope list_scope.

(** ** Specification *)

(** Where an error returned by call [i] on link [l] may come from: the call's
    context, the network, or Close. *)
Definition origin (ls : list clabel) (evs : list cev) (i l : nat) (e : lerr) : Prop :=
  match e with
  | ECtx c => LCtx i c ∈ ls \/ LNet i (NErr (Some c)) ∈ ls
  | EOther => LNet i (NErr None) ∈ ls
  | EClosed => exists j, EvCall j l KClose ∈ evs
  end.

(** The last thing call [i] did was to call the network's Receive,
    AcceptMessage or Send, on session [sid] of generation [g]; that has not
    returned yet. *)
Definition pending (ls : list clabel) (i l sid g : nat) : Prop :=
  exists ls1 lb ls2 s1 ev1 s2 ev2, ls = ls1 ++ lb :: ls2 /\ srun c_init ls1 = Some (s1, ev1) /\ sstep s1 lb = Some (s2, ev2) /\
    EvUse i l sid g ∈ ev2 /\ forall r, LNet i r ∉ ls2.

(** ** Proof *)

Lemma origin_mono ls ls' evs evs' i l e : origin ls evs i l e -> origin (ls ++ ls') (evs ++ evs') i l e.
Proof. destruct e; cbn; [intros [?|?]; [left|right]|intros [j ?]; exists j|intros ?]; apply elem_of_app; by left. Qed.

(** The step of a call that leads to a point. *)
Definition led (lb : clabel) (ev : list cev) (i : nat) (o : op) (closed : bool) (p : opc) : Prop :=
  match p with
  | PFail e => closed = true /\ e = EClosed \/ (exists c, o_ctx o = Some c /\ e = ECtx c) \/ exists c, lb = LNet i (NErr c) /\ e = net_err c
  | PReport _ e => o_pc o = PFail e
  | PClear e => exists g, o_pc o = PReport g e
  | PClosing => o_kind o = KClose
  | PDone ROk => o_kind o = KClose \/ o_pc o = PClosing \/ lb = LNet i NOk /\ exists ob g, o_pc o = PUse ob g
  | PDone (RErr e) => (o_pc o = PFail e \/ o_pc o = PClear e \/ exists c, lb = LNet i (NErr c) /\ e = net_err c) /\
      (o_kind o = KNext -> o_ctx o <> None \/ o_pc o = PClosing)
  | PUse ob g => EvUse i (o_link o) ob g ∈ ev
  | _ => True
  end.

Lemma fails_led lb ev0 i o b e s s2 ev : fails i o e s = Some (s2, ev) -> o_pc o = PFail e \/ o_pc o = PClear e ->
  exists p, s2 = set_op i o p s /\ led lb ev0 i o b p.
Proof.
  intros H He. assert ((o_kind o = KNext -> o_ctx o <> None) -> ret i o (RErr e) s = Some (s2, ev) -> exists p, s2 = set_op i o p s /\ led lb ev0 i o b p) as Hr.
  { intros Hx H'. unfold ret in H'. injection H' as <- <-. eexists. split; [reflexivity|]. cbn. tauto. }
  unfold fails in H. destruct (o_kind o), (o_ctx o); try (apply Hr; [by intros|exact H]). injection H as <- <-. exists PStart. by split.
Qed.

Lemma own_led s lb s2 ev i : linked s -> sstep s lb = Some (s2, ev) -> own lb i -> exists o l, c_ops s !! i = Some o /\ c_links s !! o_link o = Some l /\
  (c_ops s2 = c_ops s /\ o_pc o = PGet \/ exists p, c_ops s2 = <[i := Op (o_link o) (o_kind o) (o_ctx o) p]> (c_ops s) /\ led lb ev i o (l_closed l) p).
Proof.
  intros HL H Ho. unfold sstep in H. destruct (c_panic s); [discriminate H|]. destruct Ho as [->|[->|[r ->]]]; cbn in H.
  - destruct (c_ops s !! i) as [o|] eqn:Eo; [|discriminate H]. destruct (c_links s !! o_link o) as [l|] eqn:El; [|discriminate H].
    exists o, l. split; [done|]. split; [done|]. unfold op_step in H. destruct (o_pc o) eqn:Ep; try discriminate H.
    + destruct (l_lock l); [discriminate H|]. destruct (o_kind o) eqn:Ek.
      4: { destruct (snd (l_rcv l)); unfold ret in H; injection H as <- <-; right; eexists; (split; [cbn; rewrite Ek; reflexivity|cbn; auto]). }
      all: destruct (l_closed l) eqn:Ec; [|destruct (l_curr l)]; injection H as <- <-; right; eexists; (split; [cbn; rewrite Ek; reflexivity|cbn; auto]).
    + destruct (c_lock s); [discriminate H|]. destruct (_ =? _); injection H as <- <-; right; eexists; by split.
    + destruct (_ =? _); [discriminate H|]. injection H as <- <-; right; eexists; by split.
    + destruct (l_lock l); [discriminate H|]. injection H as <- <-; right; eexists; by split.
    + destruct (l_lock l); [discriminate H|]. destruct (part _ _) as [g [ob|]]; [destruct (_ =? _) eqn:Eg|]; [|destruct (l_curr l)..]; injection H as <- <-;
        try (left; split; [reflexivity|done]); right; eexists; (split; [reflexivity|]); cbn; auto. left.
    + case_bool_decide; [|case_bool_decide].
      * destruct (fails_led (LStep i) ev i o (l_closed l) e s s2 ev H) as (p & -> & Hp); [by left|]. right. by exists p.
      * destruct (fails_led (LStep i) ev i o (l_closed l) e s s2 ev H) as (p & -> & Hp); [by left|]. right. by exists p.
      * injection H as <- <-. right. eexists. split; [reflexivity|]. done.
    + destruct (_ <? _); [|discriminate H]. injection H as <- <-. right. eexists. split; [reflexivity|]. cbn. eauto.
    + destruct (l_lock l); [discriminate H|]. apply (fails_led (LStep i) ev i o (l_closed l)) in H as (p & -> & Hp); [|by right]. right. by exists p.
  - destruct (c_ops s !! i) as [o|] eqn:Eo; [|discriminate H]. destruct (o_pc o) eqn:Ep; try discriminate H. destruct (o_ctx o) as [c|] eqn:Ec; [|discriminate H].
    injection H as <- <-. destruct (HL _ _ Eo) as [l El]. exists o, l. split; [done|]. split; [done|]. right. eexists. split; [cbn; rewrite Ec; reflexivity|].
    cbn. right. left. eauto.
  - destruct (c_ops s !! i) as [o|] eqn:Eo; [|discriminate H]. destruct (c_links s !! o_link o) as [l|] eqn:El; [|discriminate H].
    exists o, l. split; [done|]. split; [done|]. right. unfold net_step in H. destruct (o_pc o) eqn:Ep; try discriminate H.
    + destruct r as [|c]; [destruct (l_curr l); [|discriminate H]|]; injection H as <- <-; eexists; (split; [reflexivity|]); cbn; [left|eauto].
    + destruct (o_kind o) eqn:Ek, r as [|c]; try discriminate H; unfold ret, report_ok in H; try (destruct (_ <? _)); injection H as <- <-;
        eexists; (split; [cbn; rewrite Ek; reflexivity|]); cbn; rewrite ?Ep, ?Ek; try (split; [eauto|done]); eauto 6.
    + unfold ret in H. injection H as <- <-. eexists. split; [reflexivity|]. destruct r; cbn; [tauto|]. split; [eauto|by right].
Qed.

Lemma cont_same s lb s2 ev : cont_step s lb = Some (s2, ev) -> c_ops s2 = c_ops s /\ forall i l k r, EvRet i l k r ∉ ev.
Proof.
  intros Hd. unfold cont_step in Hd. destruct lb, (c_pc s); try discriminate Hd; open_step Hd; injection Hd as <- <-; (split; [done|]);
    intros ? ? ? ? Hin; rewrite ?elem_of_app, ?elem_of_cons, ?elem_of_nil in Hin; naive_solver.
Qed.

Lemma ret_own s lb s2 ev i l k r : linked s -> sstep s lb = Some (s2, ev) -> EvRet i l k r ∈ ev ->
  own lb i /\ exists o, c_ops s !! i = Some o /\ o_link o = l /\ o_kind o = k /\ is_done o = false /\ c_ops s2 !! i = Some (Op (o_link o) (o_kind o) (o_ctx o) (PDone r)).
Proof.
  intros HL H Hin. destruct (sstep_sc _ _ _ _ HL H) as [Hc _].
  destruct Hc as [c Hb1 Hb2 -> ->|Hb1 Hb2 -> ->|j0 k0 l0 Hb1 Hl -> ->|i0 o0 c Hb1 Ho Hx -> ->|i0 Hb1 Ho|Hc Hb1]; try (by apply elem_of_list_singleton in Hin); [by apply elem_of_nil in Hin| |by destruct (cont_same _ _ _ _ Hc) as [_ Hn]; destruct (Hn _ _ _ _ Hin)].
  destruct Ho as [o l0|o l0 p l' er ok ev' Ho Hl Ht]; [by apply elem_of_list_singleton in Hin|].
  assert (exists r', ev' = [EvRet i0 (o_link o) (o_kind o) r']) as [r' Er'].
  { destruct Ht; try (by eexists); try (by apply elem_of_nil in Hin); by apply elem_of_list_singleton in Hin. }
  pose proof (proj2 (ot_ret _ _ _ _ _ _ _ _ _ Ht r') Er') as ->. subst ev'. apply elem_of_list_singleton in Hin as [= -> -> -> ->].
  split; [done|]. exists o. split; [done|]. split; [done|]. split; [done|]. split; [by eapply ot_notdone|]. cbn. apply list_lookup_insert. by eapply lookup_lt_Some.
Qed.

Lemma other_op s lb s2 ev i o2 : linked s -> sstep s lb = Some (s2, ev) -> ~ own lb i -> c_ops s2 !! i = Some o2 ->
  (exists o, c_ops s !! i = Some o /\ o_pc o = o_pc o2 /\ o_link o = o_link o2 /\ o_kind o = o_kind o2) \/ o_pc o2 = PStart.
Proof.
  intros HL H Hn Hi. destruct (sstep_sc _ _ _ _ HL H) as [Hc _].
  destruct Hc as [c Hb1 Hb2 -> ->|Hb1 Hb2 -> ->|j0 k0 l0 Hb1 Hl -> ->|i0 o0 c Hb1 Ho Hx -> ->|i0 Hb1 Ho|Hc Hb1]; cbn in Hi; try (left; by exists o2).
  - apply lookup_app_Some in Hi as [Hi|[_ Hi]]; [left; by exists o2|]. apply list_lookup_singleton_Some in Hi as [_ <-]. by right.
  - left. apply list_lookup_insert_Some in Hi as [(-> & <- & _)|[_ Hi]]; [by exists o0|by exists o2].
  - assert (i0 <> i) as Hne by (by intros ->). destruct Ho as [o l0|o l0 p l' er ok ev' Ho Hl Ht]; cbn in Hi; [left; by exists o2|].
    rewrite list_lookup_insert_ne in Hi by done. left. by exists o2.
  - destruct (cont_same _ _ _ _ Hc) as [Ec _]. rewrite Ec in Hi. left. by exists o2.
Qed.

Definition result_ok (ls : list clabel) (evs : list cev) (i : nat) (o : op) : Prop :=
  match o_pc o with
  | PFail e | PReport _ e | PClear e | PDone (RErr e) => origin ls evs i (o_link o) e
  | PUse ob g => pending ls i (o_link o) ob g
  | PClosing => o_kind o = KClose
  | _ => True
  end.

Lemma pending_more ls lb i l sid g : pending ls i l sid g -> (forall r, lb <> LNet i r) -> pending (ls ++ [lb]) i l sid g.
Proof.
  intros (ls1 & lb0 & ls2 & s1 & ev1 & s2 & ev2 & -> & H1 & H2 & H3 & H4) Hn. exists ls1, lb0, (ls2 ++ [lb]), s1, ev1, s2, ev2.
  split; [by rewrite <- app_assoc|]. split; [done|]. split; [done|]. split; [done|]. intros r [Hin|Hin]%elem_of_app; [by eapply H4|].
  apply elem_of_list_singleton in Hin. by eapply Hn.
Qed.

Lemma results_ok ls s evs : srun c_init ls = Some (s, evs) -> forall i o, c_ops s !! i = Some o -> result_ok ls evs i o.
Proof.
  revert ls s evs. apply (run_labels (fun ls s evs => forall i o, c_ops s !! i = Some o -> result_ok ls evs i o)); [done|].
  intros ls s evs lb s2 ev Hr IH H i o2 Hi. pose proof (ginv _ _ _ Hr) as HG.
  assert (Hkeep : ~ own lb i -> result_ok (ls ++ [lb]) (evs ++ ev) i o2).
  { intros Hn. destruct (other_op _ _ _ _ _ _ (gi_linked _ _ HG) H Hn Hi) as [(o & Ho & Ep & El & Ek)|Ep]; [|by unfold result_ok; rewrite Ep].
    specialize (IH _ _ Ho). unfold result_ok in *. rewrite Ep, El, Ek in IH. destruct (o_pc o2) as [ | | | | | | | | | | |[|]]; try done; try (by apply origin_mono).
    apply pending_more; [done|]. intros r ->. apply Hn. right. right. eauto. }
  assert (own lb i \/ ~ own lb i) as [Hown|Hn].
  { unfold own. destruct lb as [| | | | | | | | | | | | | | | | | | |i0|i0|i0 r]; try (right; intros [?|[?|[? ?]]]; discriminate);
      (destruct (decide (i0 = i)) as [->|Hne]; [left; eauto|right; intros [[= ?]|[[= ?]|[? [= ?]]]]; done]). }
  2: by apply Hkeep.
  destruct (own_led _ _ _ _ _ (gi_linked _ _ HG) H Hown) as (o & l & Ho & Hl & Hs2).
  destruct Hs2 as [[E Ep]|(p & E & Hp)]; [rewrite E in Hi; assert (o2 = o) as -> by congruence; unfold result_ok; by rewrite Ep|].
  rewrite E in Hi; rewrite list_lookup_insert in Hi by (by eapply lookup_lt_Some); injection Hi as <-; specialize (IH _ _ Ho).
  assert (forall e, origin ls evs i (o_link o) e -> origin (ls ++ [lb]) (evs ++ ev) i (o_link o) e) as Hm by (intros e; apply origin_mono).
  assert (forall e, led lb ev i o (l_closed l) (PFail e) -> origin (ls ++ [lb]) (evs ++ ev) i (o_link o) e) as Hf.
  { intros e [[Hc ->]|[(c & Hc & ->)|(c & Hc & ->)]].
    - destruct (closed_called _ _ _ _ _ Hr Hl Hc) as [j Hj]. exists j. apply elem_of_app. by left.
    - left. apply elem_of_app. left. exact (ctx_label _ _ _ _ _ _ Hr Ho Hc).
    - assert (lb ∈ ls ++ [lb]) as Hin by (apply elem_of_app; right; left). rewrite Hc in Hin. rewrite Hc. destruct c; cbn; [right|]; exact Hin. }
  unfold result_ok in *. cbn [o_pc o_link o_kind]. destruct p as [| | | | | |ob g|e|g e|e| |[|e]]; try done.
  - exists ls, lb, [], s, evs, s2, ev. split; [done|]. split; [done|]. split; [done|]. split; [done|]. intros r Hin. by apply elem_of_nil in Hin.
  - by apply Hf.
  - cbn in Hp. rewrite Hp in IH. by apply Hm.
  - destruct Hp as [g Hp]. rewrite Hp in IH. by apply Hm.
  - destruct Hp as [[Hp|[Hp|Hp]] _]; [rewrite Hp in IH; by apply Hm..|]. apply Hf. right. by right.
Qed.

Lemma ok_needs ls s evs lb s2 ev i l k : srun c_init ls = Some (s, evs) -> sstep s lb = Some (s2, ev) -> EvRet i l k ROk ∈ ev -> k <> KClose ->
  lb = LNet i NOk /\ exists sid g, pending ls i l sid g.
Proof.
  intros Hr H Hin Hk. pose proof (ginv _ _ _ Hr) as HG. destruct (ret_own _ _ _ _ _ _ _ _ (gi_linked _ _ HG) H Hin) as (Hown & o & Ho & <- & <- & Hnd & Ho2).
  destruct (own_led _ _ _ _ _ (gi_linked _ _ HG) H Hown) as (o' & l' & Ho' & Hl & Hs2). assert (o' = o) as -> by congruence.
  destruct Hs2 as [[E Ep]|(p & E & Hp)].
  - rewrite E, Ho in Ho2. injection Ho2 as Ho2. rewrite Ho2 in Ep. discriminate Ep.
  - rewrite E, list_lookup_insert in Ho2 by (by eapply lookup_lt_Some). injection Ho2 as ->. pose proof (results_ok _ _ _ Hr _ _ Ho) as Hok. unfold result_ok in Hok.
    destruct Hp as [?|[Hp|[-> (ob & g & Hp)]]]; [done| |].
    + by rewrite Hp in Hok.
    + rewrite Hp in Hok. split; [done|]. by exists ob, g.
Qed.

Lemma err_origin ls s evs i l k e : srun c_init ls = Some (s, evs) -> EvRet i l k (RErr e) ∈ evs -> origin ls evs i l e.
Proof.
  intros Hr Hin. destruct (ai_ret _ _ (ainv _ _ _ Hr) _ _ _ _ Hin) as (o & Ho & <- & <- & Hp).
  pose proof (results_ok _ _ _ Hr _ _ Ho) as Hok. unfold result_ok in Hok. by rewrite Hp in Hok.
Qed.

(** A call that is out on the network stays there until that returns. *)
Lemma use_stays ls : forall s s2 ev i o ob g, linked s -> srun s ls = Some (s2, ev) -> c_ops s !! i = Some o -> o_pc o = PUse ob g -> (forall r, LNet i r ∉ ls) ->
  exists o2, c_ops s2 !! i = Some o2 /\ o_pc o2 = PUse ob g /\ o_link o2 = o_link o /\ o_kind o2 = o_kind o.
Proof.
  induction ls as [|lb ls IH]; intros s s2 ev i o ob g HL Hr Ho Hp Hn; [injection Hr as <- <-; by exists o|].
  cbn [run] in Hr. destruct (sstep s lb) as [[s1 ev1]|] eqn:H1; [|discriminate Hr]. destruct (srun s1 ls) as [[s3 ev3]|] eqn:H2; [|discriminate Hr]. injection Hr as <- <-.
  assert (exists o1, c_ops s1 !! i = Some o1 /\ o_pc o1 = PUse ob g /\ o_link o1 = o_link o /\ o_kind o1 = o_kind o) as (o1 & Ho1 & Hp1 & Hl1 & Hk1).
  { destruct (sstep_sc _ _ _ _ HL H1) as [Hc _].
    destruct Hc as [c Hb1 Hb2 -> ->|Hb1 Hb2 -> ->|j0 k0 l0 Hb1 Hl -> ->|i0 o0 c Hb1 Ho0 Hx -> ->|i0 Hb1 Ho0|Hc Hb1]; cbn; try (by exists o).
    - exists o. split; [by apply lookup_app_l_Some|done].
    - destruct (decide (i0 = i)) as [->|Hne]; [|rewrite list_lookup_insert_ne by done; by exists o]. rewrite list_lookup_insert by (by eapply lookup_lt_Some).
      eexists. split; [reflexivity|]. cbn. assert (o0 = o) as -> by congruence. done.
    - destruct (decide (i0 = i)) as [->|Hne].
      2: { destruct Ho0 as [o' l0|o' l0 p l' er ok ev' Ho0 Hl Ht]; cbn; [by exists o|]. rewrite list_lookup_insert_ne by done. by exists o. }
      exfalso. destruct Hb1 as [->|[->|[r ->]]]; [| |by apply (Hn r); left].
      + unfold sstep in H1. destruct (c_panic s); [discriminate H1|]. rewrite Ho in H1. destruct (HL _ _ Ho) as [l0 Hl0]. rewrite Hl0 in H1. unfold op_step in H1. by rewrite Hp in H1.
      + unfold sstep in H1. destruct (c_panic s); [discriminate H1|]. rewrite Ho in H1. by rewrite Hp in H1.
    - destruct (cont_same _ _ _ _ Hc) as [-> _]. by exists o. }
  destruct (IH _ _ _ _ _ _ _ (linked_step _ _ _ _ HL H1) H2 Ho1 Hp1) as (o2 & H3 & H4 & H5 & H6); [intros r Hin; apply (Hn r); by right|].
  exists o2. split; [done|]. split; [done|]. split; congruence.
Qed.

Lemma pending_op ls s evs i l sid g : srun c_init ls = Some (s, evs) -> pending ls i l sid g ->
  exists o, c_ops s !! i = Some o /\ o_pc o = PUse sid g /\ o_link o = l.
Proof.
  intros Hr (ls1 & lb & ls2 & s1 & ev1 & s2 & ev2 & -> & H1 & H2 & H3 & H4).
  rewrite run_app, H1 in Hr. cbn [run] in Hr. rewrite H2 in Hr. destruct (srun s2 ls2) as [[s3 ev3]|] eqn:H5; [|discriminate Hr]. injection Hr as <- <-.
  pose proof (ginv _ _ _ H1) as HG. pose proof (gi_linked _ _ HG) as HL.
  assert (exists o, c_ops s2 !! i = Some o /\ o_pc o = PUse sid g /\ o_link o = l) as (o & Ho & Hp & Hl).
  { destruct (sstep_sc _ _ _ _ HL H2) as [Hc _].
    destruct Hc as [c Hb1 Hb2 -> ->|Hb1 Hb2 -> ->|j0 k0 l0 Hb1 Hl -> ->|i0 o0 c Hb1 Ho0 Hx -> ->|i0 Hb1 Ho0|Hc Hb1]; try (by apply elem_of_list_singleton in H3); [by apply elem_of_nil in H3| |].
    - destruct Ho0 as [o' l0|o' l0 p l' er ok ev' Ho0 Hl Ht]; [by apply elem_of_list_singleton in H3|].
      destruct Ht; try (by apply elem_of_nil in H3); try (by apply elem_of_list_singleton in H3); apply elem_of_list_singleton in H3 as [= -> -> -> ->];
        (eexists; split; [cbn; apply list_lookup_insert; by eapply lookup_lt_Some|done]).
    - exfalso. unfold cont_step in Hc. destruct lb, (c_pc s1); try discriminate Hc; open_step Hc; injection Hc as <- <-; rewrite ?elem_of_app, ?elem_of_cons, ?elem_of_nil in H3; naive_solver. }
  destruct (use_stays _ _ _ _ _ _ _ _ (linked_step _ _ _ _ HL H2) H5 Ho Hp H4) as (o3 & A & B & C & _). exists o3. split; [done|]. split; [done|]. congruence.
Qed.

(** Then the call returns as the network did, or, if Next or Send failed, takes
    the error in. *)
Lemma net_returns ls s evs i l sid g : srun c_init ls = Some (s, evs) -> c_panic s = false -> pending ls i l sid g ->
  exists k, EvCall i l k ∈ evs /\ k <> KClose /\
    (exists s2, sstep s (LNet i NOk) = Some (s2, [EvRet i l k ROk])) /\
    (forall c, exists s2, sstep s (LNet i (NErr c)) = Some (s2, [if decide (k = KAccept) then EvRet i l k (RErr (net_err c)) else EvNetErr i l g])).
Proof.
  intros Hr Hpan Hp. destruct (pending_op _ _ _ _ _ _ _ Hr Hp) as (o & Ho & Hpc & <-). pose proof (ainv _ _ _ Hr) as HA.
  destruct (gi_linked _ _ (ai_g _ _ HA) _ _ Ho) as [lk Hlk]. pose proof (ai_kind _ _ HA _ _ Ho) as Hk. rewrite Hpc in Hk.
  exists (o_kind o). split; [by apply (ai_called _ _ HA)|]. split; [done|]. unfold sstep. rewrite Hpan, Ho, Hlk. unfold net_step. rewrite Hpc.
  split.
  - destruct (o_kind o) eqn:Ek; try done; unfold ret; rewrite Ek; by eexists.
  - intros c. destruct (o_kind o) eqn:Ek; try done; unfold ret; rewrite ?Ek; by eexists.
Qed.

(** Next gives up only when its context has ended. *)
Lemma next_gives_up ls s evs : srun c_init ls = Some (s, evs) -> forall i o e, c_ops s !! i = Some o -> o_kind o = KNext -> o_pc o = PDone (RErr e) ->
  exists c, LCtx i c ∈ ls.
Proof.
  revert ls s evs. apply (run_labels (fun ls s evs => forall i o e, c_ops s !! i = Some o -> o_kind o = KNext -> o_pc o = PDone (RErr e) -> exists c, LCtx i c ∈ ls)); [done|].
  intros ls s evs lb s2 ev Hr IH H i o2 e Hi Hk He. pose proof (ginv _ _ _ Hr) as HG.
  assert (own lb i \/ ~ own lb i) as [Hown|Hn].
  { unfold own. destruct lb as [| | | | | | | | | | | | | | | | | | |i0|i0|i0 r]; try (right; intros [?|[?|[? ?]]]; discriminate);
      (destruct (decide (i0 = i)) as [->|Hne]; [left; eauto|right; intros [[= ?]|[[= ?]|[? [= ?]]]]; done]). }
  2: { destruct (other_op _ _ _ _ _ _ (gi_linked _ _ HG) H Hn Hi) as [(o & Ho & Ep & El & Ek)|Ep]; [|congruence].
    destruct (IH i o e Ho) as [c Hc]; [congruence..|]. exists c. apply elem_of_app. by left. }
  destruct (own_led _ _ _ _ _ (gi_linked _ _ HG) H Hown) as (o & l & Ho & Hl & Hs2).
  destruct Hs2 as [[E Ep]|(p & E & Hp)]; [rewrite E in Hi; congruence|].
  rewrite E in Hi; rewrite list_lookup_insert in Hi by (by eapply lookup_lt_Some); injection Hi as <-. cbn in Hk, He. subst p. destruct Hp as [_ Hp].
  destruct (Hp Hk) as [Hc|Hc].
  - destruct (o_ctx o) as [c|] eqn:Ec; [|done]. exists c. apply elem_of_app. left. exact (ctx_label _ _ _ _ _ _ Hr Ho Ec).
  - pose proof (results_ok _ _ _ Hr _ _ Ho) as Hok. unfold result_ok in Hok. rewrite Hc in Hok. congruence.
Qed.

(** Between two attempts to connect there is a pause. *)
Lemma pause_between b : forall s s2 ev, c_pc s <> CIdle -> c_pc s <> CDial -> srun s b = Some (s2, ev) -> LPauseEnd ∉ b -> c_pc s2 <> CIdle /\ c_pc s2 <> CDial.
Proof.
  induction b as [|lb b IH]; intros s s2 ev H1 H2 Hr Hn; [by injection Hr as <- <-|].
  cbn [run] in Hr. destruct (sstep s lb) as [[s1 ev1]|] eqn:Hs; [|discriminate Hr]. destruct (srun s1 b) as [[s3 ev3]|] eqn:H3; [|discriminate Hr]. injection Hr as <- <-.
  assert (c_pc s1 <> CIdle /\ c_pc s1 <> CDial) as [Ha Hb]; [|eapply (IH s1); [done..|exact H3|intros ?; apply Hn; by right]].
  assert (c_pc s1 = c_pc s \/ cont_step s lb = Some (s1, ev1)) as [->|Hc]; [|done|].
  { unfold sstep in Hs. destruct (c_panic s); [discriminate Hs|]. destruct lb as [| | | | | | | | | | | | | | |c| |l k|i c|i|i|i r]; try (by right); left.
    - destruct (c_ctx s); [done|]. by injection Hs as <- <-.
    - destruct (c_lock s); [done|]. by injection Hs as <- <-.
    - destruct (c_links s !! l); [|done]. by injection Hs as <- <-.
    - destruct (c_ops s !! i) as [o|]; [|done]. destruct (o_ctx o); [done|]. by injection Hs as <- <-.
    - destruct (c_ops s !! i) as [o|]; [|done]. destruct (c_links s !! o_link o) as [l|]; [|done].
      assert (forall e s', c_pc s' = c_pc s -> fails i o e s' = Some (s1, ev1) -> c_pc s1 = c_pc s) as Hf.
      { intros e s' <- Hf. unfold fails, ret in Hf. destruct (o_kind o), (o_ctx o); by injection Hf as <- <-. }
      unfold op_step, ret in Hs. destruct (o_pc o); try discriminate Hs; repeat case_match; try discriminate Hs; try (by injection Hs as <- <-); (eapply Hf; [|exact Hs]; done).
    - destruct (c_ops s !! i) as [o|]; [|done]. destruct (o_pc o), (o_ctx o); try discriminate Hs. by injection Hs as <- <-.
    - destruct (c_ops s !! i) as [o|]; [|done]. destruct (c_links s !! o_link o) as [l|]; [|done].
      unfold net_step, ret, report_ok in Hs. repeat case_match; try discriminate Hs; by injection Hs as <- <-. }
  unfold cont_step in Hc. destruct lb, (c_pc s) eqn:Ep; try discriminate Hc; try done; repeat case_match; try discriminate Hc; injection Hc as <- <-; cbn; rewrite ?Ep; try done.
  destruct Hn. left.
Qed.

Lemma dial_after_pause ls s evs a d b d' c : srun c_init ls = Some (s, evs) -> ls = a ++ LDial d :: b ++ LDial d' :: c -> LPauseEnd ∈ b.
Proof.
  intros Hr ->. assert (LPauseEnd ∈ b \/ LPauseEnd ∉ b) as Hdec.
  { clear Hr. induction b as [|lb b IH]; [right; apply not_elem_of_nil|]. destruct IH as [IH|IH]; [left; by right|].
    destruct lb; try (right; intros [?|?]%elem_of_cons; done). left. left. }
  destruct Hdec as [|Hn]; [done|exfalso].
  rewrite run_app in Hr. destruct (srun c_init a) as [[s1 ev1]|]; [|done]. cbn [run] in Hr. destruct (sstep s1 (LDial d)) as [[s2 ev2]|] eqn:H2; [|done].
  rewrite run_app in Hr. destruct (srun s2 b) as [[s3 ev3]|] eqn:H3; [|done]. cbn [run] in Hr. destruct (sstep s3 (LDial d')) as [[s4 ev4]|] eqn:H4; [|done]. clear Hr.
  assert (c_pc s2 <> CIdle /\ c_pc s2 <> CDial) as [Ha Hb].
  { unfold sstep in H2. destruct (c_panic s1); [discriminate H2|]. cbn in H2. destruct (c_pc s1); try discriminate H2. destruct d; injection H2 as <- <-; done. }
  destruct (pause_between b _ _ _ Ha Hb H3 Hn) as [Hc Hd]. unfold sstep in H4. destruct (c_panic s3); [discriminate H4|]. cbn in H4. by destruct (c_pc s3).
Qed.
