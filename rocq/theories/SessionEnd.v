(** Closed links, calls one at a time, calls whose context ended. *)
From Coq Require Import ZArith NArith Ascii String Lia Sorted.
From stdpp Require Import base gmap strings list sorting.
From Verif Require Import GoBase Run Session SessionFacts SessionCont SessionLink.

Local Open Scope list_scope.

(** ** Calls begun after Close returned *)

(** Call [i] was begun after a Close of the same link had returned. *)
Definition late (i : nat) (evs : list cev) : Prop := exists a l k b i0 r, evs = a ++ EvCall i l k :: b /\ EvRet i0 l KClose r ∈ a.

Lemma late_snoc i evs e : late i (evs ++ [e]) -> late i evs \/ exists l k i0 r, e = EvCall i l k /\ EvRet i0 l KClose r ∈ evs.
Proof.
  intros (a & l & k & b & i0 & r & E & Hin). destruct (decide (b = [])) as [->|Hb].
  - apply app_inj_tail in E as [-> ->]. right. eauto 10.
  - destruct (exists_last Hb) as (b' & y & ->). replace (a ++ EvCall i l k :: b' ++ [y]) with ((a ++ EvCall i l k :: b') ++ [y]) in E by (by rewrite <-app_assoc).
    apply app_inj_tail in E as [-> _]. left. exists a, l, k, b', i0, r. done.
Qed.
Lemma late_two i evs e e' : (forall l k, e <> EvCall i l k) -> (forall l k, e' <> EvCall i l k) -> late i (evs ++ [e; e']) -> late i evs.
Proof.
  intros H1 H2. replace (evs ++ [e; e']) with ((evs ++ [e]) ++ [e']) by (by rewrite <-app_assoc). intros H.
  apply late_snoc in H as [H|(? & ? & ? & ? & -> & _)]; [|by destruct (H2 x x0)]. apply late_snoc in H as [H|(? & ? & ? & ? & -> & _)]; [done|by destruct (H1 x x0)].
Qed.

Definition refuses (a : list cev) (e : cev) : Prop :=
  match e with
  | EvUse i _ _ _ | EvNew i _ _ _ | EvReport i _ _ => ~ late i a
  | EvRet i _ k r => late i a -> k <> KClose -> r = RErr EClosed
  | _ => True
  end.

Record LInv (s : cstate) (evs : list cev) : Prop := {
  li_a : AInv s evs;
  li_law : each refuses evs;
  li_late : forall i o l, c_ops s !! i = Some o -> late i evs -> o_kind o <> KClose -> c_links s !! o_link o = Some l ->
    l_closed l = true /\ (o_pc o = PStart \/ o_pc o = PFail EClosed \/ (o_pc o = PDone (RErr EClosed) /\ (o_kind o = KNext -> o_ctx o <> None)));
}.

Lemma no_call_late i evs ev : (forall l k, EvCall i l k ∉ ev) -> late i (evs ++ ev) -> late i evs.
Proof.
  revert i evs. induction ev as [|e ev IH]; intros i evs Hn H; [by rewrite app_nil_r in H|].
  rewrite (cons_middle e evs ev), app_assoc in H. apply IH in H.
  - apply late_snoc in H as [H|(l & k & ? & ? & -> & _)]; [done|]. destruct (Hn l k). left.
  - intros l k Hin. apply (Hn l k). by right.
Qed.

Lemma LInv_step s evs lb s2 ev : LInv s evs -> sstep s lb = Some (s2, ev) -> LInv s2 (evs ++ ev).
Proof.
  intros [HA HW HL] H. pose proof (AInv_step _ _ _ _ _ HA H) as HA2. pose proof (ai_g _ _ HA) as HG.
  destruct (sstep_sc _ _ _ _ (gi_linked _ _ HG) H) as [Hc _].
  destruct Hc as [c Hb1 Hb2 -> ->|Hb1 Hb2 -> ->|j0 k l Hb1 Hl -> ->|i0 o0 c Hb1 Ho Hx -> ->|i0 Hb1 Ho|Hc Hb1].
  - split; [done|by apply each_snoc|]. intros i o l Hi Hlt. apply (HL i o l Hi). eapply no_call_late; [|exact Hlt]. intros ? ?. by rewrite elem_of_list_singleton.
  - split; [done|by apply each_snoc|]. intros i o l Hi Hlt Hk Hj. cbn in *.
    apply (HL i o l); try done; [eapply no_call_late; [|exact Hlt]; intros ? ?; by rewrite elem_of_list_singleton|].
    destruct (gi_linked _ _ HG _ _ Hi) as [l1 Hl1]. rewrite (lookup_app_l_Some _ _ _ _ Hl1) in Hj. congruence.
  - split; [done|by apply each_snoc|]. cbn. intros i o l1 Hi Hlt Hk Hj.
    apply lookup_app_Some in Hi as [Hi|[Hge Hi]].
    + apply (HL i o l1); try done. eapply no_call_late; [|exact Hlt]. intros ? ?. rewrite elem_of_list_singleton. intros [= -> _ _].
      apply lookup_lt_Some in Hi. lia.
    + apply list_lookup_singleton_Some in Hi as [Hi <-]. cbn in *. split; [|by left].
      apply late_snoc in Hlt as [(a & l2 & k2 & b & i1 & r & -> & _)|(l2 & k2 & i1 & r & [= _ <- _] & Hin)].
      * assert (Hin : EvCall i l2 k2 ∈ a ++ EvCall i l2 k2 :: b) by (apply elem_of_app; right; left).
        destruct (ai_call _ _ HA _ _ _ Hin) as (o' & Ho' & _). apply lookup_lt_Some in Ho'. lia.
      * by eapply (ai_closed _ _ HA).
  - split; [done|by rewrite app_nil_r|]. rewrite app_nil_r in *. cbn. intros i o l Hi Hlt Hk Hj.
    apply list_lookup_insert_Some in Hi as [(-> & <- & _)|[Hne Hi]]; [|by apply (HL i o l)].
    cbn in *. destruct (HL i o0 l Ho Hlt Hk Hj) as [? Hp]. split; [done|]. destruct Hp as [?|[?|[? ?]]]; [by left|right; by left|right; right]. done.
  - destruct Ho as [o l|o l p l' er ok ev' Ho Hl Ht].
    { split; [done|by apply each_snoc|]. intros i1 o1 l1 Hi Hlt. apply (HL i1 o1 l1 Hi). eapply no_call_late; [|exact Hlt]. intros ? ?. by rewrite elem_of_list_singleton. }
    pose proof (ot_events _ _ _ _ _ _ _ _ _ Ht) as Hev.
    assert (Hnc : forall i l k, EvCall i l k ∉ ev').
    { intros i l0 k. destruct Hev as [->|(e & -> & He)]; [by apply not_elem_of_nil|]. rewrite elem_of_list_singleton. destruct_or! He; naive_solver. }
    (* a late call: what it can do *)
    assert (Hmine : late i0 evs -> o_kind o <> KClose ->
       l_closed l' = true /\ (p = PStart \/ p = PFail EClosed \/ (p = PDone (RErr EClosed) /\ (o_kind o = KNext -> o_ctx o <> None))) /\
       (ev' = [] \/ ev' = [EvRet i0 (o_link o) (o_kind o) (RErr EClosed)])).
    { intros Hlt Hk. destruct (HL i0 o l Ho Hlt Hk Hl) as [Hcl Hp].
      destruct Ht as [Hpc|Hpc|Hpc|sid Hpc Hk2 Hlk Hcl2|Hpc Hk2 Hlk Hcl2|g Hpc|g Hpc|g n Hpc|g n c Hpc|x g Hpc|ob Hpc|sid Hpc|sid Hpc|c Hpc
            |ob g Hpc|ob g okl Hpc|ob g c Hpc|ob g c Hpc|Hpc|e Hpc Hm Hq|e Hpc Hq|g e Hpc|e Hpc|e Hpc|r Hpc];
        destruct Hp as [Hp|[Hp|[Hp _]]]; try congruence.
      - split; [done|]. split; [right; by left|by left].
      - split; [done|]. split; [by left|by left].
      - assert (e = EClosed) as -> by congruence. split; [done|]. split; [right; right; split; [done|]|by right].
        intros Hkn Hn. apply Hm. by split.
      - destruct Hq. left. congruence. }
    split; [done| |].
    + destruct Hev as [->|(e & -> & He)]; [by rewrite app_nil_r|]. apply each_snoc; [done|].
      destruct (decide (o_kind o = KClose)) as [Hk|Hk].
      { destruct_or! He; [destruct He as (? & ? & -> & Hpp)|destruct He as (? & ? & ->)|destruct He as (? & ->)|destruct He as (? & ->)|destruct He as (? & ->)]; cbn; try done; exfalso.
        all: pose proof (ai_kind _ _ HA _ _ Ho) as Hkd; rewrite Hk in Hkd; inversion Ht; subst;
          repeat match goal with E : o_pc _ = _ |- _ => rewrite E in Hkd; clear E end; done. }
      destruct_or! He; [destruct He as (? & ? & -> & Hpp)|destruct He as (? & ? & ->)|destruct He as (? & ->)|destruct He as (? & ->)|destruct He as (? & ->)]; cbn; try done;
        intros Hlt; destruct (Hmine Hlt Hk) as (_ & _ & [?|?]); simplify_eq; done.
    + cbn. intros i o1 l1 Hi Hlt Hk1 Hj. apply no_call_late in Hlt; [|done].
      apply list_lookup_insert_Some in Hi as [(-> & <- & _)|[Hne Hi]].
      * cbn in *. rewrite list_lookup_insert in Hj by (by eapply lookup_lt_Some). injection Hj as <-. destruct (Hmine Hlt Hk1) as (? & ? & _). done.
      * apply list_lookup_insert_Some in Hj as [(Ej & <- & _)|[Hnj Hj]]; [|by apply (HL i o1 l1)].
        rewrite Ej in Hl. destruct (HL i o1 l Hi Hlt Hk1 Hl) as [Hcl Hp]. split; [|done]. by eapply ot_closed.
  - assert (c_ops s2 = c_ops s /\ c_links s2 = c_links s /\ (forall i l k, EvCall i l k ∉ ev) /\ each refuses (evs ++ ev)) as (Eo & El & Hnc & HW2).
    { unfold cont_step in Hc. destruct lb, (c_pc s); try discriminate Hc; open_step Hc; injection Hc as <- <-; rewrite ?app_nil_r; split_and!; try done; try (by apply each_snoc);
        try (intros ? ? ?; by rewrite ?elem_of_cons, ?elem_of_nil; naive_solver).
      all: match goal with |- each _ (?a ++ [?x; ?y]) => replace (a ++ [x; y]) with ((a ++ [x]) ++ [y]) by (by rewrite <-app_assoc) end; by do 2 (apply each_snoc; [|done]). }
    split; [done|done|]. rewrite Eo, El. intros i o l Hi Hlt. apply (HL i o l Hi). eapply no_call_late; [|exact Hlt]. done.
Qed.

Lemma linv ls s evs : srun c_init ls = Some (s, evs) -> LInv s evs.
Proof.
  intros Hr. eapply (run_inv sstep LInv (fun _ => True) c_init []) with (4 := Hr).
  - split; [exact AInv_init|apply each_nil|done].
  - intros. by eapply LInv_step.
  - by apply Forall_true.
Qed.

Lemma late_refused ls s evs a e b : srun c_init ls = Some (s, evs) -> evs = a ++ e :: b -> refuses a e.
Proof. intros Hr. apply (li_law _ _ (linv _ _ _ Hr)). Qed.

(** Contexts end by the label only. *)
Lemma ctx_label ls s evs i o c : srun c_init ls = Some (s, evs) -> c_ops s !! i = Some o -> o_ctx o = Some c -> LCtx i c ∈ ls.
Proof.
  intros Hr. cut (GInv s ([] ++ evs) /\ forall i o c, c_ops s !! i = Some o -> o_ctx o = Some c -> LCtx i c ∈ ls); [intros [_ H]; apply H|].
  eapply (run_inv_rel sstep (fun s evs => GInv s evs /\ forall i o c, c_ops s !! i = Some o -> o_ctx o = Some c -> LCtx i c ∈ ls) c_init []) with (3 := Hr).
  - split; [exact GInv_init|done].
  - clear. intros s evs lb s2 ev [HG IH] Hin _ H. split; [by eapply GInv_step|].
    destruct (sstep_sc _ _ _ _ (gi_linked _ _ HG) H) as [Hc _].
    destruct Hc as [c Hb1 Hb2 -> ->|Hb1 Hb2 -> ->|j0 k l Hb1 Hl -> ->|i0 o0 c Hb1 Ho Hx -> ->|i0 Hb1 Ho|Hc Hb1]; try exact IH.
    + cbn. intros i o c Hi Hcx. apply lookup_app_Some in Hi as [Hi|[_ Hi]]; [by apply (IH i o c)|]. apply list_lookup_singleton_Some in Hi as [_ <-]. done.
    + cbn. intros i o c' Hi Hcx. apply list_lookup_insert_Some in Hi as [(-> & <- & _)|[Hne Hi]]; [|by apply (IH i o c')]. cbn in Hcx. injection Hcx as <-. by subst lb.
    + destruct Ho as [o l|o l p l' er ok ev' Ho Hl Ht]; [exact IH|]. cbn. intros i o1 c' Hi Hcx.
      apply list_lookup_insert_Some in Hi as [(-> & <- & _)|[Hne Hi]]; [|by apply (IH i o1 c')]. by apply (IH i o c').
    + assert (c_ops s2 = c_ops s) as ->; [|exact IH].
      unfold cont_step in Hc. destruct lb, (c_pc s); try discriminate Hc; open_step Hc; injection Hc as <- <-; done.
Qed.

(** Next on a closed link returns only when its context has ended. *)
Lemma next_needs_ctx ls s evs i l r : srun c_init ls = Some (s, evs) -> late i evs -> EvRet i l KNext r ∈ evs -> exists c, LCtx i c ∈ ls.
Proof.
  intros Hr Hlt Hin. pose proof (linv _ _ _ Hr) as HL. destruct (ai_ret _ _ (li_a _ _ HL) _ _ _ _ Hin) as (o & Ho & Hj & Hk & Hp).
  destruct (gi_linked _ _ (ai_g _ _ (li_a _ _ HL)) _ _ Ho) as [ln Hln]. destruct (li_late _ _ HL i o ln Ho Hlt ltac:(congruence) Hln) as (_ & [?|[?|[_ Hx]]]); try congruence.
  destruct (o_ctx o) as [c|] eqn:Ec; [|by destruct (Hx Hk)]. exists c. by eapply ctx_label.
Qed.

Lemma fail_fast ls s evs i o l : srun c_init ls = Some (s, evs) -> c_panic s = false -> c_ops s !! i = Some o -> late i evs -> o_pc o = PStart ->
  o_kind o = KSend \/ o_kind o = KAccept -> c_links s !! o_link o = Some l -> l_lock l = false ->
  exists s', srun s [LStep i; LStep i] = Some (s', [EvRet i (o_link o) (o_kind o) (RErr EClosed)]).
Proof.
  intros Hr Hpan Ho Hlt Hp Hk Hl Hlk. pose proof (linv _ _ _ Hr) as HL. assert (Hk' : o_kind o <> KClose) by (destruct Hk; congruence).
  destruct (li_late _ _ HL i o l Ho Hlt Hk' Hl) as [Hcl _]. cbn [run]. unfold sstep at 1. rewrite Hpan, Ho, Hl. unfold op_step at 1. rewrite Hp, Hlk, Hcl.
  assert (E : forall x : option (cstate * list cev), match o_kind o with KClose => x | _ => Some (set_op i o (PFail EClosed) s, []) end = Some (set_op i o (PFail EClosed) s, [])).
  { intros x. destruct (o_kind o); try done. }
  destruct (o_kind o) eqn:Ek; try (exfalso; destruct Hk; congruence).
  all: unfold sstep; cbn [c_panic set_op cs_ops c_ops c_links]; rewrite Hpan, list_lookup_insert by (by eapply lookup_lt_Some); cbn [o_link]; rewrite Hl; unfold op_step; cbn [o_pc].
  all: case_bool_decide as Hb; [destruct Hb as [_ Hb]; cbn in Hb; destruct (o_ctx o); done|]; rewrite bool_decide_eq_true_2 by done.
  all: unfold fails; cbn [o_kind o_ctx]; rewrite ?Ek; unfold ret; cbn [o_link o_kind]; rewrite ?Ek; eexists; reflexivity.
Qed.
