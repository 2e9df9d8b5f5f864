(** Facts about links: used by one goroutine, closed, or used freely. *)
From Coq Require Import ZArith NArith Ascii String Lia Sorted.
From stdpp Require Import base gmap strings list sorting.
From Verif Require Import GoBase Run Session SessionFacts SessionCont.

Local Open Scope list_scope.

(** ** Calls and returns *)

Definition holds (o : op) : bool := match o_pc o with PCreate | PClosing => true | _ => false end.
Definition is_done (o : op) : bool := match o_pc o with PDone _ => true | _ => false end.

Record AInv (s : cstate) (evs : list cev) : Prop := {
  ai_g : GInv s evs;
  ai_call : forall i l k, EvCall i l k ∈ evs -> exists o, c_ops s !! i = Some o /\ o_link o = l /\ o_kind o = k;
  ai_called : forall i o, c_ops s !! i = Some o -> EvCall i (o_link o) (o_kind o) ∈ evs;
  ai_ret : forall i l k r, EvRet i l k r ∈ evs -> exists o, c_ops s !! i = Some o /\ o_link o = l /\ o_kind o = k /\ o_pc o = PDone r;
  ai_done : forall i o r, c_ops s !! i = Some o -> o_pc o = PDone r -> EvRet i (o_link o) (o_kind o) r ∈ evs;
  ai_kind : forall i o, c_ops s !! i = Some o ->
    match o_pc o with PStart | PDone _ => True | PClosing => o_kind o = KClose | _ => o_kind o <> KClose end;
  ai_lock : forall j l, c_links s !! j = Some l -> l_lock l = true -> exists i o, c_ops s !! i = Some o /\ o_link o = j /\ holds o = true;
  ai_hold : forall i o, c_ops s !! i = Some o -> holds o = true -> exists l, c_links s !! o_link o = Some l /\ l_lock l = true /\
    (o_pc o = PCreate -> l_curr l <> None);
  ai_one : forall i i' o o', c_ops s !! i = Some o -> c_ops s !! i' = Some o' -> o_link o = o_link o' -> holds o = true -> holds o' = true -> i = i';
  ai_fresh : forall j, c_links s !! j = None -> reports j evs = [] /\ uses j evs = [];
  ai_closed : forall i j r l, EvRet i j KClose r ∈ evs -> c_links s !! j = Some l -> l_closed l = true;
  ai_closing : forall i o l, c_ops s !! i = Some o -> o_pc o = PClosing -> c_links s !! o_link o = Some l -> l_closed l = true;
}.

Lemma AInv_init : AInv c_init [].
Proof.
  split; cbn; try done; intros; try (by apply elem_of_nil in H). exact GInv_init.
Qed.

(** What a step does to its link and its operation. *)
Lemma ot_kind s i o l p l' er ok ev : ot s i o l p l' er ok ev ->
  match o_pc o with PStart | PDone _ => True | PClosing => o_kind o = KClose | _ => o_kind o <> KClose end ->
  match p with PStart | PDone _ => True | PClosing => o_kind o = KClose | _ => o_kind o <> KClose end.
Proof. intros H. destruct H; repeat match goal with E : o_pc o = _ |- _ => rewrite E; clear E end; cbn; try done; try tauto; destruct (o_kind o); naive_solver. Qed.

Lemma ot_notdone s i o l p l' er ok ev : ot s i o l p l' er ok ev -> is_done o = false.
Proof. intros H. unfold is_done. destruct H; repeat match goal with E : o_pc o = _ |- _ => rewrite E; clear E end; done. Qed.

Lemma ot_ret s i o l p l' er ok ev : ot s i o l p l' er ok ev -> forall r, p = PDone r <-> ev = [EvRet i (o_link o) (o_kind o) r].
Proof. intros H. destruct H; intros; split; intros; simplify_eq; done. Qed.

Definition holds_pc (p : opc) : bool := match p with PCreate | PClosing => true | _ => false end.
(** A step either does not see the lock, takes it, has it, or gives it back. *)
Lemma ot_lock s i o l p l' er ok ev : ot s i o l p l' er ok ev ->
  (l_lock l' = l_lock l /\ holds o = false /\ holds_pc p = false /\ (l_lock l = false \/ (l_curr l' = l_curr l /\ l_gen l' = l_gen l))) \/
  (l_lock l = false /\ l_lock l' = true /\ holds o = false /\ holds_pc p = true /\ (p = PCreate -> l_curr l' <> None)) \/
  (l_lock l' = false /\ holds o = true /\ holds_pc p = false).
Proof.
  intros H. unfold holds. destruct H; repeat match goal with E : o_pc o = _ |- _ => rewrite E; clear E end; cbn; rewrite ?l_lock;
    first [left; split_and!; (done || (by left) || (by right))|right; left; split_and!; (done || congruence)|right; right; split_and!; done|idtac].
  all: destruct (o_kind o); cbn; tauto.
Qed.

Lemma ot_closed s i o l p l' er ok ev : ot s i o l p l' er ok ev -> l_closed l = true -> l_closed l' = true.
Proof. intros H Hc. destruct H; try done. unfold locked, set_part. by destruct (o_kind o). Qed.
Lemma ot_closes s i o l p l' er ok ev : ot s i o l p l' er ok ev -> o_kind o = KClose -> o_pc o = PStart -> l_closed l' = true.
Proof. intros H Hk Hp. destruct H; try done; congruence. Qed.

Lemma reports_one j ev : reports j ev = omap (fun e => match e with EvReport _ l' g => if l' =? j then Some g else None | _ => None end) ev.
Proof. done. Qed.

Lemma ot_reports s i o l p l' er ok ev j : ot s i o l p l' er ok ev -> j <> o_link o -> reports j ev = [] /\ uses j ev = [].
Proof.
  intros H Hj. apply not_eq_sym, Nat.eqb_neq in Hj. destruct (ot_events _ _ _ _ _ _ _ _ _ H) as [->|(e & -> & He)]; [done|].
  destruct_or! He; [destruct He as (? & ? & -> & _)|destruct He as (? & ? & ->)|destruct He as (? & ->)|destruct He as (? & ->)|destruct He as (? & ->)];
    cbn; by rewrite ?Hj.
Qed.

Lemma AInv_step s evs lb s2 ev : AInv s evs -> sstep s lb = Some (s2, ev) -> AInv s2 (evs ++ ev).
Proof.
  intros HA H. pose proof (GInv_step _ _ _ _ _ (ai_g _ _ HA) H) as HG.
  destruct (sstep_sc _ _ _ _ (gi_linked _ _ (ai_g _ _ HA)) H) as [Hc _].
  assert (Hsame : c_ops s2 = c_ops s -> c_links s2 = c_links s -> Forall (fun e => match e with EvCall _ _ _ | EvRet _ _ _ _ | EvReport _ _ _ | EvUse _ _ _ _ | EvNew _ _ _ _ => False | _ => True end) ev -> AInv s2 (evs ++ ev)).
  { intros Eo El Hev. rewrite Forall_forall in Hev. destruct HA as [H1 H2 H3 H4 H5 H6 H7 H8 H9 H10 H11 H12].
    split; rewrite ?Eo, ?El; try done.
    - intros i l k. rewrite elem_of_app. intros [He|He]; [by apply H2|by apply Hev in He].
    - intros i o Hi. apply elem_of_app. left. by apply H3.
    - intros i l k r. rewrite elem_of_app. intros [He|He]; [by apply H4|by apply Hev in He].
    - intros i o r Hi Hp. apply elem_of_app. left. by apply H5.
    - intros j Hj. rewrite reports_app, uses_app. destruct (H10 j Hj) as [-> ->]. clear -Hev. split; cbn.
      + induction ev as [|e ev IH]; [done|]. assert (reports j ev = []) as IH' by (apply IH; intros x Hx; apply Hev; by right).
        specialize (Hev e ltac:(left)). cbn. unfold reports in IH'. rewrite IH'. by destruct e.
      + induction ev as [|e ev IH]; [done|]. assert (uses j ev = []) as IH' by (apply IH; intros x Hx; apply Hev; by right).
        specialize (Hev e ltac:(left)). cbn. unfold uses in IH'. rewrite IH'. by destruct e.
    - intros i j r l. rewrite elem_of_app. intros [He|He]; [by apply (H11 i j r)|by apply Hev in He]. }
  destruct Hc as [c Hb1 Hb2 -> ->|Hb1 Hb2 -> ->|j k l Hb1 Hl -> ->|i0 o0 c Hb1 Ho Hx -> ->|i0 Hb1 Ho|Hc Hb1].
  - apply Hsame; [done|done|by repeat constructor].
  - destruct HA as [H1 H2 H3 H4 H5 H6 H7 H8 H9 H10 H11 H12].
    assert (Hnew : forall j l, (c_links s ++ [Lnk false (c_gen s) (c_sess s) (0, None) (0, None) false]) !! j = Some l ->
       c_links s !! j = Some l \/ (l = Lnk false (c_gen s) (c_sess s) (0, None) (0, None) false /\ c_links s !! j = None)).
    { intros j l Hj. apply lookup_app_Some in Hj as [Hj|[Hge Hj]]; [by left|]. right. apply list_lookup_singleton_Some in Hj as [Hj <-].
      split; [done|]. apply lookup_ge_None. lia. }
    split; cbn [c_ops c_links cs_links]; try done.
    + intros i l k. rewrite elem_of_app, elem_of_list_singleton. intros [He|He]; [by apply H2|done].
    + intros i o Hi. apply elem_of_app. left. by apply H3.
    + intros i l k r. rewrite elem_of_app, elem_of_list_singleton. intros [He|He]; [by apply H4|done].
    + intros i o r Hi Hp. apply elem_of_app. left. by apply H5.
    + intros j l Hj Hlk. destruct (Hnew j l Hj) as [Hj'|[-> _]]; [by apply (H7 j l)|done].
    + intros i o Hi Hh. destruct (H8 i o Hi Hh) as (l & Hl & Hr). exists l. split; [by apply lookup_app_l_Some|done].
    + intros j Hj. rewrite reports_app, uses_app. cbn. assert (Hj' : c_links s !! j = None) by (apply lookup_ge_None; apply lookup_ge_None in Hj; rewrite app_length in Hj; lia). destruct (H10 j Hj') as [-> ->]. done.
    + intros i j r l. rewrite elem_of_app, elem_of_list_singleton. intros [He|He] Hj; [|done]. destruct (Hnew j l Hj) as [Hj'|[-> Hn]]; [by apply (H11 i j r)|].
      destruct (H4 _ _ _ _ He) as (o & Hi & <- & _). destruct (gi_linked _ _ H1 i o Hi). congruence.
    + intros i o l Hi Hp Hj. destruct (Hnew _ l Hj) as [Hj'|[-> Hn]]; [by apply (H12 i o)|]. destruct (gi_linked _ _ H1 i o Hi). congruence.
  - destruct HA as [H1 H2 H3 H4 H5 H6 H7 H8 H9 H10 H11 H12].
    assert (Hnew : forall i o, (c_ops s ++ [Op j k None PStart]) !! i = Some o -> c_ops s !! i = Some o \/ (i = length (c_ops s) /\ o = Op j k None PStart)).
    { intros i o Hi. apply lookup_app_Some in Hi as [Hi|[Hge Hi]]; [by left|]. right. apply list_lookup_singleton_Some in Hi as [Hi <-]. split; [lia|done]. }
    split; cbn [c_ops c_links cs_ops]; try done.
    + intros i l' k'. rewrite elem_of_app, elem_of_list_singleton. intros [He|[= -> -> ->]].
      * destruct (H2 _ _ _ He) as (o & Hi & Hr). exists o. split; [by apply lookup_app_l_Some|done].
      * eexists. rewrite lookup_app_r, Nat.sub_diag by done. done.
    + intros i o Hi. apply elem_of_app. destruct (Hnew i o Hi) as [Hi'|[-> ->]]; [left; by apply H3|right; left].
    + intros i l' k' r. rewrite elem_of_app, elem_of_list_singleton. intros [He|He]; [|done].
      destruct (H4 _ _ _ _ He) as (o & Hi & Hr). exists o. split; [by apply lookup_app_l_Some|done].
    + intros i o r Hi Hp. apply elem_of_app. destruct (Hnew i o Hi) as [Hi'|[-> ->]]; [left; by apply H5|done].
    + intros i o Hi. destruct (Hnew i o Hi) as [Hi'|[-> ->]]; [by apply (H6 i)|done].
    + intros j' l' Hj Hlk. destruct (H7 _ _ Hj Hlk) as (i & o & Hi & Hr). exists i, o. split; [by apply lookup_app_l_Some|done].
    + intros i o Hi Hh. destruct (Hnew i o Hi) as [Hi'|[-> ->]]; [by apply (H8 i)|done].
    + intros i i' o o' Hi Hi' Hj Hh Hh'. destruct (Hnew i o Hi) as [Ha|[-> ->]]; [|done]. destruct (Hnew i' o' Hi') as [Hb|[-> ->]]; [|done]. by eapply H9.
    + intros j' Hj. rewrite reports_app, uses_app. destruct (H10 j' Hj) as [-> ->]. done.
    + intros i j' r l'. rewrite elem_of_app, elem_of_list_singleton. intros [He|He] Hj; [|done]. by apply (H11 i j' r).
    + intros i o l' Hi Hp Hj. destruct (Hnew i o Hi) as [Hi'|[-> ->]]; [by apply (H12 i o)|done].
  - destruct HA as [H1 H2 H3 H4 H5 H6 H7 H8 H9 H10 H11 H12].
    assert (Hnew : forall i o, <[i0:=Op (o_link o0) (o_kind o0) (Some c) (o_pc o0)]> (c_ops s) !! i = Some o ->
       exists o', c_ops s !! i = Some o' /\ o_link o = o_link o' /\ o_kind o = o_kind o' /\ o_pc o = o_pc o').
    { intros i o Hi. apply list_lookup_insert_Some in Hi as [(-> & <- & _)|[_ Hi]]; [by exists o0|by exists o]. }
    assert (Hold : forall i o, c_ops s !! i = Some o -> exists o', <[i0:=Op (o_link o0) (o_kind o0) (Some c) (o_pc o0)]> (c_ops s) !! i = Some o' /\
       o_link o' = o_link o /\ o_kind o' = o_kind o /\ o_pc o' = o_pc o).
    { intros i o Hi. destruct (decide (i = i0)) as [->|Hne].
      - eexists. split; [apply list_lookup_insert; by eapply lookup_lt_Some|]. by simplify_eq.
      - exists o. by rewrite list_lookup_insert_ne. }
    assert (Hh : forall o o', o_pc o = o_pc o' -> holds o = holds o') by (by unfold holds; intros ? ? ->).
    rewrite app_nil_r in *. split; cbn [c_ops c_links cs_ops]; try done.
    + intros i l k He. destruct (H2 _ _ _ He) as (o & Hi & <- & <-). destruct (Hold i o Hi) as (o' & Ho' & ? & ? & ?). by exists o'.
    + intros i o Hi. destruct (Hnew i o Hi) as (o' & Ho' & -> & -> & _). by apply H3.
    + intros i l k r He. destruct (H4 _ _ _ _ He) as (o & Hi & <- & <- & <-). destruct (Hold i o Hi) as (o' & Ho' & ? & ? & ?). by exists o'.
    + intros i o r Hi Hp. destruct (Hnew i o Hi) as (o' & Ho' & E1 & E2 & E3). rewrite E1, E2. apply H5; [done|congruence].
    + intros i o Hi. destruct (Hnew i o Hi) as (o' & Ho' & E1 & E2 & E3). rewrite E2, E3. by apply (H6 i).
    + intros j' l' Hj Hlk. destruct (H7 _ _ Hj Hlk) as (i & o & Hi & <- & Hr). destruct (Hold i o Hi) as (o' & Ho' & ? & ? & E). exists i, o'. split_and!; [done|done|]. by rewrite (Hh _ _ E).
    + intros i o Hi Hhh. destruct (Hnew i o Hi) as (o' & Ho' & E1 & E2 & E3). rewrite E1, E3. apply (H8 i o'); [done|]. by rewrite <-(Hh _ _ E3).
    + intros i i' o o' Hi Hi' Hj Hh1 Hh2. destruct (Hnew i o Hi) as (o1 & Ho1 & E1 & E2 & E3). destruct (Hnew i' o' Hi') as (o2 & Ho2 & F1 & F2 & F3).
      apply (H9 i i' o1 o2); try done; [congruence|by rewrite <-(Hh _ _ E3)|by rewrite <-(Hh _ _ F3)].
    + intros i o l Hi Hp Hj. destruct (Hnew i o Hi) as (o' & Ho' & E1 & E2 & E3). apply (H12 i o'); [done|congruence|congruence].
  - destruct Ho as [?|o l p l' er ok ev' Ho Hl Ht].
    { apply Hsame; [done|done|by repeat constructor]. }
    pose proof (ot_events _ _ _ _ _ _ _ _ _ Ht) as Hev. pose proof (ot_notdone _ _ _ _ _ _ _ _ _ Ht) as Hnd. pose proof (ot_ret _ _ _ _ _ _ _ _ _ Ht) as Hret.
    destruct HA as [H1 H2 H3 H4 H5 H6 H7 H8 H9 H10 H11 H12].
    assert (Hnc : forall i l k, EvCall i l k ∉ ev').
    { intros i l0 k. destruct Hev as [->|(e & -> & He)]; [by apply not_elem_of_nil|]. rewrite elem_of_list_singleton. destruct_or! He; naive_solver. }
    assert (Hrr : forall i l k r, EvRet i l k r ∈ ev' -> i = i0 /\ l = o_link o /\ k = o_kind o /\ p = PDone r).
    { intros i l0 k r Hin. destruct Hev as [->|(e & -> & He)]; [by apply elem_of_nil in Hin|]. apply elem_of_list_singleton in Hin as <-.
      destruct_or! He; [naive_solver|naive_solver| |naive_solver|naive_solver]. destruct He as [r0 [= -> -> -> <-]]. split_and!; try done. by apply Hret. }
    unfold upd. set (on := Op (o_link o) (o_kind o) (o_ctx o) p).
    assert (Hnew : forall i o1, <[i0:=on]> (c_ops s) !! i = Some o1 -> (i = i0 /\ o1 = on) \/ (i <> i0 /\ c_ops s !! i = Some o1)).
    { intros i o1 Hi. apply list_lookup_insert_Some in Hi as [(-> & <- & _)|[Hne Hi]]; [by left|right; by split]. }
    assert (Hin0 : <[i0:=on]> (c_ops s) !! i0 = Some on) by (apply list_lookup_insert; by eapply lookup_lt_Some).
    assert (Hold : forall i, i <> i0 -> <[i0:=on]> (c_ops s) !! i = c_ops s !! i) by (intros; by apply list_lookup_insert_ne).
    assert (Hnewl : forall j l1, <[o_link o:=l']> (c_links s) !! j = Some l1 -> (j = o_link o /\ l1 = l') \/ (j <> o_link o /\ c_links s !! j = Some l1)).
    { intros j l1 Hj. apply list_lookup_insert_Some in Hj as [(<- & <- & _)|[Hne Hj]]; [by left|right; by split]. }
    assert (Hinl : <[o_link o:=l']> (c_links s) !! o_link o = Some l') by (apply list_lookup_insert; by eapply lookup_lt_Some).
    split; cbn [c_ops c_links]; try done.
    + intros i l0 k. rewrite elem_of_app. intros [He|He]; [|by apply Hnc in He]. destruct (H2 _ _ _ He) as (o1 & Hi & <- & <-).
      destruct (decide (i = i0)) as [->|Hne]; [exists on; by simplify_eq|exists o1; by rewrite Hold].
    + intros i o1 Hi. apply elem_of_app. left. destruct (Hnew i o1 Hi) as [[-> ->]|[Hne Hi']]; [by apply (H3 i0 o)|by apply H3].
    + intros i l0 k r. rewrite elem_of_app. intros [He|He].
      * destruct (H4 _ _ _ _ He) as (o1 & Hi & <- & <- & Hp). destruct (decide (i = i0)) as [->|Hne]; [|exists o1; by rewrite Hold].
        simplify_eq. unfold is_done in Hnd. by rewrite Hp in Hnd.
      * destruct (Hrr _ _ _ _ He) as (-> & -> & -> & ->). by exists on.
    + intros i o1 r Hi Hp. apply elem_of_app. destruct (Hnew i o1 Hi) as [[-> ->]|[Hne Hi']]; [|left; by apply H5].
      right. cbn in *. rewrite (proj1 (Hret r) Hp). left.
    + intros i o1 Hi. destruct (Hnew i o1 Hi) as [[-> ->]|[Hne Hi']]; [|by apply (H6 i)]. cbn. eapply ot_kind; [done|]. by apply (H6 i0).
    + (* a lock has a holder *)
      intros j l1 Hj Hlk. pose proof (ot_lock _ _ _ _ _ _ _ _ _ Ht) as HL.
      destruct (Hnewl j l1 Hj) as [[-> ->]|[Hne Hj']].
      * destruct HL as [(E & Hh & Hp & _)|[(E & E' & Hh & Hp & _)|(E & Hh & Hp)]]; [| |congruence].
        -- rewrite E in Hlk. destruct (H7 _ _ Hl Hlk) as (i & o1 & Hi & Hj1 & Hh1). exists i, o1. rewrite Hold; [done|]. intros ->. congruence.
        -- exists i0, on. done.
      * destruct (H7 _ _ Hj' Hlk) as (i & o1 & Hi & Hj1 & Hh1). exists i, o1. rewrite Hold; [done|]. intros ->. congruence.
    + intros i o1 Hi Hh1. pose proof (ot_lock _ _ _ _ _ _ _ _ _ Ht) as HL. destruct (Hnew i o1 Hi) as [[-> ->]|[Hne Hi']].
      * change (holds on) with (holds_pc p) in Hh1. exists l'. destruct HL as [(E & Hh & Hp & _)|[(E & E' & Hh & Hp & Hcu)|(E & Hh & Hp)]]; [congruence| |congruence].
        done.
      * destruct (H8 _ _ Hi' Hh1) as (l1 & Hl1 & Hk1 & Hc1). destruct (decide (o_link o1 = o_link o)) as [Ej|Hnj].
        -- rewrite Ej in *. simplify_eq. exists l'. split; [done|].
           destruct HL as [(E & Hh & Hp & [E2|[E2 E3]])|[(E & E' & Hh & Hp & Hcu)|(E & Hh & Hp)]]; try congruence.
           ++ rewrite E, E2. done.
           ++ destruct Hne. symmetry. eapply H9; try done.
        -- exists l1. rewrite list_lookup_insert_ne by congruence. done.
    + intros i i' o1 o2 Hi Hi' Hj Hh1 Hh2. pose proof (ot_lock _ _ _ _ _ _ _ _ _ Ht) as HL.
      assert (Hno : forall i2 o2, i2 <> i0 -> c_ops s !! i2 = Some o2 -> o_link o2 = o_link o -> holds o2 = true -> holds on = true -> False).
      { intros i2 o3 Hne2 Hi2 Hj2 Hh3 Hh4. unfold holds, on in Hh4; cbn in Hh4. destruct (H8 _ _ Hi2 Hh3) as (l1 & Hl1 & Hk1 & _).
        rewrite Hj2 in Hl1. simplify_eq. destruct HL as [(E & Hh & Hp & _)|[(E & E' & Hh & Hp & Hcu)|(E & Hh & Hp)]]; unfold holds_pc in *; congruence. }
      destruct (Hnew i o1 Hi) as [[-> ->]|[Hne Hi1]], (Hnew i' o2 Hi') as [[-> ->]|[Hne' Hi2]]; try done.
      * destruct (Hno i' o2); done.
      * destruct (Hno i o1); done.
      * by eapply H9.
    + intros j Hj. rewrite reports_app, uses_app.
      assert (Hj' : c_links s !! j = None). { apply lookup_ge_None. apply lookup_ge_None in Hj. by rewrite insert_length in Hj. }
      destruct (H10 j Hj') as [-> ->]. eapply ot_reports; [done|]. intros ->. congruence.
    + intros i j r l1 He Hj. apply elem_of_app in He as [He|He].
      * destruct (Hnewl j l1 Hj) as [[-> ->]|[Hne Hj']]; [|by apply (H11 i j r)]. eapply ot_closed; [done|]. by apply (H11 i (o_link o) r).
      * destruct (Hrr _ _ _ _ He) as (-> & -> & Hk & Hp). destruct (Hnewl _ l1 Hj) as [[_ ->]|[Hne Hj']]; [|done].
        pose proof (H6 _ _ Ho) as Hkd. rewrite <-Hk in Hkd. destruct (o_pc o) eqn:Ep; try done.
        -- by eapply ot_closes.
        -- eapply ot_closed; [done|]. by apply (H12 i0 o).
        -- unfold is_done in Hnd. by rewrite Ep in Hnd.
    + intros i o1 l1 Hi Hp Hj. destruct (Hnew i o1 Hi) as [[-> ->]|[Hne Hi']].
      * cbn in *. destruct (Hnewl _ l1 Hj) as [[_ ->]|[Hnj Hj']]; [|done]. destruct Ht; try done.
      * destruct (Hnewl _ l1 Hj) as [[Ej ->]|[Hnj Hj']]; [|by apply (H12 i o1)]. eapply ot_closed; [done|]. apply (H12 i o1); [done|done|congruence].
  - assert (c_ops s2 = c_ops s /\ c_links s2 = c_links s) as [Eo El].
    { unfold cont_step in Hc. destruct lb, (c_pc s); try discriminate Hc; open_step Hc; injection Hc as <- <-; done. }
    apply Hsame; [done|done|]. unfold cont_step in Hc. destruct lb, (c_pc s); try discriminate Hc; open_step Hc; injection Hc as <- <-; by repeat constructor.
Qed.

Lemma ainv ls s evs : srun c_init ls = Some (s, evs) -> AInv s evs.
Proof.
  intros Hr. eapply (run_inv sstep AInv (fun _ => True) c_init []) with (4 := Hr).
  - exact AInv_init.
  - intros. by eapply AInv_step.
  - by apply Forall_true.
Qed.
