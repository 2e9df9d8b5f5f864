(** Links used by one goroutine; closed links. *)
From Coq Require Import ZArith NArith Ascii String Lia Sorted.
From stdpp Require Import base gmap strings list sorting.
From Verif Require Import GoBase Run Session SessionFacts SessionCont SessionLink.

Local Open Scope list_scope.

(** ** What holds of every link *)

(** A receiver or sender is one made on the session of the generation it is used for. *)
Definition on_session (a : list cev) (e : cev) : Prop :=
  match e with EvUse _ _ sid g | EvNew _ _ sid g => EvEst g sid ∈ a | _ => True end.

Lemma on_session_all ls s evs : srun c_init ls = Some (s, evs) -> each on_session evs.
Proof.
  intros Hr. cut (GInv s ([] ++ evs) /\ each on_session ([] ++ evs)); [by intros [_ ?]|].
  eapply (run_inv sstep (fun s evs => GInv s evs /\ each on_session evs) (fun _ => True) c_init []) with (4 := Hr).
  - split; [exact GInv_init|apply each_nil].
  - clear. intros s evs lb s2 ev [HI He] _ H. split; [by eapply GInv_step|].
    destruct (sstep_sc _ _ _ _ (gi_linked _ _ HI) H) as [Hc _].
    destruct Hc as [c Hb1 Hb2 -> ->|Hb1 Hb2 -> ->|j k l Hb1 Hl -> ->|i0 o0 c Hb1 Ho Hx -> ->|i0 Hb1 Ho|Hc Hb1];
      try (by apply each_snoc); try (by rewrite app_nil_r).
    + destruct Ho as [?|o l p l' er ok ev' Ho Hl Ht]; [by apply each_snoc|].
      pose proof (gi_link _ _ HI _ _ Hl) as (_ & Hcu & Hrc & Hsn). pose proof (gi_op _ _ HI _ _ Ho) as Hop. unfold op_ok in Hop.
      destruct Ht; rewrite ?app_nil_r; try done; apply each_snoc; try done; cbn; apply elem_of_ests; eauto.
      destruct (o_kind o); cbn in *; eauto.
    + unfold cont_step in Hc. destruct lb, (c_pc s); try discriminate Hc; open_step Hc; injection Hc as <- <-; rewrite ?app_nil_r; try done; try (by apply each_snoc).
      all: rewrite (cons_middle _ [] [_]) || idtac.
      all: match goal with |- each _ (?a ++ [?x; ?y]) => replace (a ++ [x; y]) with ((a ++ [x]) ++ [y]) by (by rewrite <-app_assoc) end; by do 2 (apply each_snoc; [|done]).
  - by apply Forall_true.
Qed.

(** ** Links used by one goroutine *)

(** What link [j] does after history [a]: reports and uses go to later
    generations only, and a report is for the generation the call failed on. *)
Definition forward (j : nat) (a : list cev) (e : cev) : Prop :=
  match e with
  | EvUse i l _ g | EvNew i l _ g => l = j -> Forall (fun h => h < g) (reports j a) /\ Forall (fun h => h <= g) (uses j a)
  | EvReport i l g => l = j -> Forall (fun h => h < g) (reports j a) /\ EvNetErr i j g ∈ a
  | _ => True
  end.

Definition okpc (j : nat) (l : lnk) (evs : list cev) (i : nat) (o : op) : Prop :=
  match o_pc o with
  | PAwait g | PWait g _ => g = l_gen l
  | PGot _ g => l_gen l < g
  | PGet | PCreate => l_gen l ∉ reports j evs
  | PUse _ g => g = l_gen l /\ l_gen l ∉ reports j evs
  | PFail e => quiet o e \/ (l_gen l ∉ reports j evs /\ EvNetErr i j (l_gen l) ∈ evs)
  | PReport g _ => g = l_gen l /\ l_gen l ∉ reports j evs /\ EvNetErr i j (l_gen l) ∈ evs
  | _ => True
  end.

Record SInv (j : nat) (s : cstate) (evs : list cev) : Prop := {
  si_law : each (forward j) evs;
  si_one : forall i i' o o', c_ops s !! i = Some o -> c_ops s !! i' = Some o' -> o_link o = j -> o_link o' = j ->
    o_kind o <> KClose -> o_kind o' <> KClose -> is_done o = false -> is_done o' = false -> i = i';
  si_link : forall l, c_links s !! j = Some l -> Forall (fun h => h <= l_gen l) (reports j evs) /\ Forall (fun h => h <= l_gen l) (uses j evs) /\
    (forall i o, c_ops s !! i = Some o -> o_link o = j -> o_kind o <> KClose -> okpc j l evs i o) /\
    (l_gen l ∈ reports j evs -> l_curr l = None \/ exists i o e, c_ops s !! i = Some o /\ o_link o = j /\ o_kind o <> KClose /\ o_pc o = PClear e);
}.

Lemma okpc_mono j l evs i o ev : reports j ev = [] -> okpc j l evs i o -> okpc j l (evs ++ ev) i o.
Proof.
  unfold okpc. intros Hr. rewrite reports_app, Hr, app_nil_r. destruct (o_pc o); try done.
  - intros [?|[? ?]]; [by left|right]. split; [done|]. apply elem_of_app. by left.
  - intros (? & ? & ?). split_and!; try done. apply elem_of_app. by left.
Qed.

(** Steps that leave the link and its operations alone. *)
Lemma SInv_frame j s evs s2 ev : SInv j s evs -> c_links s2 !! j = c_links s !! j -> reports j ev = [] -> uses j ev = [] -> each (forward j) (evs ++ ev) ->
  (forall i o, c_ops s2 !! i = Some o -> o_link o = j -> exists o', c_ops s !! i = Some o' /\ o_link o' = j /\ o_kind o' = o_kind o /\ o_pc o' = o_pc o /\
      (o_ctx o' = o_ctx o \/ o_ctx o' = None)) ->
  (forall i o, c_ops s !! i = Some o -> o_link o = j -> exists o', c_ops s2 !! i = Some o' /\ o_link o' = j /\ o_kind o' = o_kind o /\ o_pc o' = o_pc o) ->
  SInv j s2 (evs ++ ev).
Proof.
  intros [H1 H2 H3] El Er Eu Hl Hop Hpo. split; [done| |].
  - intros i i' o o' Hi Hi' Hj Hj' Hk Hk' Hd Hd'. destruct (Hop i o Hi Hj) as (o1 & ? & ? & ? & E1 & ?). destruct (Hop i' o' Hi' Hj') as (o2 & ? & ? & ? & E2 & ?).
    apply (H2 i i' o1 o2); try done; try congruence; unfold is_done in *; [by rewrite E1|by rewrite E2].
  - intros l Hl2. rewrite El in Hl2. destruct (H3 l Hl2) as (Ha & Hb & Hc & Hd). rewrite reports_app, uses_app, Er, Eu, !app_nil_r. split_and!; try done.
    + intros i o Hi Hj Hk. destruct (Hop i o Hi Hj) as (o1 & Ho1 & Hj1 & Hk1 & Hp1 & Hx1). apply okpc_mono; [done|].
      assert (Hy : okpc j l evs i o1) by (apply Hc; congruence). unfold okpc in *. rewrite Hp1 in Hy. destruct (o_pc o); try done.
      destruct Hy as [Hq|Hq]; [left|by right]. unfold quiet in *. destruct Hq as [?|(c & Hc1 & ?)]; [by left|right]. exists c. split; [|done].
      destruct Hx1; congruence.
    + intros Hin. destruct (Hd Hin) as [?|(i & o & e & Hi & Hj & Hk & Hp)]; [by left|right].
      destruct (Hpo i o Hi Hj) as (o' & Ho' & ? & ? & ?). exists i, o', e. split_and!; try done; congruence.
Qed.

Lemma reports_le_lt g l : Forall (fun h => h <= g) l -> g ∉ l -> Forall (fun h => h < g) l.
Proof.
  intros H Hn. rewrite Forall_forall in *. intros x Hx. specialize (H x Hx). assert (x <> g) by (intros ->; done). lia.
Qed.

(** A step of the link's own operation. *)
Lemma SInv_own j s evs i o l p l' er ok ev : GInv s evs -> SInv j s evs -> c_ops s !! i = Some o -> o_link o = j -> c_links s !! j = Some l -> o_kind o <> KClose ->
  ot s i o l p l' er ok ev ->
  Forall (fun h => h <= l_gen l') (reports j (evs ++ ev)) /\ Forall (fun h => h <= l_gen l') (uses j (evs ++ ev)) /\
  okpc j l' (evs ++ ev) i (Op j (o_kind o) (o_ctx o) p) /\
  (l_gen l' ∈ reports j (evs ++ ev) -> l_curr l' = None \/ exists e, p = PClear e) /\ each (forward j) (evs ++ ev).
Proof.
  intros HG HS Ho Hj Hl Hk Ht. destruct (si_link _ _ _ HS l Hl) as (Ha & Hb & Hc & Hd). pose proof (si_law _ _ _ HS) as HW.
  pose proof (Hc i o Ho Hj Hk) as Hp.
  assert (Hact : is_done o = false -> (forall e, o_pc o <> PClear e) -> l_gen l ∈ reports j evs -> l_curr l = None).
  { intros Hnd Hnc Hin. destruct (Hd Hin) as [?|(i' & o' & e & Hi' & Hj' & Hk' & Hp')]; [done|]. exfalso.
    assert (i = i') as <- by (apply (si_one _ _ _ HS i i' o o'); try done; unfold is_done; by rewrite Hp'). simplify_eq. by apply (Hnc e). }
  assert (Hje : (o_link o =? j) = true) by (by apply Nat.eqb_eq).
  pose proof (gi_link _ _ HG _ _ Hl) as (Hgl & _).
  assert (Hnd := ot_notdone _ _ _ _ _ _ _ _ _ Ht).
  unfold okpc in *; cbn [o_pc]. destruct Ht as
    [Hpc|Hpc|Hpc Hk2 Hlk Hcl|sid Hpc Hk2 Hlk Hcl Hcu|Hpc Hk2 Hlk Hcl Hcu|g Hpc Hlk Eg|g Hpc Hlk Eg|g n Hpc En|g n c Hpc Hx|x g Hpc Hlk|ob Hpc Hlk Hpt|sid Hpc Hlk Hcu|sid Hpc Hcu|c Hpc
    |ob g Hpc|ob g okl Hpc|ob g c Hpc|ob g c Hpc|Hpc Hm|e Hpc Hm Hq|e Hpc Hq|g e Hpc Hr|e Hpc Hlk Hm|e Hpc Hlk Hm|r Hpc]; try done; rewrite Hpc in Hp;
    rewrite ?reports_app, ?uses_app; cbn [reports uses omap list_omap]; rewrite ?Hje; rewrite ?app_nil_r; try rewrite Hj.
  all: try (split_and!; try done; try (by apply Hact; [|rewrite Hpc]); try (intros Hin; left; apply Hact; [done|by rewrite Hpc|done]); try (by apply each_snoc)).
  all: try (intros Hin; exfalso; by apply Hp).
  all: try (intros Hin; exfalso; by apply (proj2 Hp)).
  all: pose proof (fun Hn => reports_le_lt _ _ Ha Hn) as Hlt.
  - left. by left.
  - intros Hin. specialize (Hact Hnd ltac:(by rewrite Hpc) Hin). congruence.
  - assert (l_gen l <> c_gen s) by congruence. lia.
  - left. right. by exists c.
  - eapply Forall_impl; [exact Ha|]. cbn. lia.
  - eapply Forall_impl; [exact Hb|]. cbn. lia.
  - cbn. intros Hin. rewrite Forall_forall in Ha. specialize (Ha _ Hin). lia.
  - cbn. intros Hin. rewrite Forall_forall in Ha. specialize (Ha _ Hin). lia.
  - apply Forall_app. split; [done|by repeat constructor].
  - apply each_snoc; [done|]. intros _. split; [by apply Hlt|done].
  - apply Forall_app. split; [done|by repeat constructor].
  - apply each_snoc; [done|]. intros _. split; [by apply Hlt|done].
  - by destruct (o_kind o).
  - apply Forall_app. destruct (o_kind o); (split; [done|by repeat constructor]).
  - by destruct (o_kind o).
  - by destruct (o_kind o).
  - intros Hin. exfalso. apply Hp. by destruct (o_kind o).
  - apply each_snoc; [done|]. intros _. split; [by apply Hlt|done].
  - right. split; [done|]. apply elem_of_app. right. left.
  - destruct Hp as [-> Hp]. right. split; [done|]. apply elem_of_app. right. left.
  - by destruct Hp as [Hp|[Hp _]].
  - by destruct Hp as [Hp|[_ Hp]].
  - destruct Hp as [-> Hp]. apply Forall_app. split; [done|by repeat constructor].
  - intros _. right. eauto.
  - destruct Hp as (-> & Hp & He). apply each_snoc; [done|]. intros _. split; [by apply Hlt|done].
  - intros _. by left.
  - intros _. by left.
Qed.

Lemma SInv_step j s evs lb s2 ev : AInv s evs -> serial j (evs ++ ev) -> SInv j s evs -> sstep s lb = Some (s2, ev) -> SInv j s2 (evs ++ ev).
Proof.
  intros HA Hser HS H. pose proof (ai_g _ _ HA) as HG.
  destruct (sstep_sc _ _ _ _ (gi_linked _ _ HG) H) as [Hc _].
  pose proof (si_law _ _ _ HS) as HW.
  destruct Hc as [c Hb1 Hb2 -> ->|Hb1 Hb2 -> ->|j0 k l Hb1 Hl -> ->|i0 o0 c Hb1 Ho Hx -> ->|i0 Hb1 Ho|Hc Hb1].
  - eapply SInv_frame; try done; [by apply each_snoc|..]; intros i o Hi Hj; exists o; naive_solver.
  - assert (HW2 : each (forward j) (evs ++ [EvLink (length (c_links s))])) by (by apply each_snoc).
    destruct (c_links s !! j) as [l|] eqn:El.
    + eapply SInv_frame; try done; [rewrite El; by apply lookup_app_l_Some|..]; intros i o Hi Hj; exists o; naive_solver.
    + assert (Hnone : forall i o, c_ops s !! i = Some o -> o_link o = j -> False).
      { intros i o Hi Hj. destruct (gi_linked _ _ HG _ _ Hi). congruence. }
      split; [done| |].
      * intros i i' o o' Hi _ Hj. by destruct (Hnone i o).
      * intros l _. destruct (ai_fresh _ _ HA j El) as [E1 E2]. rewrite reports_app, uses_app, E1, E2. cbn. split_and!; try by constructor.
        -- intros i o Hi Hj. by destruct (Hnone i o).
        -- intros Hin. by apply elem_of_nil in Hin.
  - assert (HW2 : each (forward j) (evs ++ [EvCall (length (c_ops s)) j0 k])) by (by apply each_snoc).
    assert (Hnew : forall i o, (c_ops s ++ [Op j0 k None PStart]) !! i = Some o -> c_ops s !! i = Some o \/ (i = length (c_ops s) /\ o = Op j0 k None PStart)).
    { intros i o Hi. apply lookup_app_Some in Hi as [Hi|[Hge Hi]]; [by left|]. right. apply list_lookup_singleton_Some in Hi as [Hi <-]. split; [lia|done]. }
    destruct HS as [_ H2 H3]. split; [done| |].
    + assert (Hdone : j0 = j -> k <> KClose -> forall i o, c_ops s !! i = Some o -> o_link o = j -> o_kind o <> KClose -> is_done o = true).
      { intros -> Hk i o Hi Hj Hko. destruct (Hser evs (length (c_ops s)) k [] eq_refl Hk i (o_kind o)) as [r Hr]; [|done|].
        - rewrite <-Hj. by apply (ai_called _ _ HA).
        - destruct (ai_ret _ _ HA _ _ _ _ Hr) as (o1 & Ho1 & _ & _ & Hp). simplify_eq. unfold is_done. by rewrite Hp. }
      cbn [c_ops cs_ops]. intros i i' o o' Hi Hi' Hj Hj' Hk Hk' Hd Hd'.
      destruct (Hnew i o Hi) as [Hi1|[-> ->]], (Hnew i' o' Hi') as [Hi2|[-> ->]]; try done.
      * by apply (H2 i i' o o').
      * cbn in *. rewrite (Hdone Hj' Hk' i o) in Hd; done.
      * cbn in *. rewrite (Hdone Hj Hk i' o') in Hd'; done.
    + intros l1 Hl1. destruct (H3 l1 Hl1) as (Ha & Hb & Hc & Hd). rewrite reports_app, uses_app. cbn. rewrite !app_nil_r. split_and!; try done.
      * intros i o Hi Hj Hk. destruct (Hnew i o Hi) as [Hi1|[-> ->]]; [|done]. apply okpc_mono; [done|]. by apply Hc.
      * intros Hin. destruct (Hd Hin) as [?|(i & o & e & Hi & Hr)]; [by left|right]. exists i, o, e. split; [by apply lookup_app_l_Some|done].
  - eapply SInv_frame; try done; rewrite ?app_nil_r; try done; cbn [c_ops cs_ops].
    + intros i o Hi Hj. apply list_lookup_insert_Some in Hi as [(-> & <- & _)|[Hne Hi]]; [exists o0; naive_solver|exists o; naive_solver].
    + intros i o Hi Hj. destruct (decide (i = i0)) as [->|Hne]; [eexists; split; [apply list_lookup_insert; by eapply lookup_lt_Some|]; simplify_eq; done|].
      exists o. by rewrite list_lookup_insert_ne.
  - destruct Ho as [?|o l p l' er ok ev' Ho Hl Ht].
    { eapply SInv_frame; try done; [by apply each_snoc|..]; intros i1 o1 Hi Hj; exists o1; naive_solver. }
    pose proof (ot_events _ _ _ _ _ _ _ _ _ Ht) as Hev. unfold upd. set (on := Op (o_link o) (o_kind o) (o_ctx o) p).
    assert (Hnew : forall i o1, <[i0:=on]> (c_ops s) !! i = Some o1 -> (i = i0 /\ o1 = on) \/ (i <> i0 /\ c_ops s !! i = Some o1)).
    { intros i o1 Hi. apply list_lookup_insert_Some in Hi as [(-> & <- & _)|[Hne Hi]]; [by left|right; by split]. }
    assert (Hin0 : <[i0:=on]> (c_ops s) !! i0 = Some on) by (apply list_lookup_insert; by eapply lookup_lt_Some).
    assert (Hold : forall i, i <> i0 -> <[i0:=on]> (c_ops s) !! i = c_ops s !! i) by (intros; by apply list_lookup_insert_ne).
    destruct (decide (o_link o = j)) as [Hj|Hj].
    + assert (Hinl : forall l1, <[o_link o:=l']> (c_links s) !! j = Some l1 -> l1 = l').
      { intros l1. rewrite Hj, list_lookup_insert by (rewrite <-Hj; by eapply lookup_lt_Some). congruence. }
      assert (Hone : forall i i' o o', <[i0:=on]> (c_ops s) !! i = Some o -> <[i0:=on]> (c_ops s) !! i' = Some o' -> o_link o = j -> o_link o' = j ->
        o_kind o <> KClose -> o_kind o' <> KClose -> is_done o = false -> is_done o' = false -> i = i').
      { pose proof (ot_notdone _ _ _ _ _ _ _ _ _ Ht) as Hnd. intros i i' o1 o2 Hi Hi' Hj1 Hj2 Hk1 Hk2 Hd1 Hd2.
        destruct (Hnew i o1 Hi) as [[-> ->]|[Hne Hi1]], (Hnew i' o2 Hi') as [[-> ->]|[Hne' Hi2]]; try done.
        - by apply (si_one _ _ _ HS i0 i' o o2).
        - by apply (si_one _ _ _ HS i i0 o1 o).
        - by apply (si_one _ _ _ HS i i' o1 o2). }
      destruct (decide (o_kind o = KClose)) as [Hk|Hk].
      * (* Close *)
        assert (Hl' : l_gen l' = l_gen l /\ (l_curr l' = None \/ l_curr l' = l_curr l) /\ reports j ev' = [] /\ uses j ev' = [] /\ each (forward j) (evs ++ ev')).
        { pose proof (ai_kind _ _ HA _ _ Ho) as Hkd. rewrite Hk in Hkd.
          destruct Ht as [Hpc|Hpc|Hpc|sid Hpc|Hpc|g Hpc|g Hpc|g n Hpc|g n c Hpc|x g Hpc|ob Hpc|sid Hpc|sid Hpc|c Hpc
            |ob g Hpc|ob g okl Hpc|ob g c Hpc|ob g c Hpc|Hpc|e Hpc|e Hpc|g e Hpc|e Hpc|e Hpc|r Hpc]; rewrite Hpc in Hkd; try done;
            cbn; rewrite ?app_nil_r; split_and!; try done; try (by left); try (by right); by apply each_snoc. }
        destruct Hl' as (Eg & Ec & Er & Eu & HW2). split; [done|exact Hone|]. cbn [c_links c_ops].
        intros l1 Hl1. apply Hinl in Hl1 as ->. rewrite Hj in Hl. destruct (si_link _ _ _ HS l Hl) as (Ha & Hb & Hc & Hd).
        rewrite reports_app, uses_app, Er, Eu, !app_nil_r, Eg. split_and!; try done.
        -- intros i o1 Hi Hj1 Hk1. destruct (Hnew i o1 Hi) as [[-> ->]|[Hne Hi1]]; [done|].
           assert (Hy : okpc j l' evs i o1) by (specialize (Hc i o1 Hi1 Hj1 Hk1); unfold okpc in *; by rewrite Eg). by apply okpc_mono.
        -- intros Hin. destruct (Hd Hin) as [Hn|(i & o1 & e & Hi & Hj1 & Hk1 & Hp1)]; [left; destruct Ec; congruence|right].
           exists i, o1, e. rewrite Hold by congruence. done.
      * rewrite Hj in Hl. destruct (SInv_own j s evs i0 o l p l' er ok ev' HG HS Ho Hj Hl Hk Ht) as (Ha & Hb & Hc & Hd & HW2).
        split; [done|exact Hone|]. cbn [c_links c_ops]. intros l1 Hl1. apply Hinl in Hl1 as ->. split_and!; try done.
        -- intros i o1 Hi Hj1 Hk1. destruct (Hnew i o1 Hi) as [[-> ->]|[Hne Hi1]]; [by unfold on; rewrite Hj|].
           assert (Hd1 : is_done o1 = true).
           { destruct (is_done o1) eqn:Ed; [done|]. destruct Hne. apply (si_one _ _ _ HS i i0 o1 o); try done. by eapply ot_notdone. }
           unfold okpc, is_done in *. by destruct (o_pc o1).
        -- intros Hin. destruct (Hd Hin) as [?|[e ->]]; [by left|right]. exists i0, on, e. done.
    + destruct (ot_reports _ _ _ _ _ _ _ _ _ j Ht (not_eq_sym Hj)) as [E1 E2].
      eapply SInv_frame; try done; cbn [c_links c_ops].
      * by rewrite list_lookup_insert_ne.
      * destruct Hev as [->|(e & -> & He)]; [by rewrite app_nil_r|]. apply each_snoc; [done|].
        destruct_or! He; [destruct He as (? & ? & -> & _)|destruct He as (? & ? & ->)|destruct He as (? & ->)|destruct He as (? & ->)|destruct He as (? & ->)]; cbn; try done; intros; done.
      * intros i o1 Hi Hj1. destruct (Hnew i o1 Hi) as [[-> ->]|[Hne Hi1]]; [done|]. exists o1. naive_solver.
      * intros i o1 Hi Hj1. destruct (decide (i = i0)) as [->|Hne]; [simplify_eq; done|]. exists o1. by rewrite Hold.
  - assert (c_ops s2 = c_ops s /\ c_links s2 = c_links s /\ reports j ev = [] /\ uses j ev = [] /\ each (forward j) (evs ++ ev)) as (Eo & El & E1 & E2 & HW2).
    { unfold cont_step in Hc. destruct lb, (c_pc s); try discriminate Hc; open_step Hc; injection Hc as <- <-; rewrite ?app_nil_r; split_and!; try done; try (by apply each_snoc).
      all: match goal with |- each _ (?a ++ [?x; ?y]) => replace (a ++ [x; y]) with ((a ++ [x]) ++ [y]) by (by rewrite <-app_assoc) end; by do 2 (apply each_snoc; [|done]). }
    eapply SInv_frame; try done; [by rewrite El|..]; rewrite Eo; intros i o Hi Hj; exists o; naive_solver.
Qed.

Lemma sinv j ls s evs : srun c_init ls = Some (s, evs) -> serial j evs -> SInv j s evs.
Proof.
  intros Hr. cut (AInv s ([] ++ evs) /\ (serial j ([] ++ evs) -> SInv j s ([] ++ evs))); [by intros [_ ?]|].
  eapply (run_inv sstep (fun s evs => AInv s evs /\ (serial j evs -> SInv j s evs)) (fun _ => True) c_init []) with (4 := Hr).
  - split; [exact AInv_init|]. intros _. split; [apply each_nil|done|done].
  - intros s1 evs1 lb s2 ev [HA HS] _ H. split; [by eapply AInv_step|]. intros Hser. eapply SInv_step; try done. apply HS. by eapply serial_app_l.
  - by apply Forall_true.
Qed.

Lemma forward_link j ls s evs a e b : srun c_init ls = Some (s, evs) -> serial j evs -> evs = a ++ e :: b -> forward j a e.
Proof. intros Hr Hs. apply (si_law _ _ _ (sinv _ _ _ _ Hr Hs)). Qed.

Lemma reports_sorted j ls s evs : srun c_init ls = Some (s, evs) -> serial j evs -> StronglySorted lt (reports j evs).
Proof.
  intros Hr Hs. pose proof (si_law _ _ _ (sinv _ _ _ _ Hr Hs)) as HW. clear -HW. induction evs as [|e evs IH] using rev_ind; [constructor|].
  specialize (IH (each_app_l _ _ _ HW)). rewrite reports_app. specialize (HW evs e [] eq_refl).
  destruct e; cbn; rewrite ?app_nil_r; try done. destruct (Nat.eqb_spec l j) as [->|]; [|by rewrite app_nil_r].
  destruct (HW eq_refl) as [HF _]. clear -IH HF. induction IH as [|x q Hq IHq Hx]; cbn; [repeat constructor|]. apply Forall_cons in HF as [H1 H2].
  constructor; [by apply IHq|]. apply Forall_app. split; [done|by repeat constructor].
Qed.
