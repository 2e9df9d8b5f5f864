(** Links whose calls, Close included, come one at a time; calls whose context
    ended; waiting calls. *)
From Coq Require Import ZArith NArith Ascii String Lia Sorted.
From stdpp Require Import base gmap strings list sorting.
From Verif Require Import GoBase Run Session SessionFacts SessionCont SessionLink.

Local Open Scope list_scope.

(** ** One call at a time *)

(** The network is not used after Close returned. *)
Definition unused (j : nat) (a : list cev) (e : cev) : Prop :=
  match e with
  | EvUse _ l _ _ | EvNew _ l _ _ => l = j -> forall i r, EvRet i j KClose r ∉ a
  | EvPanic _ l => l <> j
  | _ => True
  end.

Record OInv (j : nat) (s : cstate) (evs : list cev) : Prop := {
  oi_law : each (unused j) evs;
  oi_one : forall i i' o o', c_ops s !! i = Some o -> c_ops s !! i' = Some o' -> o_link o = j -> o_link o' = j ->
    is_done o = false -> is_done o' = false -> i = i';
  oi_get : forall i o l, c_ops s !! i = Some o -> o_link o = j -> c_links s !! j = Some l -> o_pc o = PGet -> l_curr l <> None;
  oi_closed : forall i o l, c_ops s !! i = Some o -> o_link o = j -> c_links s !! j = Some l -> l_closed l = true ->
    match o_pc o with PStart | PClosing | PDone _ => True | PFail e => e = EClosed | _ => False end;
}.

Lemma OInv_frame j s evs s2 ev : OInv j s evs -> c_links s2 !! j = c_links s !! j -> each (unused j) (evs ++ ev) ->
  (forall i o, c_ops s2 !! i = Some o -> o_link o = j -> exists o', c_ops s !! i = Some o' /\ o_link o' = j /\ o_pc o' = o_pc o) -> OInv j s2 (evs ++ ev).
Proof.
  intros [H1 H2 H3 H4] El Hl Hop. split; [done| | |]; rewrite ?El.
  - intros i i' o o' Hi Hi' Hj Hj' Hd Hd'. destruct (Hop i o Hi Hj) as (o1 & ? & ? & E1). destruct (Hop i' o' Hi' Hj') as (o2 & ? & ? & E2).
    apply (H2 i i' o1 o2); try done; unfold is_done in *; [by rewrite E1|by rewrite E2].
  - intros i o l Hi Hj Hlk Hp. destruct (Hop i o Hi Hj) as (o1 & ? & ? & E1). apply (H3 i o1); try done. congruence.
  - intros i o l Hi Hj Hlk Hcl. destruct (Hop i o Hi Hj) as (o1 & Ho1 & Hj1 & E1). rewrite <-E1. by apply (H4 i o1 l).
Qed.

Lemma OInv_step j s evs lb s2 ev : AInv s evs -> alone j (evs ++ ev) -> OInv j s evs -> sstep s lb = Some (s2, ev) -> OInv j s2 (evs ++ ev).
Proof.
  intros HA Hser HS H. pose proof (ai_g _ _ HA) as HG.
  destruct (sstep_sc _ _ _ _ (gi_linked _ _ HG) H) as [Hc _].
  pose proof (oi_law _ _ _ HS) as HW.
  destruct Hc as [c Hb1 Hb2 -> ->|Hb1 Hb2 -> ->|j0 k l Hb1 Hl -> ->|i0 o0 c Hb1 Ho Hx -> ->|i0 Hb1 Ho|Hc Hb1].
  - eapply OInv_frame; try done; [by apply each_snoc|]; intros i o Hi Hj; exists o; naive_solver.
  - assert (HW2 : each (unused j) (evs ++ [EvLink (length (c_links s))])) by (by apply each_snoc).
    destruct (c_links s !! j) as [l|] eqn:El.
    + eapply OInv_frame; try done; [rewrite El; by apply lookup_app_l_Some|]; intros i o Hi Hj; exists o; naive_solver.
    + assert (Hnone : forall i o, c_ops s !! i = Some o -> o_link o = j -> False).
      { intros i o Hi Hj. destruct (gi_linked _ _ HG _ _ Hi). congruence. }
      split; [done|..]; intros; exfalso; by eapply Hnone.
  - assert (HW2 : each (unused j) (evs ++ [EvCall (length (c_ops s)) j0 k])) by (by apply each_snoc).
    assert (Hnew : forall i o, (c_ops s ++ [Op j0 k None PStart]) !! i = Some o -> c_ops s !! i = Some o \/ (i = length (c_ops s) /\ o = Op j0 k None PStart)).
    { intros i o Hi. apply lookup_app_Some in Hi as [Hi|[Hge Hi]]; [by left|]. right. apply list_lookup_singleton_Some in Hi as [Hi <-]. split; [lia|done]. }
    assert (Hdone : j0 = j -> forall i o, c_ops s !! i = Some o -> o_link o = j -> is_done o = true).
    { intros -> i o Hi Hj. destruct (Hser evs (length (c_ops s)) k [] eq_refl i (o_kind o)) as [r Hr].
      - rewrite <-Hj. by apply (ai_called _ _ HA).
      - destruct (ai_ret _ _ HA _ _ _ _ Hr) as (o1 & Ho1 & _ & _ & Hp). simplify_eq. unfold is_done. by rewrite Hp. }
    destruct HS as [_ H2 H3 H4]. split; [done|..]; cbn [c_ops cs_ops c_links].
    + intros i i' o o' Hi Hi' Hj Hj' Hd Hd'.
      destruct (Hnew i o Hi) as [Hi1|[-> ->]], (Hnew i' o' Hi') as [Hi2|[-> ->]]; try done.
      * by apply (H2 i i' o o').
      * cbn in *. rewrite (Hdone Hj' i o) in Hd; done.
      * cbn in *. rewrite (Hdone Hj i' o') in Hd'; done.
    + intros i o l1 Hi Hj Hl1 Hp. destruct (Hnew i o Hi) as [Hi1|[-> ->]]; [by apply (H3 i o)|done].
    + intros i o l1 Hi Hj Hl1 Hp. destruct (Hnew i o Hi) as [Hi1|[-> ->]]; [by apply (H4 i o l1)|done].
  - eapply OInv_frame; try done; rewrite ?app_nil_r; try done; cbn [c_ops cs_ops].
    intros i o Hi Hj. apply list_lookup_insert_Some in Hi as [(-> & <- & _)|[Hne Hi]]; [by exists o0|by exists o].
  - destruct Ho as [o l Ho Hl Hp Hlk Hcu Hpt|o l p l' er ok ev' Ho Hl Ht].
    { eapply OInv_frame; try done; [|intros i1 o1 Hi Hj; exists o1; naive_solver]. apply each_snoc; [done|]. cbn. intros Hj.
      rewrite Hj in Hl. by apply (oi_get _ _ _ HS i0 o l). }
    pose proof (ot_events _ _ _ _ _ _ _ _ _ Ht) as Hev. unfold upd. set (on := Op (o_link o) (o_kind o) (o_ctx o) p).
    pose proof (ot_notdone _ _ _ _ _ _ _ _ _ Ht) as Hnd.
    assert (Hnew : forall i o1, <[i0:=on]> (c_ops s) !! i = Some o1 -> (i = i0 /\ o1 = on) \/ (i <> i0 /\ c_ops s !! i = Some o1)).
    { intros i o1 Hi. apply list_lookup_insert_Some in Hi as [(-> & <- & _)|[Hne Hi]]; [by left|right; by split]. }
    destruct (decide (o_link o = j)) as [Hj|Hj].
    + assert (Hinl : forall l1, <[o_link o:=l']> (c_links s) !! j = Some l1 -> l1 = l').
      { intros l1. rewrite Hj, list_lookup_insert by (rewrite <-Hj; by eapply lookup_lt_Some). congruence. }
      assert (Hothers : forall i o1, i <> i0 -> c_ops s !! i = Some o1 -> o_link o1 = j -> is_done o1 = true).
      { intros i o1 Hne Hi Hj1. destruct (is_done o1) eqn:Ed; [done|]. destruct Hne. by apply (oi_one _ _ _ HS i i0 o1 o). }
      rewrite Hj in Hl. pose proof (oi_get _ _ _ HS i0 o l Ho Hj Hl) as Hget. pose proof (oi_closed _ _ _ HS i0 o l Ho Hj Hl) as Hcl.
      pose proof (gi_op _ _ HG _ _ Ho) as Hok. unfold op_ok in Hok. pose proof (ai_kind _ _ HA _ _ Ho) as Hkd.
      assert (Hnr : l_closed l = false -> forall i r, EvRet i j KClose r ∉ evs).
      { intros Hf i r Hin. pose proof (ai_closed _ _ HA _ _ _ _ Hin Hl). congruence. }
      assert (Hq : (p = PGet -> l_curr l' <> None) /\ each (unused j) (evs ++ ev') /\
         (l_closed l' = true -> match p with PStart | PClosing | PDone _ => True | PFail e => e = EClosed | _ => False end)).
      { destruct Ht as [Hpc|Hpc|Hpc|sid Hpc Hk2 Hlk Hcl2|Hpc Hk2 Hlk Hcl2|g Hpc|g Hpc|g n Hpc|g n c Hpc|x g Hpc|ob Hpc|sid Hpc|sid Hpc Hcu|c Hpc
            |ob g Hpc|ob g okl Hpc|ob g c Hpc|ob g c Hpc|Hpc|e Hpc Hm Hq|e Hpc Hq|g e Hpc|e Hpc|e Hpc|r Hpc]; rewrite Hpc in *;
          rewrite ?app_nil_r; (split; [try done|split; [try done; try (by apply each_snoc)|]]); try done; try congruence.
        - destruct Hok as (sid & -> & _). done.
        - apply each_snoc; [done|]. intros _. apply Hnr. destruct (l_closed l); [by destruct Hcl|done].
        - apply each_snoc; [done|]. intros _. apply Hnr. destruct (l_closed l); [by destruct Hcl|done].
        - apply each_snoc; [done|]. intros _. apply Hnr. destruct (l_closed l); [by destruct Hcl|done].
        - intros Hcc. apply Hcl. by destruct (o_kind o).
        - cbn. intros Hcc. specialize (Hcl Hcc). subst e. by destruct Hq; left. }
      destruct Hq as (Hq1 & Hq2 & Hq3). split; [done|..]; cbn [c_ops c_links].
      * intros i i' o1 o2 Hi Hi' Hj1 Hj2 Hd1 Hd2. destruct (Hnew i o1 Hi) as [[-> ->]|[Hne Hi1]], (Hnew i' o2 Hi') as [[-> ->]|[Hne' Hi2]]; try done.
        -- by rewrite (Hothers i' o2) in Hd2.
        -- by rewrite (Hothers i o1) in Hd1.
        -- by rewrite (Hothers i o1) in Hd1.
      * intros i o1 l1 Hi Hj1 Hl1 Hp. apply Hinl in Hl1 as ->. destruct (Hnew i o1 Hi) as [[-> ->]|[Hne Hi1]]; [by apply Hq1|].
        specialize (Hothers i o1 Hne Hi1 Hj1). unfold is_done in Hothers. by rewrite Hp in Hothers.
      * intros i o1 l1 Hi Hj1 Hl1 Hcc. apply Hinl in Hl1 as ->. destruct (Hnew i o1 Hi) as [[-> ->]|[Hne Hi1]]; [by apply Hq3|].
        specialize (Hothers i o1 Hne Hi1 Hj1). unfold is_done in Hothers. by destruct (o_pc o1).
    + eapply OInv_frame; try done; cbn [c_links c_ops].
      * by rewrite list_lookup_insert_ne.
      * destruct Hev as [->|(e & -> & He)]; [by rewrite app_nil_r|]. apply each_snoc; [done|].
        destruct_or! He; [destruct He as (? & ? & -> & _)|destruct He as (? & ? & ->)|destruct He as (? & ->)|destruct He as (? & ->)|destruct He as (? & ->)]; cbn; try done; intros; done.
      * intros i o1 Hi Hj1. destruct (Hnew i o1 Hi) as [[-> ->]|[Hne Hi1]]; [done|]. by exists o1.
  - assert (c_ops s2 = c_ops s /\ c_links s2 = c_links s /\ each (unused j) (evs ++ ev)) as (Eo & El & HW2).
    { unfold cont_step in Hc. destruct lb, (c_pc s); try discriminate Hc; open_step Hc; injection Hc as <- <-; rewrite ?app_nil_r; split_and!; try done; try (by apply each_snoc).
      all: match goal with |- each _ (?a ++ [?x; ?y]) => replace (a ++ [x; y]) with ((a ++ [x]) ++ [y]) by (by rewrite <-app_assoc) end; by do 2 (apply each_snoc; [|done]). }
    eapply OInv_frame; try done; [by rewrite El|]; rewrite Eo; intros i o Hi Hj; by exists o.
Qed.

Lemma oinv j ls s evs : srun c_init ls = Some (s, evs) -> alone j evs -> OInv j s evs.
Proof.
  intros Hr. cut (AInv s ([] ++ evs) /\ (alone j ([] ++ evs) -> OInv j s ([] ++ evs))); [by intros [_ ?]|].
  eapply (run_inv sstep (fun s evs => AInv s evs /\ (alone j evs -> OInv j s evs)) (fun _ => True) c_init []) with (4 := Hr).
  - split; [exact AInv_init|]. intros _. split; [apply each_nil|done|done|done].
  - intros s1 evs1 lb s2 ev [HA HS] _ H. split; [by eapply AInv_step|]. intros Hser. eapply OInv_step; try done. apply HS. by eapply alone_app_l.
  - by apply Forall_true.
Qed.

Lemma unused_after_close j ls s evs a e b : srun c_init ls = Some (s, evs) -> alone j evs -> evs = a ++ e :: b -> unused j a e.
Proof. intros Hr Hs. apply (oi_law _ _ _ (oinv _ _ _ _ Hr Hs)). Qed.

(** ** Calls whose context has ended *)

Definition own_b (i : nat) (lb : clabel) : bool := match lb with LStep k | LWaitCtx k | LNet k _ => k =? i | _ => false end.
(** How many steps of call [i] are in a schedule. *)
Definition steps_of (i : nat) (ls : list clabel) : nat := length (List.filter (own_b i) ls).

Definition rank (s : cstate) (p : opc) : nat :=
  match p with
  | PStart => 14
  | PAwait g => if g =? c_gen s then 13 else 10
  | PWait g n => if n =? c_gen s then 12 else 11
  | PGot _ _ => 9 | PGet => 8 | PCreate => 7 | PUse _ _ => 6 | PFail _ => 5 | PReport _ _ => 4 | PClear _ => 3 | PClosing => 2 | PDone _ => 0
  end.

Definition left_over (s : cstate) (p : opc) : nat := if c_panic s then 0 else rank s p.

Lemma rank_gen s s2 evs o : op_ok s evs o -> c_gen s <= c_gen s2 -> rank s2 (o_pc o) <= rank s (o_pc o).
Proof.
  unfold op_ok. intros H Hg. destruct (o_pc o); cbn in *; try lia.
  - destruct (Nat.eqb_spec g (c_gen s)), (Nat.eqb_spec g (c_gen s2)); lia.
  - destruct (Nat.eqb_spec n (c_gen s)), (Nat.eqb_spec n (c_gen s2)); lia.
Qed.

Lemma own_rank s i o l p l' er ok ev evs : op_ok s evs o -> o_ctx o <> None -> ot s i o l p l' er ok ev -> rank s p < rank s (o_pc o).
Proof.
  intros Hok Hc Ht. unfold op_ok in Hok.
  destruct Ht; repeat match goal with E : o_pc _ = _ |- _ => rewrite E in *; clear E end; cbn; try lia.
  - destruct (_ =? _); lia.
  - subst g. rewrite Nat.eqb_refl. lia.
  - destruct (_ =? _); lia.
  - destruct Hok as [-> _]. by destruct (Nat.eqb_spec n (c_gen s)); [|lia].
  - destruct (_ =? _); lia.
  - by destruct H0.
  - by destruct H1.
Qed.

Lemma gen_mono s lb s2 ev : sstep s lb = Some (s2, ev) -> GInv s [] \/ True -> linked s -> c_local s >= c_gen s -> c_gen s <= c_gen s2.
Proof.
  intros H _ HL Hlo. destruct (sstep_sc _ _ _ _ HL H) as [Hc _].
  destruct Hc as [c Hb1 Hb2 -> ->|Hb1 Hb2 -> ->|j0 k l Hb1 Hl -> ->|i0 o0 c Hb1 Ho Hx -> ->|i0 Hb1 Ho|Hc Hb1]; try done.
  - by destruct Ho.
  - unfold cont_step in Hc. destruct lb, (c_pc s); try discriminate Hc; open_step Hc; injection Hc as <- <-; cbn; lia.
Qed.

Lemma op_kept s lb s2 ev i o : linked s -> sstep s lb = Some (s2, ev) -> c_ops s !! i = Some o -> own_b i lb = false ->
  exists c, c_ops s2 !! i = Some (Op (o_link o) (o_kind o) c (o_pc o)) /\ (c = o_ctx o \/ o_ctx o = None).
Proof.
  intros HL H Ho Hown. destruct (sstep_sc _ _ _ _ HL H) as [Hc _]. destruct o as [oj ok oc op]. cbn.
  destruct Hc as [c Hb1 Hb2 -> ->|Hb1 Hb2 -> ->|j0 k l Hb1 Hl -> ->|i0 o0 c Hb1 Ho0 Hx -> ->|i0 Hb1 Hos|Hc Hb1]; cbn.
  - exists oc. by split; [|left].
  - exists oc. by split; [|left].
  - exists oc. split; [by apply lookup_app_l_Some|by left].
  - destruct (decide (i = i0)) as [->|Hne].
    + rewrite list_lookup_insert by (by eapply lookup_lt_Some). simplify_eq. cbn. exists (Some c). by split; [|right].
    + rewrite list_lookup_insert_ne by done. exists oc. by split; [|left].
  - assert (Hne : i0 <> i). { intros ->. destruct Hb1 as [->|[->|[r ->]]]; cbn in Hown; by rewrite Nat.eqb_refl in Hown. }
    exists oc. split; [|by left]. destruct Hos; cbn; [done|]. by rewrite list_lookup_insert_ne.
  - exists oc. split; [|by left]. unfold cont_step in Hc. destruct lb, (c_pc s); try discriminate Hc; open_step Hc; injection Hc as <- <-; done.
Qed.

(** A call whose context has ended makes at most 14 more steps. *)
Lemma bounded_steps ls : forall s evs ls' s2 ev i o, srun c_init ls = Some (s, evs) -> srun s ls' = Some (s2, ev) -> c_ops s !! i = Some o -> o_ctx o <> None ->
  exists o2, c_ops s2 !! i = Some o2 /\ o_ctx o2 <> None /\ steps_of i ls' + left_over s2 (o_pc o2) <= left_over s (o_pc o).
Proof.
  intros s evs ls'. revert ls s evs. induction ls' as [|lb ls' IH]; intros ls s evs s2 ev i o Hr Hr2 Ho Hc.
  - cbn [run] in Hr2. assert (s2 = s) as -> by congruence. exists o. cbn. by split_and!.
  - cbn [run] in Hr2. destruct (sstep s lb) as [[s1 ev1]|] eqn:E; [|done]. destruct (srun s1 ls') as [[s3 ev3]|] eqn:E3; [|done]. injection Hr2 as <- <-.
    assert (Hr1 : srun c_init (ls ++ [lb]) = Some (s1, evs ++ ev1)) by (by rewrite run_app, Hr, run_one, E).
    pose proof (ginv _ _ _ Hr) as HG. pose proof (gi_op _ _ HG _ _ Ho) as Hok.
    assert (Hgm : c_gen s <= c_gen s1).
    { eapply gen_mono; [exact E|by right|apply HG|]. rewrite (gi_local _ _ HG). destruct (c_pc s); lia. }
    assert (Hs : exists o1, c_ops s1 !! i = Some o1 /\ o_ctx o1 <> None /\ (if own_b i lb then 1 else 0) + left_over s1 (o_pc o1) <= left_over s (o_pc o)).
    { destruct (own_b i lb) eqn:Eo.
      - destruct (sstep_sc _ _ _ _ (gi_linked _ _ HG) E) as [Hsc Hpan].
        assert (Hown : own lb i). { destruct lb; try discriminate Eo; apply Nat.eqb_eq in Eo as ->; [by left|right; by left|right; right; eauto]. }
        destruct Hsc as [c Hb1|Hb1|j0 k l Hb1|i0 o0 c Hb1|i0 Hb1 Hos|Hcs Hb1]; try (subst lb; by destruct Hown as [?|[?|[? ?]]]).
        + assert (i0 = i) as ->. { destruct Hb1 as [->|[->|[? ->]]], Hown as [?|[?|[? ?]]]; congruence. }
          destruct Hos as [o1 l1 Ho1 Hl1 Hp1|o1 l1 p l' er ok ev' Ho1 Hl1 Ht]; simplify_eq.
          * (* a panic ends everything *) exists o. split; [done|]. split; [done|]. unfold left_over. cbn. rewrite Hpan. unfold rank. rewrite Hp1. lia.
          * eexists. split; [cbn; apply list_lookup_insert; by eapply lookup_lt_Some|]. split; [done|]. cbn [o_pc].
            pose proof (own_rank _ _ _ _ _ _ _ _ _ _ Hok Hc Ht) as Hlt. unfold left_over. cbn. rewrite Hpan. exact Hlt.
        + by destruct (Hb1 i).
      - destruct (op_kept _ _ _ _ _ _ (gi_linked _ _ HG) E Ho Eo) as (c & Ho1 & Hcc). eexists. split; [exact Ho1|]. cbn. split; [destruct Hcc; congruence|].
        unfold left_over. rewrite (proj2 (sstep_sc _ _ _ _ (gi_linked _ _ HG) E)). destruct (c_panic s1); [lia|]. by eapply rank_gen. }
    destruct Hs as (o1 & Ho1 & Hc1 & Hrk). destruct (IH _ _ _ _ _ i o1 Hr1 E3 Ho1 Hc1) as (o2 & Ho2 & Hc2 & Hrk2). exists o2. split; [done|]. split; [done|].
    unfold steps_of in *. cbn [List.filter]. destruct (own_b i lb); cbn [length]; lia.
Qed.

(** What can keep call [i] from going on: another call has the link's mutex
    during a call of the network, the container's handlers are running, or the
    queue of errors is full. *)
Definition blocked (s : cstate) (i : nat) (o : op) : Prop :=
  (exists i' o', i' <> i /\ c_ops s !! i' = Some o' /\ o_link o' = o_link o /\ holds o' = true) \/
  (c_lock s = true /\ exists g, o_pc o = PAwait g) \/
  (length (c_errs s) >= errs_cap /\ exists g e, o_pc o = PReport g e).

Lemma ends_or_blocked ls s evs i o : srun c_init ls = Some (s, evs) -> c_panic s = false -> c_ops s !! i = Some o -> o_ctx o <> None ->
  is_done o = true \/ (exists lb s' ev, own_b i lb = true /\ sstep s lb = Some (s', ev)) \/ blocked s i o.
Proof.
  intros Hr Hpan Ho Hc. pose proof (ainv _ _ _ Hr) as HA. destruct (gi_linked _ _ (ai_g _ _ HA) _ _ Ho) as [l Hl].
  pose proof (ai_kind _ _ HA _ _ Ho) as Hkd.
  assert (Hii : (i =? i) = true) by apply Nat.eqb_refl.
  assert (Hstep : forall x, op_step s i o l = Some x -> exists lb s' ev, own_b i lb = true /\ sstep s lb = Some (s', ev)).
  { intros [s' ev] Hx. exists (LStep i), s', ev. split; [done|]. unfold sstep. by rewrite Hpan, Ho, Hl. }
  assert (Hnet : forall r x, net_step s i o l r = Some x -> exists lb s' ev, own_b i lb = true /\ sstep s lb = Some (s', ev)).
  { intros r [s' ev] Hx. exists (LNet i r), s', ev. split; [done|]. unfold sstep. by rewrite Hpan, Ho, Hl. }
  assert (Hlock : holds o = false -> l_lock l = true -> blocked s i o).
  { intros Hh Hk. left. destruct (ai_lock _ _ HA _ _ Hl Hk) as (i' & o' & Hi' & Hj' & Hh'). exists i', o'. split_and!; try done. intros ->. congruence. }
  destruct (o_pc o) eqn:Ep.
  - right. destruct (l_lock l) eqn:Ek; [right; apply Hlock; [unfold holds; by rewrite Ep|done]|]. left.
    assert (exists x, op_step s i o l = Some x) as [x Hx]; [|by eapply Hstep]. unfold op_step, ret. rewrite Ep, Ek.
    destruct (o_kind o); [| | |destruct (snd (l_rcv l)); eauto]; (destruct (l_closed l); [|destruct (l_curr l)]; eauto).
  - right. destruct (c_lock s) eqn:Ek; [right; right; left; eauto|]. left.
    assert (exists x, op_step s i o l = Some x) as [x Hx]; [|by eapply Hstep]. unfold op_step. rewrite Ep, Ek. destruct (g =? c_gen s); eauto.
  - right. left. destruct (o_ctx o) as [c|] eqn:Ec; [|done]. exists (LWaitCtx i). do 2 eexists. split; [done|]. unfold sstep. by rewrite Hpan, Ho, Ep, Ec.
  - right. destruct (l_lock l) eqn:Ek; [right; apply Hlock; [unfold holds; by rewrite Ep|done]|]. left.
    eapply Hstep. unfold op_step. by rewrite Ep, Ek.
  - right. destruct (l_lock l) eqn:Ek; [right; apply Hlock; [unfold holds; by rewrite Ep|done]|]. left.
    assert (exists x, op_step s i o l = Some x) as [x Hx]; [|by eapply Hstep]. unfold op_step. rewrite Ep, Ek.
    destruct (part (o_kind o) l) as [g [ob|]]; [destruct (g =? l_gen l); [eauto|]|]; destruct (l_curr l); eauto.
  - right. left. eapply (Hnet (NErr None)). unfold net_step. by rewrite Ep.
  - right. left. assert (exists x, net_step s i o l NOk = Some x) as [x Hx]; [|by eapply (Hnet NOk)]. unfold net_step, ret. rewrite Ep.
    destruct (o_kind o); eauto. done.
  - right. left. assert (exists x, op_step s i o l = Some x) as [x Hx]; [|by eapply Hstep]. unfold op_step, fails, ret. rewrite Ep.
    case_bool_decide; [|case_bool_decide]; eauto; destruct (o_kind o), (o_ctx o); eauto.
  - right. destruct (Nat.ltb_spec (length (c_errs s)) errs_cap) as [Hlt|Hge]; [|right; right; right; eauto].
    left. eapply Hstep. unfold op_step. rewrite Ep. by rewrite (proj2 (Nat.ltb_lt _ _) Hlt).
  - right. destruct (l_lock l) eqn:Ek; [right; apply Hlock; [unfold holds; by rewrite Ep|done]|]. left.
    assert (exists x, op_step s i o l = Some x) as [x Hx]; [|by eapply Hstep]. unfold op_step, fails, ret. rewrite Ep, Ek.
    destruct (o_kind o), (o_ctx o); eauto.
  - right. left. eapply (Hnet NOk). unfold net_step, ret. by rewrite Ep.
  - left. unfold is_done. by rewrite Ep.
Qed.

(** With the container stopped and the queue full, a report is never accepted. *)
Lemma stuck_report ls s evs ls' s2 ev i o g e : srun c_init ls = Some (s, evs) -> srun s ls' = Some (s2, ev) -> EvStopped ∈ evs -> length (c_errs s) >= errs_cap ->
  c_ops s !! i = Some o -> o_pc o = PReport g e -> forall l k r, EvRet i l k r ∉ ev.
Proof.
  intros Hr Hr2 Hs Hf Ho Hp. pose proof (kinv _ _ _ Hr) as HK. pose proof (ki_stop _ _ HK Hs) as Hd.
  cut (linked s2 /\ c_pc s2 = CDone /\ length (c_errs s2) >= errs_cap /\ (exists o, c_ops s2 !! i = Some o /\ o_pc o = PReport g e) /\ forall l k r, EvRet i l k r ∉ [] ++ ev).
  { by intros (_ & _ & _ & _ & H). }
  eapply (run_inv sstep (fun s evs => linked s /\ c_pc s = CDone /\ length (c_errs s) >= errs_cap /\ (exists o, c_ops s !! i = Some o /\ o_pc o = PReport g e) /\ forall l k r, EvRet i l k r ∉ evs)
     (fun _ => True) s []) with (4 := Hr2).
  - split_and!; try done; [apply HK|eauto|]. intros. apply not_elem_of_nil.
  - clear. intros s evs lb s2 ev (HL & Hd & Hf & (o & Ho & Hp) & Hn) _ H. split; [by eapply linked_step|].
    destruct (sstep_sc _ _ _ _ HL H) as [Hc _].
    destruct Hc as [c Hb1 Hb2 -> ->|Hb1 Hb2 -> ->|j0 k l Hb1 Hl -> ->|i0 o0 c Hb1 Ho0 Hx -> ->|i0 Hb1 Hos|Hc Hb1].
    + split_and!; try done; [by eauto|]. intros. rewrite elem_of_app, elem_of_list_singleton. intros [?|?]; [by eapply Hn|done].
    + split_and!; try done; [by eauto|]. intros. rewrite elem_of_app, elem_of_list_singleton. intros [?|?]; [by eapply Hn|done].
    + split_and!; try done; [exists o; split; [by apply lookup_app_l_Some|done]|]. intros. rewrite elem_of_app, elem_of_list_singleton. intros [?|?]; [by eapply Hn|done].
    + split_and!; try done; [|by rewrite app_nil_r]. cbn. destruct (decide (i = i0)) as [->|Hne].
      * eexists. split; [apply list_lookup_insert; by eapply lookup_lt_Some|]. cbn. congruence.
      * exists o. by rewrite list_lookup_insert_ne.
    + destruct Hos as [o1 l1|o1 l1 p l' er ok ev' Ho1 Hl1 Ht].
      * split_and!; try done; [by eauto|]. intros. rewrite elem_of_app, elem_of_list_singleton. intros [?|?]; [by eapply Hn|done].
      * assert (Hne : i0 <> i).
        { intros ->. simplify_eq. destruct Ht; try congruence. simplify_eq. unfold errs_cap in *. lia. }
        cbn. split_and!; try done.
        -- destruct Ht; try done. rewrite app_length. lia.
        -- exists o. by rewrite list_lookup_insert_ne.
        -- intros l k r. rewrite elem_of_app. intros [?|Hin]; [by eapply Hn|].
           destruct (ot_events _ _ _ _ _ _ _ _ _ Ht) as [->|(x & -> & He)]; [by apply elem_of_nil in Hin|]. apply elem_of_list_singleton in Hin as <-. destruct_or! He; naive_solver.
    + exfalso. unfold cont_step in Hc. rewrite Hd in Hc. by destruct lb.
  - by apply Forall_true.
Qed.

(** ** Waiting calls *)

(** A call that waits for a session newer than [g] takes the newest one in two
    steps as soon as there is one, and waits only if there is none. *)
Lemma waiting_wakes ls s evs i o g n : srun c_init ls = Some (s, evs) -> c_panic s = false -> c_lock s = false -> c_ops s !! i = Some o -> o_pc o = PWait g n ->
  latest evs <> g -> exists s' o' sid, srun s [LStep i; LStep i] = Some (s', []) /\ c_ops s' !! i = Some o' /\ o_pc o' = PGot (Some sid) (latest evs) /\
    EvEst (latest evs) sid ∈ evs /\ g < latest evs.
Proof.
  intros Hr Hpan Hlk Ho Hp Hne. pose proof (ginv _ _ _ Hr) as HG. rewrite (latest_gen _ _ HG) in *. pose proof (gi_op _ _ HG _ _ Ho) as Hok. unfold op_ok in Hok. rewrite Hp in Hok.
  destruct Hok as [<- Hle]. destruct (gi_linked _ _ HG _ _ Ho) as [l Hl]. assert (Hz : c_gen s <> 0) by lia. destruct (newest_sess _ _ HG Hz) as (sid & Hs & Hin).
  assert (Hlt : i < length (c_ops s)) by (by eapply lookup_lt_Some).
  cbn [run]. unfold sstep at 1. rewrite Hpan, Ho, Hl. unfold op_step at 1. rewrite Hp. rewrite (proj2 (Nat.eqb_neq g (c_gen s))) by congruence.
  unfold sstep, set_op; cbn [c_panic cs_ops c_ops c_links]. rewrite Hpan, list_lookup_insert by done. cbn [o_link]. rewrite Hl. unfold op_step; cbn [o_pc]. change (c_lock _) with (c_lock s). change (c_gen (cs_ops _ _)) with (c_gen s). change (c_sess (cs_ops _ _)) with (c_sess s). rewrite Hlk.
  rewrite (proj2 (Nat.eqb_neq g (c_gen s))) by congruence. unfold set_op, cs_ops; cbn. eexists _, _, sid. split; [reflexivity|]. cbn. split; [apply list_lookup_insert; by rewrite insert_length|].
  cbn. rewrite Hs. split; [done|]. split; [by apply elem_of_ests|lia].
Qed.
