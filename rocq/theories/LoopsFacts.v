(** Proofs about the receiving loops (C109). *)
From Coq Require Import ZArith NArith Ascii String Lia.
From stdpp Require Import base gmap strings list.
From Verif Require Import GoBase Run Session SessionFacts SessionLink Loops.

Local Open Scope list_scope.

(** ** Specification *)

(** The container's part of a run. *)
Definition sess (evs : list wev) : list cev := omap (fun e => match e with WE x => Some x | _ => None end) evs.
Definition gots (evs : list wev) : list nat := omap (fun e => match e with WGot i => Some i | _ => None end) evs.
Definition handed (evs : list wev) : list (option nat) := omap (fun e => match e with WHanded m => Some m | _ => None end) evs.
(** The session and generation a call last used the network on. *)
Definition last_use (i : nat) (evs : list cev) : option (nat * nat) :=
  last (omap (fun e => match e with EvUse i' _ sid g => if i' =? i then Some (sid, g) else None | _ => None end) evs).

(** ** The loop's link *)

Lemma sess_app a b : sess (a ++ b) = sess a ++ sess b.
Proof. apply omap_app. Qed.
Lemma sess_WE e : sess (WE <$> e) = e.
Proof. induction e as [|x e IH]; [done|]. cbn. by f_equal. Qed.
Lemma gots_app a b : gots (a ++ b) = gots a ++ gots b.
Proof. apply omap_app. Qed.
Lemma handed_app a b : handed (a ++ b) = handed a ++ handed b.
Proof. apply omap_app. Qed.
Lemma gots_WE e : gots (WE <$> e) = [].
Proof. by induction e. Qed.
Lemma handed_WE e : handed (WE <$> e) = [].
Proof. by induction e. Qed.
Lemma elem_sess evs e : e ∈ sess evs <-> WE e ∈ evs.
Proof.
  unfold sess. rewrite elem_of_list_omap. split.
  - intros ([] & H & Hs); try discriminate Hs. by injection Hs as ->.
  - intros H. by exists (WE e).
Qed.
Lemma last_use_app i a b : last_use i (a ++ b) = match last_use i b with Some x => Some x | None => last_use i a end.
Proof. unfold last_use. rewrite omap_app, last_app. by destruct (last (omap _ b)). Qed.
Lemma no_use i ev : (forall l sid g, EvUse i l sid g ∉ ev) -> last_use i ev = None.
Proof.
  intros H. unfold last_use. destruct (omap _ ev) as [|x q] eqn:E; [done|]. exfalso.
  assert (x ∈ omap (fun e => match e with EvUse i' _ sid g => if i' =? i then Some (sid, g) else None | _ => None end) ev) as Hx by (rewrite E; left).
  apply elem_of_list_omap in Hx as (e & He & Hs). destruct e; try discriminate Hs. destruct (_ =? _) eqn:Ei; [|discriminate Hs]. apply Nat.eqb_eq in Ei as ->. by apply (H l o g).
Qed.

Definition sane (l : lnk) : Prop := l_closed l = false /\ match snd (l_rcv l) with Some ob => fst (l_rcv l) = l_gen l /\ l_curr l = Some ob | None => True end.
Definition at_pc (o : op) (l : lnk) : Prop :=
  match o_pc o with
  | PAwait g => l_lock l = false /\ l_curr l = None /\ g = l_gen l
  | PWait g n => l_lock l = false /\ l_curr l = None /\ g = l_gen l /\ n = g
  | PGot x g => l_lock l = false /\ l_curr l = None /\ x <> None
  | PGet => l_lock l = false /\ l_curr l <> None
  | PCreate => l_lock l = true /\ l_curr l <> None /\ snd (l_rcv l) = None
  | PUse ob g => l_lock l = false /\ l_rcv l = (l_gen l, Some ob) /\ g = l_gen l
  | PFail e => l_lock l = false /\ e <> EClosed
  | PReport g e => l_lock l = false /\ e <> EClosed /\ g = l_gen l
  | PClear e => l_lock l = false /\ e <> EClosed
  | PClosing => False
  | PStart | PDone _ => l_lock l = false
  end.

(** The loop is the only one to use link [j]: its other calls have returned. *)
Definition sole (s : cstate) (j : nat) (cur : option nat) : Prop :=
  (forall i o, c_ops s !! i = Some o -> o_link o = j -> cur = Some i \/ is_done o = true) /\ (forall i, cur = Some i -> exists o, c_ops s !! i = Some o /\ o_link o = j).

Lemma cont_frame s lb s2 ev : cont_step s lb = Some (s2, ev) -> c_ops s2 = c_ops s /\ c_links s2 = c_links s /\ c_panic s2 = c_panic s /\ (forall i l o g, EvUse i l o g ∉ ev) /\ forall i l k r, EvRet i l k r ∉ ev.
Proof.
  intros Hc. unfold cont_step in Hc. destruct lb, (c_pc s); try discriminate Hc; open_step Hc; injection Hc as <- <-; (split; [done|]; split; [done|]; split; [done|]); split; intros i' l' o' g';
    repeat first [rewrite elem_of_app|rewrite elem_of_cons]; rewrite ?elem_of_nil; repeat case_match; rewrite ?elem_of_cons, ?elem_of_nil; intuition discriminate.
Qed.

Lemma ot_uses s i o l p l' er ok ev : ot s i o l p l' er ok ev -> forall i' l0 ob g, EvUse i' l0 ob g ∈ ev -> i' = i /\ p = PUse ob g.
Proof. intros Ht i' l0 ob g Hin. destruct Ht; try (by apply elem_of_nil in Hin); apply elem_of_list_singleton in Hin; try discriminate Hin; by injection Hin as -> -> -> ->. Qed.

Lemma ot_rets s i o l p l' er ok ev : ot s i o l p l' er ok ev -> forall i' l0 k r, EvRet i' l0 k r ∈ ev -> i' = i /\ l0 = o_link o.
Proof. intros Ht i' l0 k r Hin. destruct Ht; try (by apply elem_of_nil in Hin); apply elem_of_list_singleton in Hin; try discriminate Hin; by injection Hin as -> -> _ _. Qed.

Lemma ot_open s i o l p l' er ok ev : ot s i o l p l' er ok ev -> is_done o = false.
Proof. exact (ot_notdone s i o l p l' er ok ev). Qed.

(** A step seen from link [j], whose running call is [cur]. *)
Lemma step_split s evs lb s2 ev j cur : GInv s evs -> sole s j cur -> (forall k, lb <> LOp j k) -> (forall i c, cur = Some i -> lb <> LCtx i c) -> sstep s lb = Some (s2, ev) ->
  is_Some (c_links s !! j) ->
  sole s2 j cur /\
  (c_links s2 !! j = c_links s !! j /\ (forall i o, cur = Some i -> c_ops s !! i = Some o -> c_ops s2 !! i = Some o) /\ (forall i l o g, EvUse i l o g ∈ ev -> c_ops s !! i <> None /\ cur <> Some i /\ forall o, c_ops s !! i = Some o -> is_done o = false) /\ (forall i k r, EvRet i j k r ∉ ev) \/
   exists i o l, cur = Some i /\ own lb i /\ c_ops s !! i = Some o /\ o_link o = j /\ c_links s !! j = Some l /\
     (o_pc o = PGet /\ l_curr l = None \/ exists p l' er ok, ot s i o l p l' er ok ev /\ s2 = upd s i o p l' er ok)).
Proof.
  intros HG [HS HO] Hop Hctx H [lk Hlk]. destruct (sstep_sc _ _ _ _ (gi_linked _ _ HG) H) as [Hc _].
  destruct Hc as [c Hb1 Hb2 -> ->|Hb1 Hb2 -> ->|j' k l Hb1 Hl -> ->|i0 o0 c Hb1 Ho Hx -> ->|i0 Hb1 Ho|Hc Hb1].
  - split; [by split|]. left. split; [done|]. split; [done|]. split; [intros i l o g Hin|intros i k0 r Hin]; by apply elem_of_list_singleton in Hin.
  - split; [by split|]. left. split; [cbn; rewrite lookup_app_l; [done|by eapply lookup_lt_Some]|]. split; [done|]. split; [intros i l o g Hin|intros i k0 r Hin]; by apply elem_of_list_singleton in Hin.
  - assert (j' <> j) as Hne by (intros ->; by destruct (Hop k)). split; [split|].
    + intros i o Hi El. cbn in Hi. apply lookup_app_Some in Hi as [Hi|[_ Hi]]; [by apply HS|]. apply list_lookup_singleton_Some in Hi as [_ <-]. done.
    + intros i Hi. destruct (HO i Hi) as (o & Ho & El). exists o. split; [|done]. cbn. by apply lookup_app_l_Some.
    + left. split; [done|]. split; [intros i o _ Hi; cbn; by apply lookup_app_l_Some|]. split; [intros i l0 o g Hin|intros i k0 r Hin]; by apply elem_of_list_singleton in Hin.
  - split; [split|].
    + intros i o Hi El. cbn in Hi. apply list_lookup_insert_Some in Hi as [(-> & <- & _)|[_ Hi]]; [|by apply HS]. cbn in El. destruct (HS _ _ Ho El) as [->|Hd]; [by left|]. right. done.
    + intros i ->. destruct (HO i eq_refl) as (o & Hi & El). exists o. split; [|done]. cbn. rewrite list_lookup_insert_ne; [done|]. intros ->. by destruct (Hctx i c).
    + left. split; [done|]. split; [|split; [intros i l o g Hin|intros i k0 r Hin]; by apply elem_of_nil in Hin]. intros i o -> Hi. cbn. rewrite list_lookup_insert_ne; [done|]. intros ->. by destruct (Hctx i c).
  - assert (forall i o, c_ops s !! i = Some o -> o_link o = j -> is_done o = false -> cur = Some i) as Hcur.
    { intros i o Hi El Hd. destruct (HS _ _ Hi El) as [?|Hd']; [done|congruence]. }
    destruct Ho as [o l Ho Hl Hpc Hlock Hcr _|o l p l' er ok ev' Ho Hl Ht].
    + split; [by split|]. destruct (decide (o_link o = j)) as [El|Hne].
      * right. exists i0, o, l. rewrite <- El. split_and!; try done; [apply (Hcur _ _ Ho El); unfold is_done; by rewrite Hpc|]. by left.
      * left. split; [done|]. split; [done|]. split; [intros i l0 ob g Hin|intros i k0 r Hin]; by apply elem_of_list_singleton in Hin.
    + pose proof (ot_open _ _ _ _ _ _ _ _ _ Ht) as Hd. split; [split|].
      * intros i o1 Hi El. unfold upd in Hi; cbn in Hi. apply list_lookup_insert_Some in Hi as [(-> & <- & _)|[_ Hi]]; [|by apply HS]. cbn in El. left. by apply (Hcur _ o).
      * intros i Hi. destruct (HO i Hi) as (o1 & Ho1 & El1). unfold upd; cbn. destruct (decide (i0 = i)) as [->|Hne].
        -- rewrite list_lookup_insert by (by eapply lookup_lt_Some). eexists. split; [reflexivity|]. cbn. congruence.
        -- rewrite list_lookup_insert_ne by done. by exists o1.
      * destruct (decide (o_link o = j)) as [El|Hne].
        -- right. exists i0, o, l. rewrite <- El. split_and!; try done; [by apply (Hcur _ o)|]. right. by exists p, l', er, ok.
        -- assert (cur <> Some i0) as Hnc by (intros Hc; destruct (HO _ Hc) as (o1 & Ho1 & El1); congruence).
           left. unfold upd; cbn. split; [by rewrite list_lookup_insert_ne|]. split; [|split].
           ++ intros i o1 -> Hi. rewrite list_lookup_insert_ne; [done|]. intros ->. done.
           ++ intros i l0 ob g Hin. destruct (ot_uses _ _ _ _ _ _ _ _ _ Ht _ _ _ _ Hin) as [-> _]. split; [congruence|]. split; [done|]. intros o1 Ho1. congruence.
           ++ intros i k0 r Hin. by destruct (ot_rets _ _ _ _ _ _ _ _ _ Ht _ _ _ _ Hin) as [_ ?].
  - destruct (cont_frame _ _ _ _ Hc) as (E1 & E2 & _ & Hu & Hrt). split; [split; rewrite E1; [exact HS|exact HO]|]. left. rewrite E1, E2. split; [done|]. split; [done|]. split; [intros i l o g Hin; by destruct (Hu _ _ _ _ Hin)|]. intros i k0 r. apply Hrt.
Qed.

(** A receiver at hand is used. *)
Definition reuses (i : nat) (o : op) (l : lnk) (ev : list cev) : Prop := o_pc o = PGet -> forall ob, l_rcv l = (l_gen l, Some ob) -> ev = [EvUse i (o_link o) ob (l_gen l)].
Lemma own_reuses s lb i s2 ev o l : sstep s lb = Some (s2, ev) -> own lb i -> c_ops s !! i = Some o -> c_links s !! o_link o = Some l -> o_kind o <> KSend -> reuses i o l ev.
Proof.
  intros H Hown Ho Hl Hk Ep ob Er. assert (part (o_kind o) l = (l_gen l, Some ob)) as Epart by (by destruct (o_kind o)).
  unfold sstep in H. destruct (c_panic s); [discriminate H|]. destruct Hown as [->|[->|[r ->]]]; cbn in H; rewrite Ho in H; rewrite ?Hl in H.
  - unfold op_step in H. rewrite Ep in H. destruct (l_lock l); [discriminate H|]. rewrite Epart, Nat.eqb_refl in H. by injection H as _ <-.
  - by rewrite Ep in H.
  - unfold net_step in H. by rewrite Ep in H.
Qed.

(** The loop's own calls keep its link in order. *)
Lemma ot_keeps s evs i o l p l' er ok ev : reuses i o l ev -> GInv s evs -> sane l -> at_pc o l -> o_kind o <> KClose -> o_kind o <> KSend -> c_ops s !! i = Some o -> ot s i o l p l' er ok ev ->
  sane l' /\ at_pc (Op (o_link o) (o_kind o) (o_ctx o) p) l'.
Proof.
  intros Hre HG [Hc Hs] Hp Hk Hk2 Ho Ht. unfold reuses in Hre. pose proof (gi_op _ _ HG _ _ Ho) as Hop. unfold op_ok in Hop. unfold at_pc in Hp. unfold sane, at_pc. cbn [o_pc].
  assert (forall x, part (o_kind o) x = l_rcv x) as Hpart by (intros x; by destruct (o_kind o)).
  assert (forall x y, set_part (o_kind o) x y = Lnk (l_closed y) (l_gen y) (l_curr y) x (l_snd y) (l_lock y)) as Hset by (intros x y; by destruct (o_kind o)).
  destruct Ht as [? ? ? ?|? ? ? ?|? ? ? ?|sid Ep ? ? ? Ec|Ep ? ? ? Ec|g Ep ? ->|g Ep ? Hg|g n Ep ?|g n c Ep Ex|x g Ep ?|ob Ep ? Er|sid Ep ? Ec|sid Ep Ec|c Ep|ob g Ep ?|ob g ok Ep ?|ob g c Ep ?|ob g c Ep ?|Ep ?|e Ep ? ?|e Ep ?|g e Ep ?|e Ep ? ?|e Ep ? ?|r Ep];
    try congruence; rewrite Ep in *; unfold wiped, locked; cbn in *; rewrite ?Hset, ?Hpart in *; cbn.
  all: try (split_and!; solve [done|assumption|tauto|congruence]).
  - destruct Hp as (? & ? & ->). split_and!; try done. intros Hn. destruct (newest_sess _ _ HG) as (sid & Hsid & _); [lia|]. congruence.
  - destruct Hp as (? & Hcu & ?). destruct (snd (l_rcv l)) eqn:E; [destruct Hs; congruence|]. split_and!; done.
  - destruct Hp as (? & ?). destruct (l_rcv l) as [gr [ob|]]; cbn in *; [|split_and!; done]. destruct Hs as [-> ?]. discriminate (Hre eq_refl ob eq_refl).
  - destruct Hp as (? & ? & ?). split_and!; try done. by destruct c.
  - destruct Hp as (? & ? & ?). split_and!; try done. by destruct c.
Qed.

(** What has returned stays so, and uses the network no more. *)
Lemma done_stays s evs lb s2 ev m o r : GInv s evs -> sstep s lb = Some (s2, ev) -> c_ops s !! m = Some o -> o_pc o = PDone r ->
  (exists o', c_ops s2 !! m = Some o' /\ o_link o' = o_link o /\ o_kind o' = o_kind o /\ o_pc o' = PDone r) /\ forall l ob g, EvUse m l ob g ∉ ev.
Proof.
  intros HG H Hm Hr. destruct (sstep_sc _ _ _ _ (gi_linked _ _ HG) H) as [Hc _].
  destruct Hc as [c Hb1 Hb2 -> ->|Hb1 Hb2 -> ->|j' k l Hb1 Hl -> ->|i0 o0 c Hb1 Ho Hx -> ->|i0 Hb1 Ho|Hc Hb1].
  - split; [by exists o|]. intros l ob g Hin. by apply elem_of_list_singleton in Hin.
  - split; [by exists o|]. intros l ob g Hin. by apply elem_of_list_singleton in Hin.
  - split; [exists o; split; [cbn; by apply lookup_app_l_Some|done]|]. intros l0 ob g Hin. by apply elem_of_list_singleton in Hin.
  - split; [|intros l0 ob g Hin; by apply elem_of_nil in Hin]. cbn. destruct (decide (i0 = m)) as [->|Hne].
    + rewrite list_lookup_insert by (by eapply lookup_lt_Some). eexists. split; [reflexivity|]. cbn. rewrite Hm in Ho. injection Ho as <-. done.
    + rewrite list_lookup_insert_ne by done. by exists o.
  - destruct Ho as [o1 l Ho Hl Hpc Hlock Hcr _|o1 l p l' er ok ev' Ho Hl Ht].
    + split; [by exists o|]. intros l0 ob g Hin. by apply elem_of_list_singleton in Hin.
    + pose proof (ot_open _ _ _ _ _ _ _ _ _ Ht) as Hd. assert (i0 <> m) as Hne by (intros ->; unfold is_done in Hd; rewrite Hm in Ho; injection Ho as <-; by rewrite Hr in Hd).
      split; [unfold upd; cbn; rewrite list_lookup_insert_ne by done; by exists o|]. intros l0 ob g Hin. by destruct (ot_uses _ _ _ _ _ _ _ _ _ Ht _ _ _ _ Hin) as [-> _].
  - destruct (cont_frame _ _ _ _ Hc) as (E1 & _ & _ & Hu & _). rewrite E1. split; [by exists o|]. intros l ob g Hin. by destruct (Hu _ _ _ _ Hin).
Qed.

(** ** What holds while the loop runs *)

Definition fine (p : wpc) (evs : list cev) (o : op) (l : lnk) : Prop :=
  match p with
  | WNext i => o_kind o = KNext /\
      match o_pc o with
      | PUse ob g => last_use i evs = Some (ob, g)
      | PDone ROk => exists ob, l_rcv l = (l_gen l, Some ob) /\ last_use i evs = Some (ob, l_gen l)
      | PDone (RErr e) => o_ctx o <> None /\ (ECtx <$> o_ctx o = Some e \/ snd (l_rcv l) = None)
      | _ => True
      end
  | WAccepting i (Some m) => o_kind o = KAccept /\
      (exists ob, l_rcv l = (l_gen l, Some ob) /\ last_use m evs = Some (ob, l_gen l) /\ forall l' sid g, EvUse i l' sid g ∈ evs -> sid = ob /\ g = l_gen l) /\
      match o_pc o with PStart | PGet | PUse _ _ | PDone _ => True | _ => False end
  | WAccepting i None => o_kind o = KAccept /\ o_ctx o <> None /\ snd (l_rcv l) = None /\ match o_pc o with PUse _ _ | PDone ROk => False | _ => True end
  | _ => True
  end.

Lemma fine_own p evs s i o l p' l' er ok ev : current p = Some i -> (forall m, p = WAccepting i (Some m) -> m <> i) -> reuses i o l ev ->
  fine p evs o l -> sane l -> at_pc o l -> ot s i o l p' l' er ok ev ->
  (p = WAccepting i None /\ exists ob g, EvUse i (o_link o) ob g ∈ ev) \/ fine p (evs ++ ev) (Op (o_link o) (o_kind o) (o_ctx o) p') l'.
Proof.
  intros Hp Hm Hre Hf [Hsc Hs] Ha Ht. unfold at_pc in Ha. destruct p as [| |i'|m|i' m|m| |i'|]; try discriminate Hp; try (by right); injection Hp as ->.
  - right. destruct Hf as [Hk Hf]. unfold fine. cbn [o_kind o_pc o_ctx]. split; [done|].
    destruct Ht as [? ? ? ?|? ? ? ?|? ? ? ?|sid Ep ? ? ? Ec|Ep ? ? ? Ec|g Ep ? ->|g Ep ? Hg|g n Ep ?|g n c Ep Ex|x g Ep ?|ob Ep ? Er|sid Ep ? Ec|sid Ep Ec|c Ep|ob g Ep ?|ob g ok Ep ?|ob g c Ep ?|ob g c Ep ?|Ep ?|e Ep Hnr Hq|e Ep ?|g e Ep ?|e Ep ? ?|e Ep ? Hnr|r Ep];
      try congruence; try done; try (rewrite Ep in Ha; tauto).
    + rewrite last_use_app. unfold last_use. cbn. by rewrite Nat.eqb_refl.
    + rewrite last_use_app. unfold last_use. cbn. by rewrite Nat.eqb_refl.
    + rewrite Ep in Hf, Ha. destruct Ha as (_ & Er & ->). exists ob. split; [done|]. rewrite last_use_app, Hf. done.
    + destruct H; congruence.
    + rewrite Ep in Ha. destruct Ha as [_ He]. split; [intros Hx; by destruct Hnr|]. left. destruct Hq as [->|(c & Hc & ->)]; [done|]. by rewrite Hc.
    + split; [intros Hx; by destruct Hnr|]. right. done.
  - destruct m as [m|].
    + right. destruct Hf as (Hk & (ob & Er & Hlu & Hall) & Hpc). pose proof (Hm m eq_refl) as Hne.
      assert (last_use m ev = None) as Hnu.
      { apply no_use. intros l0 sid g Hin. by destruct (ot_uses _ _ _ _ _ _ _ _ _ Ht _ _ _ _ Hin) as [-> _]. }
      unfold fine. cbn [o_kind o_pc o_ctx]. split; [done|].
      destruct Ht as [? ? ? ?|? ? ? ?|? ? ? ?|sid Ep ? ? ? Ec|Ep ? ? ? Ec|g Ep ? ->|g Ep ? Hg|g n Ep ?|g n c Ep Ex|x g Ep ?|ob' Ep ? Er'|sid Ep ? Ec|sid Ep Ec|c Ep|ob' g Ep ?|ob' g ok Ep ?|ob' g c Ep ?|ob' g c Ep ?|Ep ?|e Ep Hnr Hq|e Ep ?|g e Ep ?|e Ep ? ?|e Ep ? Hnr|r Ep];
        try congruence; rewrite Ep in *; try done; rewrite ?last_use_app, ?Hnu.
      * rewrite app_nil_r. split; [by exists ob|done].
      * rewrite Er in Hs; cbn in Hs; destruct Hs; congruence.
      * split; [|done]. exists ob. split; [done|]. split; [done|]. intros l0 sid g Hin. apply elem_of_app in Hin as [Hin|Hin]; [by apply (Hall l0)|]. apply elem_of_list_singleton in Hin. injection Hin as -> -> ->.
        rewrite Hk in Er'. cbn in Er'. rewrite Er in Er'. by injection Er' as ->.
      * discriminate (Hre Ep ob Er).
      * split; [|done]. exists ob. split; [done|]. split; [done|]. intros l0 sid g' Hin. apply elem_of_app in Hin as [Hin|Hin]; [by apply (Hall l0)|]. by apply elem_of_list_singleton in Hin.
      * split; [|done]. exists ob. split; [done|]. split; [done|]. intros l0 sid g' Hin. apply elem_of_app in Hin as [Hin|Hin]; [by apply (Hall l0)|]. by apply elem_of_list_singleton in Hin.
      * destruct H; congruence.
    + destruct Hf as (Hk & Hx & Er & Hpc). unfold fine. cbn [o_kind o_pc o_ctx].
      destruct Ht as [? ? ? ?|? ? ? ?|? ? ? ?|sid Ep ? ? ? Ec|Ep ? ? ? Ec|g Ep ? ->|g Ep ? Hg|g n Ep ?|g n c Ep Ex|x g Ep ?|ob' Ep ? Er'|sid Ep ? Ec|sid Ep Ec|c Ep|ob' g Ep ?|ob' g ok Ep ?|ob' g c Ep ?|ob' g c Ep ?|Ep ?|e Ep Hnr Hq|e Ep ?|g e Ep ?|e Ep ? ?|e Ep ? Hnr|r Ep];
        try congruence; rewrite Ep in *; try done; try (right; by split_and!).
      * left. split; [done|]. eexists _, _. left.
      * left. split; [done|]. eexists _, _. left.
Qed.

Definition inhand (p : wpc) : list nat := match p with WAccept (Some m) | WAccepting _ (Some m) | WHand (Some m) => [m] | _ => [] end.

Record WInv (k : loop) (s : wstate) (evs : list wev) : Prop := {
  wv_run : exists cls, srun c_init cls = Some (w_s s, sess evs);
  wv_new : w_pc s = WNew -> gots evs = [] /\ handed evs = [] /\ forall j m, WCalls j m ∉ evs;
  wv_link : w_pc s <> WNew -> sole (w_s s) (w_link s) (current (w_pc s)) /\ is_Some (c_links (w_s s) !! w_link s);
  wv_open : match w_pc s with WNew | WClosing _ | WEnded => True | p => exists l, c_links (w_s s) !! w_link s = Some l /\ sane l /\
      match current p with
      | None => l_lock l = false
      | Some i => exists o, c_ops (w_s s) !! i = Some o /\ at_pc o l /\ o_ctx o = w_ctx s /\ (w_crash s = true \/ fine p (sess evs) o l)
      end /\
      match p with
      | WAccept (Some m) => exists ob, l_rcv l = (l_gen l, Some ob) /\ last_use m (sess evs) = Some (ob, l_gen l)
      | WAccept None => snd (l_rcv l) = None
      | _ => True
      end end;
  wv_told : match w_pc s with WAccept None | WAccepting _ None | WHand None | WClose | WClosing _ | WEnded => w_ctx s <> None | _ => True end;
  wv_nil : match w_pc s with WAccept None | WAccepting _ None | WHand None => k = LpFlush | _ => True end;
  wv_kind : match w_pc s with WNext i => exists o, c_ops (w_s s) !! i = Some o /\ o_kind o = KNext | WAccepting i _ => exists o, c_ops (w_s s) !! i = Some o /\ o_kind o = KAccept
    | WClosing i => exists o, c_ops (w_s s) !! i = Some o /\ o_kind o = KClose | _ => True end;
  wv_old : forall m, m ∈ gots evs -> exists o, c_ops (w_s s) !! m = Some o /\ o_link o = w_link s /\ o_kind o = KNext /\ o_pc o = PDone ROk;
  wv_notyet : forall i, w_pc s = WNext i -> i ∉ gots evs;
  wv_nodup : NoDup (gots evs);
  wv_sub : omap id (handed evs) ++ inhand (w_pc s) `sublist_of` gots evs;
  wv_all : k <> LpClient -> omap id (handed evs) ++ inhand (w_pc s) = gots evs;
  wv_lost : w_pc s <> WNew -> forall i, EvRet i (w_link s) KNext ROk ∈ sess evs -> i ∈ gots evs \/ w_pc s = WNext i;
  wv_calls : forall j m, WCalls j (Some m) ∈ evs -> m ∈ gots evs /\ (forall l sid g, EvUse j l sid g ∈ sess evs -> last_use m (sess evs) = Some (sid, g)) /\
    (exists o, c_ops (w_s s) !! j = Some o /\ o_kind o = KAccept /\ (w_pc s = WAccepting j (Some m) \/ exists r, o_pc o = PDone r));
  wv_cur : forall j m, w_pc s = WAccepting j m -> WCalls j m ∈ evs;
  wv_acc : k = LpClient -> forall m, WHanded (Some m) ∈ evs \/ w_pc s = WHand (Some m) -> exists j, WCalls j (Some m) ∈ evs /\ EvRet j (w_link s) KAccept ROk ∈ sess evs;
  wv_crash1 : w_crash s = true -> exists i, w_pc s = WAccepting i None;
  wv_crash2 : WCrash ∈ evs <-> w_crash s = true;
  wv_ret : WReturned ∈ evs -> w_pc s = WEnded;
}.

Lemma WInv_init k : WInv k w_init [].
Proof.
  split; cbn; try done; try (by intros ? ?%elem_of_nil); try (by intros ? ? ?%elem_of_nil); try (by intros ? ? [?%elem_of_nil|?]); try (by split; [intros ?%elem_of_nil|]); try (by intros ?%elem_of_nil).
  - by exists [].
  - intros _. split_and!; [done..|]. intros j m. apply not_elem_of_nil.
  - constructor.
Qed.

Lemma calls_inv s k p ev s2 evs2 : calls s k p ev = Some (s2, evs2) -> exists cls, c_panic (w_s s) = false /\ is_Some (c_links (w_s s) !! w_link s) /\
  s2 = W (cs_ops (c_ops (w_s s) ++ [Op (w_link s) k (w_ctx s) PStart]) (w_s s)) (w_ctx s) (w_link s) (p (length (c_ops (w_s s)))) (w_crash s) /\
  evs2 = WE (EvCall (length (c_ops (w_s s))) (w_link s) k) :: ev (length (c_ops (w_s s))) /\
  srun (w_s s) cls = Some (w_s s2, [EvCall (length (c_ops (w_s s))) (w_link s) k]).
Proof.
  unfold calls. intros H. exists (LOp (w_link s) k :: match w_ctx s with Some c => [LCtx (length (c_ops (w_s s))) c] | None => [] end).
  destruct (run sstep _ _) as [[s' e]|] eqn:E; [|discriminate H]. injection H as <- <-. pose proof E as E0. cbn [run] in E. unfold sstep at 1 in E.
  destruct (c_panic (w_s s)) eqn:Ep; [discriminate E|]. destruct (c_links (w_s s) !! w_link s) as [l|] eqn:El; [|discriminate E].
  split; [done|]. split; [by eexists|].
  assert (s' = cs_ops (c_ops (w_s s) ++ [Op (w_link s) k (w_ctx s) PStart]) (w_s s) /\ e = [EvCall (length (c_ops (w_s s))) (w_link s) k]) as [-> ->].
  { destruct (w_ctx s) as [c|]; cbn [run] in E; [|by injection E as <- <-]. unfold sstep in E. cbn in E. rewrite Ep, lookup_app_r, Nat.sub_diag in E by lia. cbn in E. injection E as <- <-. split; [|done].
    unfold cs_ops. cbn. f_equal. by rewrite insert_app_r_alt, Nat.sub_diag by lia. }
  split; [done|]. split; [done|]. done.
Qed.

Lemma not_calls_WE j m (e : list cev) : WCalls j m ∉ WE <$> e.
Proof. intros (x & Hx & _)%elem_of_list_fmap. discriminate Hx. Qed.
Lemma not_handed_WE m (e : list cev) : WHanded m ∉ WE <$> e.
Proof. intros (x & Hx & _)%elem_of_list_fmap. discriminate Hx. Qed.
Lemma not_crash_WE (e : list cev) : WCrash ∉ WE <$> e.
Proof. intros (x & Hx & _)%elem_of_list_fmap. discriminate Hx. Qed.
Lemma not_ret_WE (e : list cev) : WReturned ∉ WE <$> e.
Proof. intros (x & Hx & _)%elem_of_list_fmap. discriminate Hx. Qed.

Lemma WInv_sess k s evs lb s' e : WInv k s evs -> w_crash s = false ->
  match lb with LOp j _ => match w_pc s with WNew => true | _ => negb (j =? w_link s) end | LCtx i _ => bool_decide (current (w_pc s) <> Some i) | _ => true end = true ->
  sstep (w_s s) lb = Some (s', e) ->
  let crash := match w_pc s with WAccepting i None => existsb (fun x => match x with EvUse i' _ _ _ => i' =? i | _ => false end) e | _ => false end in
  WInv k (W s' (w_ctx s) (w_link s) (w_pc s) crash) (evs ++ (WE <$> e) ++ if crash then [WCrash] else []).
Proof.
  intros HI Hcr Hlb H crash. destruct (wv_run _ _ _ HI) as [cls Hr]. pose proof (ginv _ _ _ Hr) as HG.
  assert (srun c_init (cls ++ [lb]) = Some (s', sess evs ++ e)) as Hr2 by (rewrite run_app, Hr; cbn [run]; by rewrite H, app_nil_r).
  assert (sess (evs ++ (WE <$> e) ++ if crash then [WCrash] else []) = sess evs ++ e) as Es.
  { rewrite !sess_app, sess_WE. destruct crash; cbn; by rewrite app_nil_r. }
  assert (gots (evs ++ (WE <$> e) ++ if crash then [WCrash] else []) = gots evs) as Eg.
  { rewrite !gots_app, gots_WE. destruct crash; cbn; by rewrite app_nil_r. }
  assert (handed (evs ++ (WE <$> e) ++ if crash then [WCrash] else []) = handed evs) as Eh.
  { rewrite !handed_app, handed_WE. destruct crash; cbn; by rewrite app_nil_r. }
  assert (forall x, x ∈ evs ++ (WE <$> e) ++ (if crash then [WCrash] else []) <-> x ∈ evs \/ x ∈ WE <$> e \/ (crash = true /\ x = WCrash)) as Ein.
  { intros x. rewrite !elem_of_app. destruct crash; [rewrite elem_of_list_singleton|rewrite elem_of_nil]; naive_solver. }
  assert (forall m, m ∈ gots evs -> (exists o, c_ops s' !! m = Some o /\ o_link o = w_link s /\ o_kind o = KNext /\ o_pc o = PDone ROk) /\ last_use m (sess evs ++ e) = last_use m (sess evs)) as Hold.
  { intros m Hm. destruct (wv_old _ _ _ HI m Hm) as (o & Ho & El & Ek & Ep). destruct (done_stays _ _ _ _ _ _ _ _ HG H Ho Ep) as [(o' & Ho' & El' & Ek' & Ep') Hu].
    split; [exists o'; split_and!; congruence|]. by rewrite last_use_app, (no_use m e Hu). }
  assert (w_pc s <> WNew -> (forall i c, current (w_pc s) = Some i -> lb <> LCtx i c) /\ forall k0, lb <> LOp (w_link s) k0) as Hno.
  { intros Hn. split; [intros i c Hc ->; by apply bool_decide_eq_true in Hlb|]. intros k0 ->. destruct (w_pc s); try done; by rewrite Nat.eqb_refl in Hlb. }
  assert (w_pc s <> WNew -> sole s' (w_link s) (current (w_pc s)) /\ is_Some (c_links s' !! w_link s) /\
    ((c_links s' !! w_link s = c_links (w_s s) !! w_link s /\ (forall i o, current (w_pc s) = Some i -> c_ops (w_s s) !! i = Some o -> c_ops s' !! i = Some o) /\ (forall i l o g, EvUse i l o g ∈ e -> current (w_pc s) <> Some i) /\ (forall i k r, EvRet i (w_link s) k r ∉ e)) \/
     exists i o l p l' er ok, current (w_pc s) = Some i /\ reuses i o l e /\ o_kind o <> KSend /\ c_ops (w_s s) !! i = Some o /\ o_link o = w_link s /\ c_links (w_s s) !! w_link s = Some l /\
       ot (w_s s) i o l p l' er ok e /\ s' = upd (w_s s) i o p l' er ok)) as Hsplit.
  { intros Hn. destruct (Hno Hn) as [Hn1 Hn2]. destruct (wv_link _ _ _ HI Hn) as [Hso Hli].
    destruct (step_split _ _ _ _ _ _ _ HG Hso Hn2 Hn1 H Hli) as [Hs2 [(E1 & Hop & Hu & Hrt)|(i & o & l & Hc & Hown & Ho & El & Hl & Hcase)]].
    - split; [done|]. split; [by rewrite E1|]. left. split; [done|]. split; [done|]. split; [|done]. intros i l o g Hin. by apply (Hu i l o g).
    - assert (o_kind o <> KSend) as Hks.
      { pose proof (wv_kind _ _ _ HI) as Hkd. destruct (w_pc s); try discriminate Hc; injection Hc as ->; destruct Hkd as (o2 & Ho2 & Ek); congruence. }
      split; [done|]. destruct Hcase as [[Ep Ec]|(p & l' & er & ok & Ht & ->)].
      + exfalso. assert (exists l, c_links (w_s s) !! w_link s = Some l /\ at_pc o l) as (l2 & Hl2 & Ha).
        { pose proof (wv_open _ _ _ HI) as Hop. pose proof (wv_kind _ _ _ HI) as Hkd. destruct (w_pc s); try discriminate Hc; injection Hc as ->;
            try (by destruct Hop as (l2 & Hl2 & _ & (o2 & Ho2 & Ha & _) & _); exists l2; split; [done|]; congruence).
          destruct Hkd as (o2 & Ho2 & Ek). pose proof (ai_kind _ _ (ainv _ _ _ Hr) _ _ Ho) as Hak. rewrite Ep in Hak. congruence. }
        rewrite Hl in Hl2. injection Hl2 as <-. unfold at_pc in Ha. rewrite Ep in Ha. destruct Ha. congruence.
      + split; [unfold upd; cbn; rewrite El, list_lookup_insert by (by eapply lookup_lt_Some); by eexists|]. right. exists i, o, l, p, l', er, ok. split_and!; try done.
        eapply own_reuses; try done. by rewrite El. }
  assert (forall i o, current (w_pc s) = Some i -> c_ops (w_s s) !! i = Some o -> exists o', c_ops s' !! i = Some o' /\ o_kind o' = o_kind o /\ o_ctx o' = o_ctx o) as Hk.
  { intros i o Hc Ho. assert (w_pc s <> WNew) as Hn by (intros E; by rewrite E in Hc). destruct (Hsplit Hn) as (_ & _ & [(_ & Hop & _)|(i' & o' & l & p & l' & er & ok & Hc' & _ & _ & Ho' & _ & _ & _ & ->)]); [exists o; by split; [apply Hop|]|].
    assert (i' = i) as -> by congruence. assert (o' = o) as -> by congruence. unfold upd; cbn. rewrite list_lookup_insert by (by eapply lookup_lt_Some). eexists. by split; [reflexivity|]. }
  assert (forall i o, current (w_pc s) = Some i -> c_ops s' !! i = Some o -> o_kind o = KAccept -> forall m, m ∈ gots evs -> m <> i) as Hdiff.
  { intros i o Hc Ho Hkk m Hm ->. destruct (Hold _ Hm) as [(o2 & Ho2 & _ & Ek2 & _) _]. congruence. }
  assert (match w_pc s with WNew | WClosing _ | WEnded => True | p => exists l, c_links s' !! w_link s = Some l /\ sane l /\
      match current p with
      | None => l_lock l = false
      | Some i => exists o, c_ops s' !! i = Some o /\ at_pc o l /\ o_ctx o = w_ctx s /\ (crash = true \/ fine p (sess evs ++ e) o l)
      end /\
      match p with
      | WAccept (Some m) => exists ob, l_rcv l = (l_gen l, Some ob) /\ last_use m (sess evs ++ e) = Some (ob, l_gen l)
      | WAccept None => snd (l_rcv l) = None
      | _ => True
      end end) as Hopen.
  { pose proof (wv_open _ _ _ HI) as Hop. assert (w_pc s = WNew \/ w_pc s <> WNew) as [Hn|Hn] by (destruct (w_pc s); (by left) || by right); [by rewrite Hn|].
    destruct (Hsplit Hn) as (_ & _ & Hcase).
    assert (forall m, m ∈ inhand (w_pc s) -> m ∈ gots evs) as Hin.
    { intros m Hm. eapply (elem_of_submseteq _ _ m); [|apply sublist_submseteq, (wv_sub _ _ _ HI)]. apply elem_of_app. by right. }
    destruct Hcase as [(E1 & Eo & Hu & _)|(i & o & l & p & l' & er & ok & Hc & Hre & Hks & Ho & El & Hl & Ht & ->)].
    - assert (forall i o l, current (w_pc s) = Some i -> fine (w_pc s) (sess evs) o l -> fine (w_pc s) (sess evs ++ e) o l) as Hmore.
      { intros i o l Hc Hf. assert (last_use i (sess evs ++ e) = last_use i (sess evs)) as Hlu.
        { rewrite last_use_app, no_use; [done|]. intros l0 sid g Hx. by apply (Hu _ _ _ _ Hx). }
        destruct (w_pc s) as [| |i'|m|i' [m|]|m| |i'|]; try discriminate Hc; try done; injection Hc as ->; unfold fine in *.
        - rewrite Hlu. done.
        - destruct (Hold m) as [_ ->]; [apply Hin; left|]. destruct Hf as (H1 & (ob & H2 & H3 & H4) & H5). split; [done|]. split; [|done]. exists ob. split; [done|]. split; [done|].
          intros l0 sid g Hx. apply elem_of_app in Hx as [Hx|Hx]; [by apply (H4 l0)|]. by destruct (Hu _ _ _ _ Hx). }
      destruct (w_pc s) as [| |i|m|i m|m| |i|] eqn:Epc; try done; destruct Hop as (l & Hl & Hsn & Hcur & Hsp); exists l; rewrite E1; (split; [done|]; split; [done|]; split).
      all: try done.
      + destruct Hcur as (o & Ho & Ha & Hx & Hf). exists o. split; [by apply Eo|]. split; [done|]. split; [done|]. right. destruct Hf as [Hf|Hf]; [congruence|]. by apply (Hmore i).
      + destruct m as [m|]; [|done]. destruct Hsp as (ob & H1 & H2). exists ob. split; [done|]. destruct (Hold m) as [_ ->]; [apply Hin; left|done].
      + destruct Hcur as (o & Ho & Ha & Hx & Hf). exists o. split; [by apply Eo|]. split; [done|]. split; [done|]. right. destruct Hf as [Hf|Hf]; [congruence|]. by apply (Hmore i).
    - assert (forall l0 o0, at_pc o0 l0 -> w_pc s = WNext i \/ (exists m, w_pc s = WAccepting i m) -> c_links (w_s s) !! w_link s = Some l0 -> c_ops (w_s s) !! i = Some o0 -> sane l0 -> o_ctx o0 = w_ctx s ->
        fine (w_pc s) (sess evs) o0 l0 -> sane l' /\ at_pc (Op (o_link o) (o_kind o) (o_ctx o) p) l' /\ o_ctx o = w_ctx s /\ (crash = true \/ fine (w_pc s) (sess evs ++ e) (Op (o_link o) (o_kind o) (o_ctx o) p) l')) as Hgo.
      { intros l0 o0 Ha Hpc Hl0 Ho0 Hsn Hx Hf. rewrite Hl in Hl0. injection Hl0 as <-. rewrite Ho in Ho0. injection Ho0 as <-.
        assert (o_kind o <> KClose) as Hkc.
        { pose proof (wv_kind _ _ _ HI) as Hkd. destruct Hpc as [E|[m E]]; rewrite E in Hkd; destruct Hkd as (o2 & Ho2 & Ek2); congruence. }
        destruct (ot_keeps _ _ _ _ _ _ _ _ _ _ Hre HG Hsn Ha Hkc Hks Ho Ht) as [G1 G2]. split; [done|]. split; [done|]. split; [done|].
        assert (forall m, w_pc s = WAccepting i (Some m) -> m <> i) as Hmi.
        { intros m E. intros ->. destruct (Hold i) as [(o2 & Ho2 & _ & Ek2 & _) _]; [apply Hin; rewrite E; left|]. pose proof (wv_kind _ _ _ HI) as Hkd. rewrite E in Hkd. destruct Hkd as (o3 & Ho3 & Ek3).
          destruct (Hk _ _ Hc Ho3) as (o4 & Ho4 & Ek4 & _). congruence. }
        destruct (fine_own _ _ _ _ _ _ _ _ _ _ _ Hc Hmi Hre Hf Hsn Ha Ht) as [(E & ob & g & Hx2)|G3]; [left|by right].
        unfold crash. rewrite E. apply existsb_exists. eexists. split; [apply elem_of_list_In; exact Hx2|]. cbn. by apply Nat.eqb_refl. }
      destruct (w_pc s) as [| |i'|m|i' m|m| |i'|] eqn:Epc; try discriminate Hc; try done; injection Hc as ->; destruct Hop as (l0 & Hl0 & Hsn & (o0 & Ho0 & Ha & Hx & Hf) & _); (destruct Hf as [Hf|Hf]; [congruence|]);
        (destruct (Hgo l0 o0) as (G1 & G2 & G3 & G4); try done; [by (by left) || (right; by eexists)|]); exists l'; unfold upd; cbn [c_links c_ops]; rewrite El, list_lookup_insert by (by eapply lookup_lt_Some);
        (split; [done|]; split; [done|]; split; [|done]); eexists; (split; [apply list_lookup_insert; by eapply lookup_lt_Some|]); (split; [by rewrite <- El|]; split; [done|]); by rewrite <- El. }
  split; cbn [w_s w_pc w_ctx w_link w_crash]; rewrite ?Es, ?Eg, ?Eh.
  - by exists (cls ++ [lb]).
  - intros Hn. destruct (wv_new _ _ _ HI Hn) as (H1 & H2 & H3). split_and!; try done. intros j m. rewrite Ein. intros [Hin|[Hin|[_ Hin]]]; [by apply (H3 j m)|by apply not_calls_WE in Hin|done].
  - intros Hn. by destruct (Hsplit Hn) as (H1 & H2 & _).
  - exact Hopen.
  - apply (wv_told _ _ _ HI).
  - apply (wv_nil _ _ _ HI).
  - pose proof (wv_kind _ _ _ HI) as Hkd. destruct (w_pc s); try done; destruct Hkd as (o & Ho & Ek); destruct (Hk _ _ eq_refl Ho) as (o' & Ho' & Ek' & _); exists o'; split; congruence.
  - intros m Hm. by apply (Hold m Hm).
  - apply (wv_notyet _ _ _ HI).
  - apply (wv_nodup _ _ _ HI).
  - apply (wv_sub _ _ _ HI).
  - apply (wv_all _ _ _ HI).
  - intros Hn i. rewrite elem_of_app. intros [Hin|Hin]; [by apply (wv_lost _ _ _ HI Hn)|]. right.
    destruct (Hsplit Hn) as (_ & _ & [(_ & _ & _ & Hrt)|(i' & o & l & p & l' & er & ok & Hc & _ & _ & Ho & El & _ & Ht & Es')]); [by destruct (Hrt _ _ _ Hin)|].
    destruct (ot_rets _ _ _ _ _ _ _ _ _ Ht _ _ _ _ Hin) as [-> _]. assert (EvRet i' (w_link s) KNext ROk ∈ sess evs ++ e) as Hin2 by (apply elem_of_app; by right).
    destruct (ai_ret _ _ (ainv _ _ _ Hr2) _ _ _ _ Hin2) as (o2 & Ho2 & _ & Ek2 & _). destruct (Hk _ _ Hc Ho) as (o3 & Ho3 & Ek3 & _). pose proof (wv_kind _ _ _ HI) as Hkd.
    destruct (w_pc s); try discriminate Hc; injection Hc as ->; try done; destruct Hkd as (o4 & Ho4 & Ek4); congruence.
  - intros j m. rewrite Ein. intros [Hin|[Hin|[_ Hin]]]; [|by apply not_calls_WE in Hin|done]. destruct (wv_calls _ _ _ HI j m Hin) as (Hm & Hu & o & Ho & Ek & Hd).
    destruct (Hold _ Hm) as [_ Hlu]. split; [done|]. rewrite Hlu. destruct Hd as [Hpc|[r Hd]].
    + destruct (Hk j o) as (o2 & Ho2 & Ek2 & _); [by rewrite Hpc|done|]. split; [|exists o2; split; [done|]; split; [congruence|by left]].
      intros l sid g Hin2. rewrite Hpc in Hopen. destruct Hopen as (l2 & Hl2 & _ & (o3 & Ho3 & _ & _ & [Hf|Hf]) & _); [unfold crash in Hf; by rewrite Hpc in Hf|].
      destruct Hf as (_ & (ob & _ & Hlu2 & Hall) & _). rewrite <- Hlu, Hlu2. by destruct (Hall _ _ _ Hin2) as [-> ->].
    + destruct (done_stays _ _ _ _ _ _ _ _ HG H Ho Hd) as [(o' & Ho' & El' & Ek' & Ep') Hnu]. split; [|exists o'; split; [done|]; split; [congruence|right; by eexists]].
      intros l sid g Hin2. apply elem_of_app in Hin2 as [Hin2|Hin2]; [by apply (Hu l)|by destruct (Hnu _ _ _ Hin2)].
  - intros j m Hp. rewrite Ein. left. by apply (wv_cur _ _ _ HI).
  - intros Hkc m Hm. destruct (wv_acc _ _ _ HI Hkc m) as (j & Hj & Hret).
    { destruct Hm as [Hm|Hm]; [|by right]. left. apply Ein in Hm as [Hm|[Hm|[_ Hm]]]; [done|by apply not_handed_WE in Hm|done]. }
    exists j. split; [apply Ein; by left|]. apply elem_of_app. by left.
  - intros Hc. subst crash. destruct (w_pc s) as [| | | |i [m|]| | | |]; try discriminate Hc. by exists i.
  - rewrite Ein. split; [|intros ->; right; right; done]. intros [Hin|[Hin|[Hc _]]]; [|by apply not_crash_WE in Hin|done]. apply (wv_crash2 _ _ _ HI) in Hin. congruence.
  - rewrite Ein. intros [Hin|[Hin|[_ Hin]]]; [by apply (wv_ret _ _ _ HI)|by apply not_ret_WE in Hin|done].
Qed.

Lemma ops_keep s evs lb s2 ev i o : GInv s evs -> sstep s lb = Some (s2, ev) -> c_ops s !! i = Some o -> is_Some (c_ops s2 !! i).
Proof.
  intros HG H Hi. destruct (sstep_sc _ _ _ _ (gi_linked _ _ HG) H) as [Hc _].
  destruct Hc as [c Hb1 Hb2 -> ->|Hb1 Hb2 -> ->|j' k l Hb1 Hl -> ->|i0 o0 c Hb1 Ho Hx -> ->|i0 Hb1 Ho|Hc Hb1]; cbn.
  - by eexists.
  - by eexists.
  - exists o. by apply lookup_app_l_Some.
  - apply lookup_lt_is_Some. rewrite insert_length. by eapply lookup_lt_Some.
  - destruct Ho as [o1 l Ho Hl Hpc Hlock Hcr _|o1 l p l' er ok ev' Ho Hl Ht]; [by eexists|]. unfold upd; cbn. apply lookup_lt_is_Some. rewrite insert_length. by eapply lookup_lt_Some.
  - destruct (cont_frame _ _ _ _ Hc) as (E1 & _). rewrite E1. by eexists.
Qed.

Lemma used_exists cls s evs : srun c_init cls = Some (s, evs) -> forall i l ob g, EvUse i l ob g ∈ evs -> is_Some (c_ops s !! i).
Proof.
  revert s evs. induction cls as [|lb cls IH] using rev_ind; intros s evs H i l ob g Hin.
  - cbn in H. injection H as <- <-. by apply elem_of_nil in Hin.
  - apply run_snoc in H as (s1 & ev1 & ev2 & H1 & H2 & ->). pose proof (ginv _ _ _ H1) as HG. apply elem_of_app in Hin as [Hin|Hin].
    + destruct (IH _ _ H1 _ _ _ _ Hin) as [o Ho]. by apply (ops_keep _ _ _ _ _ _ _ HG H2 Ho).
    + destruct (sstep_sc _ _ _ _ (gi_linked _ _ HG) H2) as [Hc _].
      destruct Hc as [c Hb1 Hb2 -> ->|Hb1 Hb2 -> ->|j' k l' Hb1 Hl -> ->|i0 o0 c Hb1 Ho Hx -> ->|i0 Hb1 Ho|Hc Hb1]; try (by apply elem_of_list_singleton in Hin); try (by apply elem_of_nil in Hin).
      * destruct Ho as [o1 l1 Ho Hl Hpc Hlock Hcr _|o1 l1 p l' er ok ev' Ho Hl Ht]; [by apply elem_of_list_singleton in Hin|].
        destruct (ot_uses _ _ _ _ _ _ _ _ _ Ht _ _ _ _ Hin) as [-> _]. by apply (ops_keep _ _ _ _ _ _ _ HG H2 Ho).
      * destruct (cont_frame _ _ _ _ Hc) as (_ & _ & _ & Hu & _). by destruct (Hu _ _ _ _ Hin).
Qed.

(** The loop's context ends. *)
Lemma WInv_cancel k s evs c s' e : WInv k s evs -> w_crash s = false -> w_ctx s = None ->
  match current (w_pc s) with None => s' = w_s s /\ e = [] | Some i => sstep (w_s s) (LCtx i c) = Some (s', e) end ->
  WInv k (W s' (Some c) (w_link s) (w_pc s) (w_crash s)) (evs ++ (WE <$> e)).
Proof.
  intros HI Hcr Hx Hs. destruct (wv_run _ _ _ HI) as [cls Hr]. pose proof (ginv _ _ _ Hr) as HG.
  assert (e = []) as ->.
  { destruct (current (w_pc s)) as [i|]; [|by destruct Hs]. unfold sstep in Hs. destruct (c_panic (w_s s)); [discriminate Hs|]. cbn in Hs. destruct (c_ops (w_s s) !! i) as [o|]; [|discriminate Hs].
    destruct (o_ctx o); [discriminate Hs|]. by injection Hs as _ <-. }
  cbn. rewrite app_nil_r.
  assert (c_links s' = c_links (w_s s) /\ (forall i o, c_ops (w_s s) !! i = Some o -> exists o', c_ops s' !! i = Some o' /\ o_link o' = o_link o /\ o_kind o' = o_kind o /\ o_pc o' = o_pc o /\ (current (w_pc s) = Some i -> o_ctx o' = Some c)) /\
    (forall i o, c_ops s' !! i = Some o -> exists o', c_ops (w_s s) !! i = Some o' /\ o_link o = o_link o' /\ o_pc o = o_pc o') /\ exists cls, srun c_init cls = Some (s', sess evs)) as (El & Eo & Er & cls2 & Hr2).
  { destruct (current (w_pc s)) as [i|] eqn:Ec.
    - pose proof Hs as Hs0. unfold sstep in Hs. destruct (c_panic (w_s s)); [discriminate Hs|]. cbn in Hs. destruct (c_ops (w_s s) !! i) as [o|] eqn:Ho; [|discriminate Hs].
      destruct (o_ctx o) eqn:Eox; [discriminate Hs|]. injection Hs as <-. split; [done|]. split; [|split].
      + intros i' o' Ho'. cbn. destruct (decide (i = i')) as [<-|Hne].
        * rewrite list_lookup_insert by (by eapply lookup_lt_Some). eexists. split; [reflexivity|]. cbn. rewrite Ho in Ho'. by injection Ho' as <-.
        * rewrite list_lookup_insert_ne by done. exists o'. split_and!; try done. intros [= ->]. done.
      + intros i' o' Ho'. cbn in Ho'. apply list_lookup_insert_Some in Ho' as [(<- & <- & _)|[_ Ho']]; [by exists o|by exists o'].
      + exists (cls ++ [LCtx i c]). rewrite run_app, Hr. cbn [run]. rewrite Hs0. by rewrite !app_nil_r.
    - destruct Hs as [-> _]. split; [done|]. split; [intros i o Ho; by exists o|]. split; [intros i o Ho; by exists o|]. by exists cls. }
  destruct HI. split; cbn [w_s w_pc w_ctx w_link w_crash]; try done.
  - by exists cls2.
  - intros Hn. destruct (wv_link0 Hn) as [[H1 H2] H3]. split; [|by rewrite El]. split.
    + intros i o Ho Hl. destruct (Er _ _ Ho) as (o' & Ho' & E1 & E2). rewrite E1 in Hl. destruct (H1 _ _ Ho' Hl) as [?|Hd]; [by left|]. right. unfold is_done in *. by rewrite E2.
    + intros i Hi. destruct (H2 _ Hi) as (o & Ho & Hl). destruct (Eo _ _ Ho) as (o' & Ho' & E1 & _). exists o'. split; congruence.
  - assert (forall p i o l, current p = Some i -> p = w_pc s -> c_ops (w_s s) !! i = Some o -> at_pc o l -> o_ctx o = w_ctx s -> (w_crash s = true \/ fine p (sess evs) o l) -> exists o', c_ops s' !! i = Some o' /\ at_pc o' l /\ o_ctx o' = Some c /\ (w_crash s = true \/ fine p (sess evs) o' l)) as Hcur.
    { intros p i o l Hc -> Ho Ha Hox Hf. destruct (Eo _ _ Ho) as (o' & Ho' & E1 & E2 & E3 & E4). specialize (E4 Hc). exists o'. split; [done|]. split; [unfold at_pc in *; by rewrite E3|]. split; [done|]. right.
      destruct Hf as [Hf|Hf]; [congruence|]. rewrite Hx in Hox. unfold fine in *. rewrite E2, E3, E4. destruct (w_pc s) as [| |i'|m|i' [m|]|m| |i'|]; try done.
      - destruct Hf as [Hf1 Hf2]. split; [done|]. destruct (o_pc o) as [| | | | | | | | | | |[|e]]; try done. by destruct Hf2. }
    destruct (w_pc s) as [| |i|m|i m|m| |i|] eqn:Epc; try done; rewrite El; destruct wv_open0 as (l & Hl & Hsn & Hcu & Hsp); exists l; (split; [done|]; split; [done|]; split; [|done]); try done;
      destruct Hcu as (o & Ho & Ha & Hox & Hf); by eapply Hcur.
  - by destruct (w_pc s) as [| | |[]|? []|[]| | |].
  - destruct (w_pc s); try done; destruct wv_kind0 as (o & Ho & Ek); destruct (Eo _ _ Ho) as (o' & Ho' & _ & E & _); exists o'; split; congruence.
  - intros m Hm. destruct (wv_old0 m Hm) as (o & Ho & H1 & H2 & H3). destruct (Eo _ _ Ho) as (o' & Ho' & E1 & E2 & E3 & _). exists o'. split_and!; congruence.
  - intros j m Hin. destruct (wv_calls0 j m Hin) as (H1 & H2 & o & Ho & Ek & Hd). split; [done|]. split; [done|]. destruct (Eo _ _ Ho) as (o' & Ho' & E1 & E2 & E3 & _). exists o'. split; [done|]. split; [congruence|].
    destruct Hd as [Hd|[r Hd]]; [by left|]. right. exists r. congruence.
Qed.

(** The loop makes a call. *)
Lemma WInv_calls k s evs kd p ev s2 evs2 : WInv k s evs -> w_crash s = false -> calls s kd p ev = Some (s2, evs2) ->
  (w_pc s = WTop /\ kd = KNext /\ p = WNext /\ (ev = fun _ => [])) \/ (exists m, w_pc s = WAccept m /\ kd = KAccept /\ p = (fun j => WAccepting j m) /\ (ev = fun j => [WCalls j m])) \/
    (w_pc s = WClose /\ kd = KClose /\ p = WClosing /\ (ev = fun _ => [])) -> WInv k s2 (evs ++ evs2).
Proof.
  intros HI Hcr Hc Hcase. destruct (wv_run _ _ _ HI) as [cls Hr]. pose proof (ginv _ _ _ Hr) as HG.
  destruct (calls_inv _ _ _ _ _ _ Hc) as (cls2 & _ & Hlk & -> & -> & Hr2). cbn [w_s] in Hr2. set (n := length (c_ops (w_s s))) in *.
  assert (srun c_init (cls ++ cls2) = Some (cs_ops (c_ops (w_s s) ++ [Op (w_link s) kd (w_ctx s) PStart]) (w_s s), sess evs ++ [EvCall n (w_link s) kd])) as Hr3 by (by rewrite run_app, Hr, Hr2).
  assert (current (w_pc s) = None /\ w_pc s <> WNew /\ p n <> WNew /\ current (p n) = Some n /\ sess (ev n) = [] /\ gots (ev n) = [] /\ handed (ev n) = [] /\ inhand (p n) = inhand (w_pc s) /\
    (forall m, WHanded m ∉ ev n) /\ WCrash ∉ ev n /\ WReturned ∉ ev n /\ p n <> WEnded) as (Ec & Hn & Hn2 & Ec2 & Es & Eg & Eh & Ei & N1 & N2 & N3 & N4).
  { destruct Hcase as [(-> & _ & -> & ->)|[(m & -> & _ & -> & ->)|(-> & _ & -> & ->)]]; split_and!; try done; intros; try apply not_elem_of_nil; by rewrite elem_of_list_singleton. }
  assert (sess (evs ++ WE (EvCall n (w_link s) kd) :: ev n) = sess evs ++ [EvCall n (w_link s) kd]) as Es2 by (rewrite sess_app; cbn; fold (sess (ev n)); by rewrite Es).
  assert (gots (evs ++ WE (EvCall n (w_link s) kd) :: ev n) = gots evs) as Eg2 by (rewrite gots_app; cbn; fold (gots (ev n)); by rewrite Eg, app_nil_r).
  assert (handed (evs ++ WE (EvCall n (w_link s) kd) :: ev n) = handed evs) as Eh2 by (rewrite handed_app; cbn; fold (handed (ev n)); by rewrite Eh, app_nil_r).
  assert (forall x, x ∈ evs ++ WE (EvCall n (w_link s) kd) :: ev n <-> x ∈ evs \/ x = WE (EvCall n (w_link s) kd) \/ x ∈ ev n) as Ein by (intros x; by rewrite elem_of_app, elem_of_cons).
  assert (forall i, last_use i (sess evs ++ [EvCall n (w_link s) kd]) = last_use i (sess evs)) as Elu by (intros i; by rewrite last_use_app).
  assert (forall i l ob g, EvUse i l ob g ∈ sess evs ++ [EvCall n (w_link s) kd] -> EvUse i l ob g ∈ sess evs) as Eus.
  { intros i l ob g Hin. apply elem_of_app in Hin as [Hin|Hin]; [done|]. by apply elem_of_list_singleton in Hin. }
  assert (forall l ob g, EvUse n l ob g ∉ sess evs) as Hfr.
  { intros l ob g Hin. destruct (used_exists _ _ _ Hr _ _ _ _ Hin) as [o Ho]. apply lookup_lt_Some in Ho. unfold n in Ho. lia. }
  assert (forall i o, c_ops (w_s s) !! i = Some o -> (c_ops (w_s s) ++ [Op (w_link s) kd (w_ctx s) PStart]) !! i = Some o) as Hkeep by (intros i o Ho; by apply lookup_app_l_Some).
  assert ((c_ops (w_s s) ++ [Op (w_link s) kd (w_ctx s) PStart]) !! n = Some (Op (w_link s) kd (w_ctx s) PStart)) as Hnew by (rewrite lookup_app_r by lia; unfold n; by rewrite Nat.sub_diag).
  assert (forall m, m ∈ inhand (w_pc s) -> m ∈ gots evs) as Hih.
  { intros m Hm. eapply (elem_of_submseteq _ _ m); [|apply sublist_submseteq, (wv_sub _ _ _ HI)]. apply elem_of_app. by right. }
  destruct HI. split; cbn [w_s w_pc w_ctx w_link w_crash cs_ops c_ops c_links]; rewrite ?Es2, ?Eg2, ?Eh2, ?Ei; try done.
  - by eexists.
  - intros _. destruct (wv_link0 Hn) as [[H1 H2] H3]. split; [|done]. rewrite Ec2. split; cbn [c_ops].
    + intros i o Ho El. apply lookup_app_Some in Ho as [Ho|[Hle Ho]].
      * destruct (H1 _ _ Ho El) as [Hx|Hd]; [congruence|by right].
      * apply list_lookup_singleton_Some in Ho as [E _]. left. f_equal. unfold n. lia.
    + intros i [= <-]. eexists. split; [exact Hnew|done].
  - rewrite Hcr. destruct Hcase as [(Ep & -> & -> & ->)|[(m & Ep & -> & -> & ->)|(Ep & -> & -> & ->)]]; [| |done]; rewrite Ep in wv_open0, wv_nil0, wv_told0, Hih; destruct wv_open0 as (l & Hl & Hsn & Hlo & Hsp); exists l; (split; [done|]; split; [done|]; split; [|done]); cbn [current] in *;
      eexists; (split; [exact Hnew|]); (split; [done|]; split; [done|]); right; unfold fine; cbn; [done|].
    destruct m as [m|]; [|done]. rewrite Elu. destruct Hsp as (ob & E1 & E2). split; [done|]. split; [|done]. exists ob. split; [done|]. split; [done|]. intros l' sid g Hin. by destruct (Hfr _ _ _ (Eus _ _ _ _ Hin)).
  - by destruct Hcase as [(Ep & -> & -> & ->)|[(m & Ep & -> & -> & ->)|(Ep & -> & -> & ->)]]; rewrite Ep in *.
  - by destruct Hcase as [(Ep & -> & -> & ->)|[(m & Ep & -> & -> & ->)|(Ep & -> & -> & ->)]]; rewrite Ep in *.
  - destruct Hcase as [(Ep & -> & -> & ->)|[(m & Ep & -> & -> & ->)|(Ep & -> & -> & ->)]]; eexists; (split; [exact Hnew|done]).
  - intros m Hm. destruct (wv_old0 m Hm) as (o & Ho & H1). exists o. split; [by apply Hkeep|done].
  - intros i Hi Hg. destruct (wv_old0 i Hg) as (o & Ho & _). rewrite Hi in Ec2. injection Ec2 as ->. apply lookup_lt_Some in Ho. unfold n in Ho. lia.
  - intros _ i Hin. apply elem_of_app in Hin as [Hin|Hin]; [|by apply elem_of_list_singleton in Hin]. destruct (wv_lost0 Hn i Hin) as [?|Hp]; [by left|]. rewrite Hp in Ec. done.
  - intros j m Hin. rewrite Elu. apply Ein in Hin as [Hin|[Hin|Hin]]; [|done|].
    + destruct (wv_calls0 j m Hin) as (H1 & H2 & o & Ho & Ek & Hd). split; [done|]. split; [intros l sid g Hx; apply (H2 l sid g), Eus, Hx|]. exists o. split; [by apply Hkeep|]. split; [done|]. right.
      destruct Hd as [Hd|Hd]; [|done]. rewrite Hd in Ec. done.
    + destruct Hcase as [(Ep & -> & -> & ->)|[(m' & Ep & -> & -> & ->)|(Ep & -> & -> & ->)]]; try (by apply elem_of_nil in Hin). apply elem_of_list_singleton in Hin as [= -> <-].
      split; [apply Hih; rewrite Ep; left|]. split; [intros l sid g Hx; by destruct (Hfr _ _ _ (Eus _ _ _ _ Hx))|]. eexists. split; [exact Hnew|]. split; [done|]. by left.
  - intros j m Hp. apply Ein. right. right. destruct Hcase as [(Ep & -> & -> & ->)|[(m' & Ep & -> & -> & ->)|(Ep & -> & -> & ->)]]; try discriminate Hp. injection Hp as <- <-. left.
  - intros Hk m Hm. destruct (wv_acc0 Hk m) as (j & Hj & Hret).
    + destruct Hm as [Hm|Hm]; [left; apply Ein in Hm as [Hm|[Hm|Hm]]; [done|done|by destruct (N1 (Some m))]|]. exfalso. rewrite Hm in Ec2. done.
    + exists j. split; [apply Ein; by left|]. apply elem_of_app. by left.
  - intros Hx. congruence.
  - rewrite Ein. split; [|intros Hx; congruence]. intros [Hin|[Hin|Hin]]; [by apply wv_crash4 in Hin|done|done].
  - rewrite Ein. intros [Hin|[Hin|Hin]]; [|done|done]. specialize (wv_ret0 Hin). by destruct Hcase as [(Ep & _)|[(m & Ep & _)|(Ep & _)]]; rewrite Ep in wv_ret0.
Qed.

(** The loop opens its link. *)
Lemma WInv_new k s evs s' e : WInv k s evs -> w_crash s = false -> w_pc s = WNew -> sstep (w_s s) LLink = Some (s', e) ->
  WInv k (W s' (w_ctx s) (length (c_links (w_s s))) WTop (w_crash s)) (evs ++ (WE <$> e)).
Proof.
  intros HI Hcr Hp H. destruct (wv_run _ _ _ HI) as [cls Hr]. pose proof (ginv _ _ _ Hr) as HG.
  assert (srun c_init (cls ++ [LLink]) = Some (s', sess evs ++ e)) as Hr2 by (rewrite run_app, Hr; cbn [run]; by rewrite H, app_nil_r).
  unfold sstep in H. destruct (c_panic (w_s s)); [discriminate H|]. destruct (c_lock (w_s s)); [discriminate H|]. injection H as <- <-.
  assert (forall i o, c_ops (w_s s) !! i = Some o -> o_link o < length (c_links (w_s s))) as Hli.
  { intros i o Ho. destruct (gi_linked _ _ HG _ _ Ho) as [l Hl]. by eapply lookup_lt_Some. }
  destruct HI. destruct (wv_new0 Hp) as (G1 & G2 & G3).
  assert (forall x, x ∈ evs ++ [WE (EvLink (length (c_links (w_s s))))] -> x ∈ evs \/ x = WE (EvLink (length (c_links (w_s s))))) as Ein by (intros x; by rewrite elem_of_app, elem_of_list_singleton).
  split; cbn [w_s w_pc w_ctx w_link w_crash cs_links c_ops c_links fmap list_fmap]; rewrite ?sess_app, ?gots_app, ?handed_app; cbn; rewrite ?app_nil_r, ?G1, ?G2; try done.
  - by eexists.
  - intros _. split; [split; [|done]|]; cbn.
    + intros i o Ho El. specialize (Hli _ _ Ho). lia.
    + rewrite lookup_app_r, Nat.sub_diag by lia. by eexists.
  - eexists. split; [rewrite lookup_app_r, Nat.sub_diag by lia; reflexivity|]. done.
  - intros m Hm. by apply elem_of_nil in Hm.
  - constructor.
  - intros _ i Hin. apply elem_of_app in Hin as [Hin|Hin]; [|by apply elem_of_list_singleton in Hin].
    destruct (ai_ret _ _ (ainv _ _ _ Hr) _ _ _ _ Hin) as (o & Ho & El & _). specialize (Hli _ _ Ho). lia.
  - intros j m Hin. apply Ein in Hin as [Hin|Hin]; [by destruct (G3 _ _ Hin)|done].
  - intros _ m [Hm|Hm]; [|done]. apply Ein in Hm as [Hm|Hm]; [|done]. exfalso.
    assert (Some m ∈ handed evs) as Hx by (apply elem_of_list_omap; by exists (WHanded (Some m))). rewrite G2 in Hx. by apply elem_of_nil in Hx.
  - intros Hc. congruence.
  - split; [|intros Hc; congruence]. intros Hin. apply Ein in Hin as [Hin|Hin]; [by apply wv_crash4|done].
  - intros Hin. apply Ein in Hin as [Hin|Hin]; [|done]. specialize (wv_ret0 Hin). congruence.
Qed.

(** A step of the loop that is no call. *)
Lemma WInv_to k s evs p ev : WInv k s evs -> w_crash s = false -> w_pc s <> WNew -> p <> WNew -> sess ev = [] -> current p = None -> (forall i, current (w_pc s) = Some i -> exists r, result s i = Some r) ->
  (forall m, m ∈ gots ev -> w_pc s = WNext m /\ result s m = Some ROk) -> NoDup (gots ev) ->
  (match p with WNew | WClosing _ | WEnded => True | p => exists l, c_links (w_s s) !! w_link s = Some l /\ sane l /\ l_lock l = false /\
      match p with
      | WAccept (Some m) => exists ob, l_rcv l = (l_gen l, Some ob) /\ last_use m (sess evs) = Some (ob, l_gen l)
      | WAccept None => snd (l_rcv l) = None
      | _ => True
      end end) ->
  (match p with WAccept None | WAccepting _ None | WHand None | WClose | WClosing _ | WEnded => w_ctx s <> None | _ => True end) ->
  (match p with WAccept None | WAccepting _ None | WHand None => k = LpFlush | _ => True end) ->
  (omap id (handed (evs ++ ev)) ++ inhand p `sublist_of` gots (evs ++ ev)) ->
  (k <> LpClient -> omap id (handed (evs ++ ev)) ++ inhand p = gots (evs ++ ev)) ->
  (forall i, w_pc s = WNext i -> result s i = Some ROk -> i ∈ gots ev) ->
  (forall j m, WCalls j m ∉ ev) ->
  (k = LpClient -> forall m, WHanded (Some m) ∈ ev \/ p = WHand (Some m) -> (w_pc s = WHand (Some m) \/ exists j, w_pc s = WAccepting j (Some m) /\ result s j = Some ROk)) ->
  WCrash ∉ ev -> (WReturned ∈ ev -> p = WEnded) -> w_pc s <> WEnded ->
  WInv k (to p s) (evs ++ ev).
Proof.
  intros HI Hcr Hn Hn2 Es Ec Hdone Hgot Hnd Hopen Htold Hnil Hsub Hall Hlost Hnc Hacc N1 N2 N3.
  destruct (wv_run _ _ _ HI) as [cls Hr].
  assert (sess (evs ++ ev) = sess evs) as Es2 by (by rewrite sess_app, Es, app_nil_r).
  assert (forall i r, current (w_pc s) = Some i -> result s i = Some r -> exists o, c_ops (w_s s) !! i = Some o /\ o_pc o = PDone r /\ o_link o = w_link s) as Hres.
  { intros i r Hc Hx. unfold result in Hx. destruct (wv_link _ _ _ HI Hn) as [[_ H2] _]. destruct (H2 _ Hc) as (o & Ho & El). rewrite Ho in Hx. exists o. split; [done|]. split; [|done]. destruct (o_pc o); try discriminate Hx. by injection Hx as ->. }
  pose proof HI as HI0. destruct HI. split; cbn [w_s w_pc w_ctx w_link w_crash to]; rewrite ?Es2; try done.
  - intros _. destruct (wv_link0 Hn) as [[H1 H2] H3]. split; [|done]. rewrite Ec. split; [|done]. intros i o Ho El. right. destruct (H1 _ _ Ho El) as [Hc|Hd]; [|done].
    destruct (Hdone _ Hc) as [r Hx]. destruct (Hres _ _ Hc Hx) as (o' & Ho' & Ep & _). assert (o' = o) as -> by congruence. unfold is_done. by rewrite Ep.
  - by destruct p.
  - by destruct p.
  - intros m Hm. rewrite gots_app in Hm. apply elem_of_app in Hm as [Hm|Hm]; [by apply wv_old0|]. destruct (Hgot _ Hm) as [Hp Hx]. destruct (Hres m ROk) as (o & Ho & Ep & El); [by rewrite Hp|done|].
    rewrite Hp in wv_kind0. destruct wv_kind0 as (o2 & Ho2 & Ek). exists o. split_and!; try done. congruence.
  - intros i ->. done.
  - rewrite gots_app. apply NoDup_app. split; [done|]. split; [|done]. intros m Hm Hm2. destruct (Hgot _ Hm2) as [Hp _]. by apply (wv_notyet0 m).
  - intros _ i Hin. left. rewrite gots_app, elem_of_app. destruct (wv_lost0 Hn i Hin) as [?|Hp]; [by left|]. right. apply Hlost; [done|].
    destruct (ai_ret _ _ (ainv _ _ _ Hr) _ _ _ _ Hin) as (o & Ho & _ & _ & Ep). unfold result. by rewrite Ho, Ep.
  - intros j m Hin. apply elem_of_app in Hin as [Hin|Hin]; [|by destruct (Hnc _ _ Hin)]. destruct (wv_calls0 j m Hin) as (H1 & H2 & o & Ho & Ek & Hd). split; [rewrite gots_app, elem_of_app; by left|]. split; [done|].
    exists o. split; [done|]. split; [done|]. right. destruct Hd as [Hd|Hd]; [|done]. destruct (Hdone j) as [r Hx]; [by rewrite Hd|]. destruct (Hres j r) as (o' & Ho' & Ep & _); [by rewrite Hd|done|]. exists r. congruence.
  - intros j m ->. done.
  - intros Hk m Hm. assert (exists j, WCalls j (Some m) ∈ evs /\ EvRet j (w_link s) KAccept ROk ∈ sess evs) as (j & Hj & Hret).
    { rewrite elem_of_app in Hm. assert (WHanded (Some m) ∈ evs \/ (WHanded (Some m) ∈ ev \/ p = WHand (Some m))) as [Hm2|Hm2] by tauto; [by apply wv_acc0; [|left]|].
      destruct (Hacc Hk _ Hm2) as [Hp|(j & Hp & Hx)]; [by apply wv_acc0; [|right]|]. exists j. split; [by apply wv_cur0|]. destruct (Hres j ROk) as (o & Ho & Ep & El); [by rewrite Hp|done|].
      pose proof (ai_done _ _ (ainv _ _ _ Hr) _ _ _ Ho Ep) as Hret. rewrite Hp in wv_kind0. destruct wv_kind0 as (o2 & Ho2 & Ek). rewrite <- El. replace KAccept with (o_kind o) by congruence. done. }
    exists j. split; [|done]. apply elem_of_app. by left.
  - intros Hx. congruence.
  - rewrite elem_of_app. split; [|intros Hx; congruence]. intros [Hin|Hin]; [by apply wv_crash4|done].
  - rewrite elem_of_app. intros [Hin|Hin]; [|by apply N2]. by destruct N3; apply wv_ret0.
Qed.

Lemma WInv_step k s evs lb s2 ev : WInv k s evs -> wstep k s lb = Some (s2, ev) -> WInv k s2 (evs ++ ev).
Proof.
  intros HI H. unfold wstep in H. destruct (w_crash s) eqn:Hcr; [discriminate H|]. destruct lb as [lb|c|].
  - destruct (match lb with LOp j _ => _ | LCtx i _ => _ | _ => _ end) eqn:Hlb; [|discriminate H]. destruct (sstep (w_s s) lb) as [[s' e]|] eqn:Hs; [|discriminate H].
    pose proof (WInv_sess _ _ _ _ _ _ HI Hcr Hlb Hs) as HW. cbn zeta in H, HW. by injection H as <- <-.
  - destruct (w_ctx s) eqn:Hx; [discriminate H|]. pose proof (fun s' e => WInv_cancel k s evs c s' e HI Hcr Hx) as HW. destruct (current (w_pc s)) as [i|].
    + destruct (sstep (w_s s) (LCtx i c)) as [[s' e]|]; [|discriminate H]. injection H as <- <-. rewrite <- Hcr. by apply HW.
    + injection H as <- <-. rewrite <- Hcr. exact (HW (w_s s) [] (conj eq_refl eq_refl)).
  - pose proof (wv_open _ _ _ HI) as Hop. pose proof (wv_told _ _ _ HI) as Hto. pose proof (wv_nil _ _ _ HI) as Hni. pose proof (wv_sub _ _ _ HI) as Hsub. pose proof (wv_all _ _ _ HI) as Hall.
    destruct (w_pc s) as [| |i|m|i m|m| |i|] eqn:Ep; cbn [current] in Hop.
    + destruct (sstep (w_s s) LLink) as [[s' e]|] eqn:Hs; [|discriminate H]. injection H as <- <-. rewrite <- Hcr. by apply WInv_new.
    + eapply WInv_calls; [done..|]. left. done.
    + destruct (result s i) as [r|] eqn:Er; [|discriminate H]. cbn zeta in H. injection H as <- <-. destruct Hop as (l & Hl & Hsn & (o & Ho & Ha & Hox & [Hf|Hf]) & _); [congruence|].
      assert (o_pc o = PDone r) as Epc by (unfold result in Er; rewrite Ho in Er; destruct (o_pc o); try discriminate Er; by injection Er as ->).
      unfold at_pc in Ha. unfold fine in Hf. rewrite Epc in Ha, Hf. destruct Hf as [Hk Hf].
      assert (forall i0, current (WNext i) = Some i0 -> exists r0, result s i0 = Some r0) as Hd by (intros i0 [= <-]; by eexists).
      assert (forall p, sess [] = [] /\ (forall m, m ∈ gots [] -> WNext i = WNext m /\ result s m = Some ROk) /\ NoDup (gots []) /\ (forall j m, WCalls j m ∉ []) /\ WCrash ∉ [] /\ (WReturned ∈ [] -> p = WEnded)) as Hnil.
      { intros p. split_and!; try done; try (by intros ? ?%elem_of_nil); try (by intros ? ? ?%elem_of_nil); try constructor; try (apply not_elem_of_nil); try (by intros ?%elem_of_nil). }
      cbn [inhand] in Hsub, Hall.
      assert (r <> ROk -> forall p, p <> WNew -> current p = None -> inhand p = [] ->
        (match p with WNew | WClosing _ | WEnded => True | p => exists l, c_links (w_s s) !! w_link s = Some l /\ sane l /\ l_lock l = false /\
          match p with
          | WAccept (Some m) => exists ob, l_rcv l = (l_gen l, Some ob) /\ last_use m (sess evs) = Some (ob, l_gen l)
          | WAccept None => snd (l_rcv l) = None
          | _ => True
          end end) -> (match p with WAccept None | WAccepting _ None | WHand None | WClose | WClosing _ | WEnded => w_ctx s <> None | _ => True end) ->
         (match p with WAccept None | WAccepting _ None | WHand None => k = LpFlush | _ => True end) -> WInv k (to p s) (evs ++ [])) as Hgo.
      { intros Hr p P1 P2 P3 P4 P5 P6. destruct (Hnil p) as (Q1 & Q2 & Q3 & Q4 & Q5 & Q6). apply WInv_to; rewrite ?Ep; try done.
        - by rewrite handed_app, gots_app, !app_nil_r, P3, app_nil_r in *.
        - intros Hkc. specialize (Hall Hkc). by rewrite handed_app, gots_app, !app_nil_r, P3, app_nil_r in *.
        - intros i0 [= <-]. congruence.
        - intros _ m [Hm|Hm]; [by apply elem_of_nil in Hm|]. rewrite Hm in P3. done. }
      destruct r as [|e]; cbn [after_next fst snd].
      * destruct Hf as (ob & Hrc & Hlu). apply WInv_to; rewrite ?Ep; try done.
        -- intros m Hm. apply elem_of_list_singleton in Hm as ->. done.
        -- apply NoDup_singleton.
        -- exists l. split; [done|]. split; [done|]. split; [done|]. by exists ob.
        -- rewrite handed_app, gots_app. cbn. rewrite !app_nil_r in *. by apply sublist_skips_r with (k := []) || (apply sublist_app; [done|reflexivity]).
        -- intros Hkc. rewrite handed_app, gots_app. cbn. specialize (Hall Hkc). rewrite !app_nil_r in *. by rewrite Hall.
        -- intros i0 [= <-] _. left.
        -- intros j m. by rewrite elem_of_list_singleton.
        -- intros _ m [Hm|Hm]; [by apply elem_of_list_singleton in Hm|done].
        -- by rewrite elem_of_list_singleton.
        -- by rewrite elem_of_list_singleton.
      * destruct Hf as [Hxo Hf]. rewrite Hox in Hxo, Hf.
        assert (WInv k (to WClose s) (evs ++ [])) as G1 by (apply Hgo; [done|done|done|done|by exists l|done|done]).
        assert (WInv k (to WTop s) (evs ++ [])) as G2 by (apply Hgo; [done|done|done|done|by exists l|done|done]).
        assert (is_own s e = false -> k = LpFlush -> WInv k (to (WAccept None) s) (evs ++ [])) as G3.
        { intros Hi Hkf. apply Hgo; try done. exists l. split_and!; try done. destruct Hf as [Hf|Hf]; [|done]. unfold is_own in Hi. destruct (w_ctx s) as [c|]; [|done]. cbn in Hf. injection Hf as <-. by rewrite bool_decide_eq_true_2 in Hi. }
        destruct k; cbn [fst snd]; try done; destruct (is_own s e) eqn:Ei; try done. by apply G3.
    + eapply WInv_calls; [done..|]. right. left. by exists m.
    + destruct (result s i) as [r|] eqn:Er; [|discriminate H]. injection H as <- <-. destruct Hop as (l & Hl & Hsn & (o & Ho & Ha & Hox & [Hf|Hf]) & _); [congruence|].
      assert (o_pc o = PDone r) as Epc by (unfold result in Er; rewrite Ho in Er; destruct (o_pc o); try discriminate Er; by injection Er as ->).
      unfold at_pc in Ha. rewrite Epc in Ha.
      assert (WInv LpClient s evs -> k = LpClient -> r <> ROk -> forall p, p = WTop \/ p = WClose /\ w_ctx s <> None -> WInv LpClient (to p s) (evs ++ [])) as Hgo.
      { intros _ -> Hr p Hp. apply WInv_to; rewrite ?Ep; try done; try (by destruct Hp as [->|[-> ?]]); try (by intros ? ?%elem_of_nil); try (by intros ? ? ?%elem_of_nil); try (apply not_elem_of_nil); try (by intros ?%elem_of_nil).
        - intros i0 [= <-]. by eexists.
        - constructor.
        - destruct Hp as [->|[-> ?]]; by exists l.
        - rewrite handed_app, gots_app, !app_nil_r. assert (inhand p = []) as -> by (by destruct Hp as [->|[-> ?]]). rewrite app_nil_r. etrans; [|exact Hsub]. apply sublist_inserts_r. reflexivity.
        - intros _ m' [Hm|Hm]; [by apply elem_of_nil in Hm|]. by destruct Hp as [->|[-> ?]]. }
      assert ((k = LpClient -> r = ROk) -> WInv k (to (WHand m) s) (evs ++ [])) as Hh.
      { intros Hr. apply WInv_to; rewrite ?Ep; try done; try (by intros ? ?%elem_of_nil); try (by intros ? ? ?%elem_of_nil); try (apply not_elem_of_nil); try (by intros ?%elem_of_nil).
        - intros i0 [= <-]. by eexists.
        - constructor.
        - by exists l.
        - by rewrite handed_app, gots_app, !app_nil_r.
        - intros Hkc. rewrite handed_app, gots_app, !app_nil_r. by apply Hall.
        - intros Hkc m' [Hm|Hm]; [by apply elem_of_nil in Hm|]. injection Hm as ->. right. exists i. split; [done|]. by rewrite <- (Hr Hkc). }
      unfold after_accept. destruct k; [|by apply Hh..]. destruct r as [|e]; [by apply Hh|]. apply Hgo; try done. unfold is_own. destruct (w_ctx s) eqn:Ex; [destruct (bool_decide _)|]; [by right|by left|by left].
    + injection H as <- <-. destruct Hop as (l & Hl & Hsn & Hlo & _). apply WInv_to; rewrite ?Ep; try done; try (by intros ? ?%elem_of_nil); try (by intros ? ? ?%elem_of_nil).
      * constructor.
      * by exists l.
      * rewrite handed_app, gots_app, omap_app. cbn. rewrite !app_nil_r. destruct m as [m|]; cbn; done.
      * intros Hkc. rewrite handed_app, gots_app, omap_app. cbn. rewrite !app_nil_r. specialize (Hall Hkc). destruct m as [m|]; cbn; done.
      * intros j m'. by rewrite elem_of_list_singleton.
      * intros _ m' [Hm|Hm]; [|done]. apply elem_of_list_singleton in Hm as [= ->]. by left.
      * by rewrite elem_of_list_singleton.
      * by rewrite elem_of_list_singleton.
    + eapply WInv_calls; [done..|]. right. right. done.
    + destruct (result s i) as [r|] eqn:Er; [|discriminate H]. injection H as <- <-. apply WInv_to; rewrite ?Ep; try done; try (by intros ? ?%elem_of_nil); try (by intros ? ? ?%elem_of_nil).
      * intros i0 [= <-]. by eexists.
      * constructor.
      * by rewrite handed_app, gots_app; cbn; rewrite !app_nil_r in *.
      * intros Hkc. rewrite handed_app, gots_app; cbn; specialize (Hall Hkc); by rewrite !app_nil_r in *.
      * intros j m'. by rewrite elem_of_list_singleton.
      * intros _ m' [Hm|Hm]; [|done]. by apply elem_of_list_singleton in Hm.
      * by rewrite elem_of_list_singleton.
    + done.
Qed.

Lemma winv k ls s evs : wrun k w_init ls = Some (s, evs) -> WInv k s evs.
Proof.
  intros Hr. change evs with ([] ++ evs). eapply (run_inv (wstep k) (WInv k) (fun _ => True) w_init []) with (4 := Hr).
  - apply WInv_init.
  - intros s1 evs1 l s2 ev HI _ H. by eapply WInv_step.
  - by apply Forall_forall.
Qed.

(** ** What the runs of the loop show *)

(** Against the labels: the context and the container's part. *)
Lemma labels k ls s evs : wrun k w_init ls = Some (s, evs) ->
  (forall c, w_ctx s = Some c <-> WCancel c ∈ ls) /\
  exists cls, srun c_init cls = Some (w_s s, sess evs) /\ (forall lb, lb ∈ cls -> WSess lb ∈ ls \/ match lb with LOp _ _ | LCtx _ _ | LLink => True | _ => False end) /\ forall lb, WSess lb ∈ ls -> lb ∈ cls.
Proof.
  revert s evs. induction ls as [|l ls IH] using rev_ind; intros s evs Hr.
  - injection Hr as <- <-. split; [intros c; split; [done|by intros ?%elem_of_nil]|]. exists []. split; [done|]. split; by intros lb ?%elem_of_nil.
  - apply run_snoc in Hr as (s1 & ev1 & ev2 & H1 & H2 & ->). destruct (IH _ _ H1) as [Hx (cls & Hc & Hin & Hin')].
    assert (forall cls2 s' e, srun (w_s s1) cls2 = Some (s', e) -> srun c_init (cls ++ cls2) = Some (s', sess ev1 ++ e)) as Hjoin by (intros cls2 s' e Hs; by rewrite run_app, Hc, Hs).
    assert (forall cls2, (forall lb, lb ∈ cls2 -> l = WSess lb \/ match lb with LOp _ _ | LCtx _ _ | LLink => True | _ => False end) ->
      (forall lb, l = WSess lb -> lb ∈ cls2) ->
      (forall lb, lb ∈ cls ++ cls2 -> WSess lb ∈ ls ++ [l] \/ match lb with LOp _ _ | LCtx _ _ | LLink => True | _ => False end) /\ forall lb, WSess lb ∈ ls ++ [l] -> lb ∈ cls ++ cls2) as Hmore.
    { intros cls2 H H'. split; [|intros lb Hlb; apply elem_of_app in Hlb as [Hlb|Hlb]; apply elem_of_app; [left; by apply Hin'|right; apply elem_of_list_singleton in Hlb; by apply H']]. intros lb Hlb. rewrite elem_of_app in Hlb. rewrite elem_of_app, elem_of_list_singleton. destruct Hlb as [Hlb|Hlb]; [destruct (Hin _ Hlb) as [?|?]; [left; by left|by right]|]. destruct (H _ Hlb) as [<-|?]; [left; by right|by right]. }
    assert (forall p kd ev, calls s1 kd p ev = Some (s, ev2) -> (forall i, sess (ev i) = []) -> (forall lb, l <> WSess lb) -> w_ctx s = w_ctx s1 /\
      exists cls, srun c_init cls = Some (w_s s, sess (ev1 ++ ev2)) /\ (forall lb, lb ∈ cls -> WSess lb ∈ ls ++ [l] \/ match lb with LOp _ _ | LCtx _ _ | LLink => True | _ => False end) /\ forall lb, WSess lb ∈ ls ++ [l] -> lb ∈ cls) as Hcalls.
    { intros p kd ev Hcs He Hl. unfold calls in Hcs. destruct (run sstep (w_s s1) _) as [[s' e]|] eqn:E; [|discriminate Hcs]. injection Hcs as <- <-. split; [done|]. cbn [w_s].
      eexists. split; [rewrite sess_app, sess_app, sess_WE, He, app_nil_r; apply (Hjoin _ _ _ E)|]. apply Hmore; [|intros lb ->; by destruct (Hl lb)]. intros lb Hlb. right. destruct (w_ctx s1); repeat (apply elem_of_cons in Hlb as [->|Hlb]; [done|]); by apply elem_of_nil in Hlb. }
    assert ((w_ctx s = w_ctx s1 /\ forall c, l <> WCancel c) \/ w_ctx s1 = None /\ exists c, l = WCancel c /\ w_ctx s = Some c) as Hctx.
    { unfold wstep in H2. destruct (w_crash s1); [discriminate H2|]. destruct l as [lb|c|].
      - left. destruct (match lb with LOp j _ => _ | LCtx i _ => _ | _ => _ end); [|discriminate H2]. destruct (sstep (w_s s1) lb) as [[s' e]|]; [|discriminate H2]. by injection H2 as <- _.
      - right. destruct (w_ctx s1); [discriminate H2|]. split; [done|]. exists c. split; [done|]. destruct (current (w_pc s1)); [destruct (sstep _ _) as [[s' e]|]; [|discriminate H2]|]; by injection H2 as <- _.
      - left. split; [|done]. destruct (w_pc s1); repeat match type of H2 with match ?x with _ => _ end = _ => destruct x as [?|]; [|discriminate H2] end; try (by apply Hcalls in H2 as [? _]); try (by injection H2 as <- _); try done.
        destruct p as [s' e]. by injection H2 as <- _. }
    split.
    + intros c. rewrite elem_of_app, elem_of_list_singleton. destruct Hctx as [[-> Hn]|(Hn & c0 & -> & ->)].
      * rewrite Hx. split; [by left|]. intros [?|E]; [done|]. by destruct (Hn c).
      * split; [intros [= ->]; by right|]. intros [Hc0|[= ->]]; [|done]. apply Hx in Hc0. congruence.
    + unfold wstep in H2. destruct (w_crash s1); [discriminate H2|]. destruct l as [lb|c|].
      * destruct (match lb with LOp j _ => _ | LCtx i _ => _ | _ => _ end); [|discriminate H2]. destruct (sstep (w_s s1) lb) as [[s' e]|] eqn:E; [|discriminate H2]. cbn zeta in H2.
        injection H2 as <- <-. exists (cls ++ [lb]). split.
        -- rewrite !sess_app, sess_WE. cbn [w_s]. assert (forall b : bool, sess (if b then [WCrash] else []) = []) as -> by (by intros []). rewrite app_nil_r. apply Hjoin. cbn [run]. by rewrite E, app_nil_r.
        -- apply Hmore; [|intros lb0 [= <-]; left]. intros lb0 ->%elem_of_list_singleton. by left.
      * destruct (w_ctx s1); [discriminate H2|]. destruct (current (w_pc s1)) as [i|].
        -- destruct (sstep (w_s s1) (LCtx i c)) as [[s' e]|] eqn:E; [|discriminate H2]. injection H2 as <- <-. exists (cls ++ [LCtx i c]). split; [rewrite sess_app, sess_WE; apply Hjoin; cbn [run]; by rewrite E, app_nil_r|].
           apply Hmore; [|done]. intros lb0 ->%elem_of_list_singleton. by right.
        -- injection H2 as <- <-. exists (cls ++ []). split; [rewrite sess_app; by apply (Hjoin [])|]. apply Hmore; [|done]. by intros ? ?%elem_of_nil.
      * assert (forall p ev, Some (to p s1, ev) = Some (s, ev2) -> sess ev = [] ->
          exists cls, srun c_init cls = Some (w_s s, sess (ev1 ++ ev2)) /\ (forall lb, lb ∈ cls -> WSess lb ∈ ls ++ [WGo] \/ match lb with LOp _ _ | LCtx _ _ | LLink => True | _ => False end) /\ forall lb, WSess lb ∈ ls ++ [WGo] -> lb ∈ cls) as Hto.
        { intros p ev [= <- <-] He. exists (cls ++ []). split; [rewrite sess_app, He; by apply (Hjoin [])|]. apply Hmore; [|done]. by intros ? ?%elem_of_nil. }
        destruct (w_pc s1) eqn:Ep.
        -- destruct (sstep (w_s s1) LLink) as [[s' e]|] eqn:E; [|discriminate H2]. injection H2 as <- <-. exists (cls ++ [LLink]). split; [rewrite sess_app, sess_WE; apply Hjoin; cbn [run]; by rewrite E, app_nil_r|].
           apply Hmore; [|done]. intros lb0 ->%elem_of_list_singleton. by right.
        -- by apply Hcalls in H2 as [_ ?].
        -- destruct (result s1 i) as [r|]; [|discriminate H2]. cbn zeta in H2. apply (Hto _ _ H2). destruct r, k; cbn; try done; by destruct (is_own _ _).
        -- by apply Hcalls in H2 as [_ ?].
        -- destruct (result s1 i) as [r|]; [|discriminate H2]. by apply (Hto _ _ H2).
        -- by apply (Hto _ _ H2).
        -- by apply Hcalls in H2 as [_ ?].
        -- destruct (result s1 i) as [r|]; [|discriminate H2]. by apply (Hto _ _ H2).
        -- done.
Qed.

Lemma ends_only k ls s evs : wrun k w_init ls = Some (s, evs) -> WReturned ∈ evs \/ (exists i, WE (EvCall i (w_link s) KClose) ∈ evs /\ w_pc s <> WNew) -> exists c, WCancel c ∈ ls.
Proof.
  intros Hr Hin. pose proof (winv _ _ _ _ Hr) as HI. destruct (labels _ _ _ _ Hr) as [Hx _].
  assert (w_ctx s <> None) as Hn; [|destruct (w_ctx s) as [c|] eqn:E; [|done]; exists c; by apply Hx].
  destruct Hin as [Hin|(i & Hin & Hn)].
  - pose proof (wv_told _ _ _ HI) as Ht. by rewrite (wv_ret _ _ _ HI Hin) in Ht.
  - intros Hc. pose proof (wv_told _ _ _ HI) as Ht. pose proof (wv_open _ _ _ HI) as Hop. destruct (wv_run _ _ _ HI) as [cls Hcl]. pose proof (ainv _ _ _ Hcl) as HA. apply elem_sess in Hin.
    destruct (ai_call _ _ HA _ _ _ Hin) as (o & Ho & El & Ek). destruct (wv_link _ _ _ HI Hn) as [[Hso _] _].
    assert (exists l, c_links (w_s s) !! w_link s = Some l /\ l_closed l = false) as (l & Hl & Hcl2).
    { destruct (w_pc s); try done; destruct Hop as (l & Hl & [Hs _] & _); by exists l. }
    destruct (Hso _ _ Ho El) as [Hcu|Hd].
    + pose proof (wv_kind _ _ _ HI) as Hk. destruct (w_pc s); try discriminate Hcu; injection Hcu as ->; try done; destruct Hk as (o2 & Ho2 & Ek2); congruence.
    + unfold is_done in Hd. destruct (o_pc o) as [| | | | | | | | | | |r] eqn:Ep; try discriminate Hd. pose proof (ai_done _ _ HA _ _ _ Ho Ep) as Hret. rewrite El, Ek in Hret. pose proof (ai_closed _ _ HA _ _ _ _ Hret Hl). congruence.
Qed.

Lemma in_order k ls s evs : wrun k w_init ls = Some (s, evs) -> NoDup (gots evs) /\ omap id (handed evs) `sublist_of` gots evs /\
  (k <> LpClient -> omap id (handed evs) `prefix_of` gots evs /\ length (gots evs) <= length (omap id (handed evs)) + 1).
Proof.
  intros Hr. pose proof (winv _ _ _ _ Hr) as HI. split; [apply (wv_nodup _ _ _ HI)|]. split.
  - etrans; [|apply (wv_sub _ _ _ HI)]. apply sublist_inserts_r. reflexivity.
  - intros Hk. rewrite <- (wv_all _ _ _ HI Hk). split; [by apply prefix_app_r|]. rewrite app_length. destruct (w_pc s) as [| | |[]|? []|[]| | |]; cbn; lia.
Qed.

Lemma received k ls s evs i : wrun k w_init ls = Some (s, evs) ->
  (i ∈ gots evs -> WE (EvRet i (w_link s) KNext ROk) ∈ evs) /\ (w_pc s <> WNew -> WE (EvRet i (w_link s) KNext ROk) ∈ evs -> i ∈ gots evs \/ w_pc s = WNext i).
Proof.
  intros Hr. pose proof (winv _ _ _ _ Hr) as HI. split.
  - intros Hin. destruct (wv_old _ _ _ HI _ Hin) as (o & Ho & El & Ek & Ep). destruct (wv_run _ _ _ HI) as [cls Hcl]. apply elem_sess. rewrite <- El, <- Ek. by apply (ai_done _ _ (ainv _ _ _ Hcl) _ _ _ Ho).
  - intros Hn Hin. apply (wv_lost _ _ _ HI Hn). by apply elem_sess.
Qed.

Lemma accepted ls s evs m : wrun LpClient w_init ls = Some (s, evs) -> WHanded (Some m) ∈ evs -> exists j, WCalls j (Some m) ∈ evs /\ WE (EvRet j (w_link s) KAccept ROk) ∈ evs.
Proof.
  intros Hr Hin. pose proof (winv _ _ _ _ Hr) as HI. destruct (wv_acc _ _ _ HI eq_refl m) as (j & H1 & H2); [by left|]. exists j. split; [done|]. by apply elem_sess.
Qed.

Lemma same_session k ls s evs j m l sid g : wrun k w_init ls = Some (s, evs) -> WCalls j (Some m) ∈ evs -> WE (EvUse j l sid g) ∈ evs -> last_use m (sess evs) = Some (sid, g).
Proof. intros Hr Hin Hu. pose proof (winv _ _ _ _ Hr) as HI. destruct (wv_calls _ _ _ HI _ _ Hin) as (_ & H & _). apply (H l). by apply elem_sess. Qed.

Lemma WGo_handed k s s2 ev m : wstep k s WGo = Some (s2, ev) -> WHanded m ∈ ev -> w_pc s = WHand m /\ w_ctx s2 = w_ctx s.
Proof.
  unfold wstep. destruct (w_crash s); [done|]. intros H Hin. destruct (w_pc s) as [| |i|m'|i m'|m'| |i|]; try discriminate H.
  - destruct (sstep _ _) as [[s' e]|]; [|discriminate H]. injection H as <- <-. by apply not_handed_WE in Hin.
  - apply calls_inv in H as (? & _ & _ & _ & -> & _). apply elem_of_list_singleton in Hin. done.
  - destruct (result s i) as [r|]; [|discriminate H]. cbn zeta in H. injection H as <- <-. destruct r; cbn in Hin; [by apply elem_of_list_singleton in Hin|]. destruct k; cbn in Hin; by apply elem_of_nil in Hin.
  - apply calls_inv in H as (? & _ & _ & _ & -> & _). apply elem_of_cons in Hin as [Hin|Hin]; [done|]. by apply elem_of_list_singleton in Hin.
  - destruct (result s i) as [r|]; [|discriminate H]. injection H as <- <-. by apply elem_of_nil in Hin.
  - injection H as <- <-. apply elem_of_list_singleton in Hin as [= ->]. done.
  - apply calls_inv in H as (? & _ & _ & _ & -> & _). apply elem_of_list_singleton in Hin. done.
  - destruct (result s i) as [r|]; [|discriminate H]. injection H as <- <-. by apply elem_of_list_singleton in Hin.
Qed.

Lemma nil_only k ls s evs : wrun k w_init ls = Some (s, evs) -> WHanded None ∈ evs \/ WCrash ∈ evs -> k = LpFlush /\ exists c, WCancel c ∈ ls.
Proof.
  revert s evs. induction ls as [|l ls IH] using rev_ind; intros s evs Hr Hin.
  - injection Hr as <- <-. rewrite !elem_of_nil in Hin. by destruct Hin.
  - pose proof (winv _ _ _ _ Hr) as HI. destruct (labels _ _ _ _ Hr) as [Hx _]. destruct Hin as [Hin|Hin].
    + apply run_snoc in Hr as (s1 & ev1 & ev2 & H1 & H2 & ->). apply elem_of_app in Hin as [Hin|Hin].
      * destruct (IH _ _ H1) as [Hk [c Hc]]; [by left|]. split; [done|]. exists c. apply elem_of_app. by left.
      * destruct l as [lb|c|].
        -- exfalso. unfold wstep in H2. destruct (w_crash s1); [discriminate H2|]. destruct (match lb with LOp j _ => _ | LCtx i _ => _ | _ => _ end); [|discriminate H2]. destruct (sstep (w_s s1) lb) as [[s' e]|]; [|discriminate H2].
           cbn zeta in H2. injection H2 as _ <-. apply elem_of_app in Hin as [Hin|Hin]; [by apply not_handed_WE in Hin|]. destruct (match w_pc s1 with WAccepting _ None => _ | _ => _ end); [by apply elem_of_list_singleton in Hin|by apply elem_of_nil in Hin].
        -- exfalso. unfold wstep in H2. destruct (w_crash s1); [discriminate H2|]. destruct (w_ctx s1); [discriminate H2|]. destruct (current (w_pc s1)); [destruct (sstep _ _) as [[s' e]|]; [|discriminate H2]|]; injection H2 as _ <-; [by apply not_handed_WE in Hin|by apply elem_of_nil in Hin].
        -- destruct (WGo_handed _ _ _ _ _ H2 Hin) as [Hp Ec]. pose proof (winv _ _ _ _ H1) as HI1. pose proof (wv_told _ _ _ HI1) as Ht. pose proof (wv_nil _ _ _ HI1) as Hn. rewrite Hp in Ht, Hn. split; [done|].
           rewrite <- Ec in Ht. destruct (w_ctx s) as [c|] eqn:E; [|done]. exists c. by apply Hx.
    + apply (wv_crash2 _ _ _ HI) in Hin. destruct (wv_crash1 _ _ _ HI Hin) as [i Hp]. pose proof (wv_told _ _ _ HI) as Ht. pose proof (wv_nil _ _ _ HI) as Hn. rewrite Hp in Ht, Hn. split; [done|].
      destruct (w_ctx s) as [c|] eqn:E; [|done]. exists c. by apply Hx.
Qed.

(** A crash: a receiver was made for the call with the ended context. *)
Lemma crash_how k ls s evs : wrun k w_init ls = Some (s, evs) -> WCrash ∈ evs -> exists i l sid g, WCalls i None ∈ evs /\ WE (EvUse i l sid g) ∈ evs.
Proof.
  revert s evs. induction ls as [|lb ls IH] using rev_ind; intros s evs Hr Hin; [injection Hr as <- <-; by apply elem_of_nil in Hin|].
  pose proof (winv _ _ _ _ Hr) as HI. apply (wv_crash2 _ _ _ HI) in Hin. pose proof (wv_crash1 _ _ _ HI Hin) as [i Hp]. pose proof (wv_cur _ _ _ HI _ _ Hp) as Hc. apply run_snoc in Hr as (s1 & ev1 & ev2 & H1 & H2 & ->).
  assert (w_crash s1 = false) as Hc1 by (unfold wstep in H2; by destruct (w_crash s1)).
  unfold wstep in H2. rewrite Hc1 in H2. destruct lb as [lb|c|].
  - destruct (match lb with LOp j _ => _ | LCtx i _ => _ | _ => _ end); [|discriminate H2]. destruct (sstep (w_s s1) lb) as [[s' e]|]; [|discriminate H2]. cbn zeta in H2. injection H2 as <- <-. cbn in Hp, Hin. rewrite Hp in Hin.
    apply existsb_exists in Hin as (x & Hx & Hi). apply elem_of_list_In in Hx. destruct x; try discriminate Hi. apply Nat.eqb_eq in Hi as ->. eexists i, _, _, _. split; [exact Hc|]. rewrite !elem_of_app. right. left. by apply elem_of_list_fmap_1.
  - exfalso. destruct (w_ctx s1); [discriminate H2|]. destruct (current (w_pc s1)); [destruct (sstep _ _) as [[s' e]|]; [|discriminate H2]|]; injection H2 as <- <-; discriminate Hin.
  - exfalso. assert (w_crash s = w_crash s1) as E; [|congruence]. destruct (w_pc s1) as [| |i'|m'|i' m'|m'| |i'|]; try discriminate H2; try (apply calls_inv in H2 as (? & _ & _ & -> & _); done).
    + destruct (sstep _ _) as [[s' e]|]; [|discriminate H2]. by injection H2 as <- _.
    + destruct (result s1 i') as [r|]; [|discriminate H2]. by injection H2 as <- _.
    + destruct (result s1 i') as [r|]; [|discriminate H2]. by injection H2 as <- _.
    + by injection H2 as <- _.
    + destruct (result s1 i') as [r|]; [|discriminate H2]. by injection H2 as <- _.
Qed.
