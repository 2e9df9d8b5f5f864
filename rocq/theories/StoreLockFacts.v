(** Facts about StoreLock.v. *)
From Coq Require Import ZArith NArith Ascii String Lia.
From stdpp Require Import base gmap strings list.
From Verif Require Import GoBase Encoding Records Env SyncMap Tokens Cache Run RegistryConcFacts StoreLock.

Local Open Scope list_scope.

(** ** Specification *)

(** Goroutine [g] is in these calls after [ev], innermost first: each return was
    that of the innermost call. *)
Definition of_whom (e : kev) : nat := match e with KCalled g _ => g | KReturned g _ => g end.
Inductive within (g : nat) : list kev -> list op -> Prop :=
  | in_none : within g [] []
  | in_call ev o os : within g ev os -> within g (ev ++ [KCalled g o]) (o :: os)
  | in_return ev o os : within g ev (o :: os) -> within g (ev ++ [KReturned g o]) os
  | in_other ev e os : within g ev os -> of_whom e <> g -> within g (ev ++ [e]) os.

(** Calls that may change what is stored. *)
Inductive changes : op -> Prop :=
  | ch_add x : changes (OAdd x)
  | ch_update x m : changes (OUpdate x m)
  | ch_delete x : changes (ODelete x)
  | ch_replace l : changes (OReplace l)
  | ch_accumulate src r : changes (OAccumulate src r).

(** In no continuation of [s] does a call of [P] return. *)
Definition never_returns (s : kstate) (P : nat -> op -> Prop) : Prop :=
  forall ls s' ev g o, krun s ls = Some (s', ev) -> P g o -> KReturned g o ∉ ev.

Lemma changes_writing o : changes o <-> locks_writing o = true.
Proof. split; [by intros []|]. destruct o; intros H; try done; constructor. Qed.
Lemma changes_not o : ~ changes o <-> locks_writing o = false.
Proof. rewrite changes_writing. by rewrite not_true_iff_false. Qed.

(** ** Invariant *)

Definition holds_lock (f : kframe) : bool := match f with KRead _ | KWrite _ => true | _ => false end.
Definition reads (f : kframe) : nat := match f with KRead _ => 1 | _ => 0 end.
Definition turns (f : kframe) : nat := match f with KDrain _ | KWrite _ => 1 | _ => 0 end.
Definition writes (f : kframe) : nat := match f with KWrite _ => 1 | _ => 0 end.
Definition total (c : kframe -> nat) (fs : list kframe) : nat := sum_list (c <$> fs).
Definition frame_op (f : kframe) : op := match f with KWait o | KRead o | KMutex o | KDrain o | KWrite o => o end.

Lemma total_cons c f fs : total c (f :: fs) = c f + total c fs.
Proof. done. Qed.

Definition kframe_ok (f : kframe) : Prop :=
  match f with KWait o | KRead o => locks_writing o = false | KMutex o | KDrain o | KWrite o => locks_writing o = true end.
Definition kstack_ok (busy : bool) (fs : list kframe) : Prop :=
  Forall kframe_ok fs /\ Forall (fun f => holds_lock f = true) (tail fs) /\ (match fs with KWait _ :: _ => busy = true | _ => True end).
Definition kinv (s : kstate) : Prop :=
  Forall (kstack_ok (k_busy s)) (k_g s) /\ k_readers s = sum_list (total reads <$> k_g s) /\
  sum_list (total turns <$> k_g s) = (if k_busy s then 1 else 0) /\
  (0 < sum_list (total writes <$> k_g s) -> k_readers s = 0).

Lemma kinv_start n : kinv (k_start n).
Proof.
  assert (forall c, sum_list (total c <$> replicate n []) = 0) as H0. { intros c. apply sum_zero. intros fs Hin. by apply elem_of_replicate_inv in Hin as ->. }
  split; [|split; [|split]]; cbn [k_start k_g k_busy k_readers]; rewrite ?H0; [|done|done|lia].
  apply Forall_forall. intros fs Hin. apply elem_of_replicate_inv in Hin as ->. split; [constructor|]. split; [constructor|done].
Qed.

Lemma kstack s g fs : kinv s -> k_g s !! g = Some fs -> kstack_ok (k_busy s) fs.
Proof. intros [H _] Hg. by apply (proj1 (Forall_lookup _ _) H g). Qed.
Lemma total_le c s g fs : k_g s !! g = Some fs -> total c fs <= sum_list (total c <$> k_g s).
Proof. intros Hg. apply (sum_member (total c)). by eapply elem_of_list_lookup_2. Qed.
Lemma writes_turns fs : total writes fs <= total turns fs.
Proof. induction fs as [|f fs IH]; [done|]. rewrite !total_cons. destruct f; cbn; lia. Qed.
Lemma hold_total fs : Forall (fun f => holds_lock f = true) fs -> length fs = total reads fs + total writes fs.
Proof. induction 1 as [|f fs Hf HF IH]; [done|]. rewrite !total_cons. cbn [length]. rewrite IH. destruct f; try done; cbn; lia. Qed.
Lemma hold_turns fs : Forall (fun f => holds_lock f = true) fs -> total turns fs = total writes fs.
Proof. induction 1 as [|f fs Hf HF IH]; [done|]. rewrite !total_cons, IH. by destruct f. Qed.

(** Replacing one stack. *)
Lemma kinv_insert s g fs fs' busy act : kinv s -> k_g s !! g = Some fs -> (k_busy s = true -> busy = true) ->
  kstack_ok busy fs' -> act + total reads fs = k_readers s + total reads fs' ->
  (if busy then 1 else 0) + total turns fs = (if k_busy s then 1 else 0) + total turns fs' ->
  (total writes fs' <= total writes fs /\ act <= k_readers s \/ act = 0 \/ busy = false) ->
  kinv (KState busy act (<[g := fs']> (k_g s))).
Proof.
  intros (HA & HB & HC & HD) Hg Hb Hok Hact Ht Hw.
  pose proof (sum_insert (total reads) _ g fs fs' Hg). pose proof (sum_insert (total turns) _ g fs fs' Hg). pose proof (sum_insert (total writes) _ g fs fs' Hg).
  split; [|split; [|split]]; cbn [k_g k_readers k_busy]; [|lia|lia|].
  - apply Forall_insert; [|exact Hok]. eapply Forall_impl; [exact HA|]. intros x (A & B & C). split; [done|]. split; [done|]. destruct x as [|[] ?]; auto.
  - intros Hpos. destruct Hw as [[Hw Ha]|[->|Hw]]; [|done|].
    + assert (0 < sum_list (total writes <$> k_g s)) as Hp by lia. specialize (HD Hp). lia.
    + subst busy. assert (sum_list (total turns <$> <[g := fs']> (k_g s)) = 0) as Hz. { destruct (k_busy s); [by specialize (Hb eq_refl)|]. cbn in *. lia. }
      exfalso. assert (forall l, sum_list (total writes <$> l) <= sum_list (total turns <$> l)) as Hle.
      { clear. induction l as [|x l IH]; [done|]. change (total writes x + sum_list (total writes <$> l) <= total turns x + sum_list (total turns <$> l)). pose proof (writes_turns x). lia. }
      specialize (Hle (<[g := fs']> (k_g s))). lia.
Qed.

Lemma kinv_step s l s' ev : kinv s -> kstep s l = Some (s', ev) -> kinv s'.
Proof.
  intros HI Hs. unfold kstep in Hs. destruct l as [g o|g|g|g].
  - destruct (k_g s !! g) as [fs|] eqn:Eg; [|done]. destruct (kstack s g fs HI Eg) as (A & B & C).
    destruct (match fs with [] => true | _ => in_index_function fs end) eqn:Ein; [|done].
    assert (Forall (fun f => holds_lock f = true) fs) as HF. { destruct fs as [|[o0|o0|o0|o0|o0] fs]; try done; by constructor. }
    destruct (locks_writing o) eqn:Ew; [|destruct (k_busy s) eqn:Eb]; injection Hs as <- <-.
    + eapply kinv_insert; [exact HI|exact Eg|done|split; [by constructor|done]|done|done|]. left. split; [done|lia].
    + eapply kinv_insert; [exact HI|exact Eg|done|split; [by constructor|split; [done|done]]|done|by rewrite Eb|]. left. split; [done|lia].
    + eapply kinv_insert; [exact HI|exact Eg|by rewrite Eb|split; [by constructor|split; [done|done]]|rewrite total_cons; cbn [reads]; lia|rewrite Eb; done|]. by right; right.
  - destruct (k_g s !! g) as [[|[o|o|o|o|o] fs]|] eqn:Eg; try done. destruct (k_busy s) eqn:Eb; [done|]. injection Hs as <- <-.
    destruct (kstack s g _ HI Eg) as (A & B & C). apply Forall_cons in A as [A0 A].
    eapply kinv_insert; [exact HI|exact Eg|done|split; [by constructor|done]|rewrite !total_cons; cbn [reads]; lia|rewrite !total_cons, Eb; cbn [turns]; lia|].
    left. rewrite !total_cons. cbn [writes]. lia.
  - destruct (k_g s !! g) as [[|[o|o|o|o|o] fs]|] eqn:Eg; try done. destruct (k_readers s) eqn:Er; [|done]. injection Hs as <- <-.
    destruct (kstack s g _ HI Eg) as (A & B & C). apply Forall_cons in A as [A0 A].
    eapply kinv_insert; [exact HI|exact Eg|done|split; [by constructor|done]|rewrite !total_cons; cbn [reads]; lia|rewrite !total_cons; cbn [turns]; lia|]. by right; left.
  - destruct (k_g s !! g) as [[|[o|o|o|o|o] fs]|] eqn:Eg; try done; injection Hs as <- <-; destruct (kstack s g _ HI Eg) as (A & B & C); apply Forall_cons in A as [A0 A]; cbn [tail] in B.
    + pose proof (total_le reads s g _ Eg) as Hle. rewrite total_cons in Hle. cbn [reads] in Hle. assert (1 + total reads fs <= k_readers s) as Hle' by (destruct HI as (_ & -> & _); exact Hle).
      eapply kinv_insert; [exact HI|exact Eg|done| |rewrite total_cons; cbn [reads]; lia|rewrite total_cons; cbn [turns]; lia|].
      * split; [done|]. destruct fs as [|f fs]; [done|]. apply Forall_cons in B as [Bf B]. split; [done|]. by destruct f.
      * left. rewrite total_cons. cbn [writes]. lia.
    + pose proof HI as (HA & HB & HC & HD).
      assert (k_readers s = 0) as Hr0. { apply HD. pose proof (total_le writes s g _ Eg) as Hle. rewrite total_cons in Hle. cbn [writes] in Hle. lia. }
      assert (forall q, q ∈ k_g s -> total reads q = 0) as Hnr. { intros q Hq. pose proof (sum_member (total reads) _ _ Hq). lia. }
      pose proof (total_le turns s g _ Eg) as Hle. rewrite total_cons in Hle. cbn [turns] in Hle.
      assert (k_busy s = true) as Hbusy. { destruct (k_busy s); [done|]. lia. } rewrite Hbusy in HC.
      pose proof (sum_insert (total turns) _ g _ fs Eg) as Hsi. rewrite total_cons in Hsi. cbn [turns] in Hsi.
      assert (fs = []) as ->.
      { assert (length fs = 0) as Hl; [|by destruct fs]. rewrite (hold_total _ B), <- (hold_turns _ B).
        assert (total reads fs = 0) as ->. { specialize (Hnr _ (elem_of_list_lookup_2 _ _ _ Eg)). rewrite total_cons in Hnr. cbn [reads] in Hnr. lia. } lia. }
      assert (forall q, q ∈ <[g := []]> (k_g s) -> q = [] \/ exists o', (q = [KWait o'] /\ locks_writing o' = false) \/ (q = [KMutex o'] /\ locks_writing o' = true)) as Hall.
      { intros q Hq. assert (total turns q = 0) as Hq0. { pose proof (sum_member (total turns) _ _ Hq). change (total turns []) with 0 in Hsi. lia. }
        apply elem_of_list_lookup in Hq as [p Hp]. destruct (decide (p = g)) as [->|Hne]; [rewrite list_lookup_insert in Hp by (by eapply lookup_lt_Some); injection Hp as <-; by left|].
        rewrite list_lookup_insert_ne in Hp by done. destruct (kstack s p q HI Hp) as (Aq & Bq & Cq). pose proof (Hnr _ (elem_of_list_lookup_2 _ _ _ Hp)) as Hq1.
        destruct q as [|f q]; [by left|]. right. cbn [tail] in Bq. rewrite total_cons in Hq0, Hq1.
        assert (q = []) as ->. { assert (length q = 0) as Hl; [|by destruct q]. rewrite (hold_total _ Bq), <- (hold_turns _ Bq). lia. }
        apply Forall_cons in Aq as [Af _]. exists (frame_op f). destruct f; cbn in *; try lia; [by left|by right]. }
      rewrite Hr0. split; [|split; [|split]]; cbn [k_g k_readers k_busy].
      * apply Forall_fmap, Forall_forall. intros q Hq. destruct (Hall q Hq) as [->|(o' & [[-> Hw]|[-> Hw]])]; cbn; split; by repeat constructor.
      * clear -Hall. cbn [Nat.add]. induction (<[g := []]> (k_g s)) as [|q l IH]; [done|].
        assert (length (filter (fun fs => queues fs = true) l) = sum_list (total reads <$> (admit_reader <$> l))) as IH' by (apply IH; intros q' Hq'; apply Hall; by right).
        rewrite filter_cons. rewrite !fmap_cons. change (sum_list (total reads (admit_reader q) :: (total reads <$> (admit_reader <$> l)))) with (total reads (admit_reader q) + sum_list (total reads <$> (admit_reader <$> l))).
        rewrite <- IH'. destruct (Hall q) as [->|(o' & [[-> Hw]|[-> Hw]])]; [left|..]; cbn [queues].
        -- by rewrite decide_False by done.
        -- rewrite decide_True by done. done.
        -- by rewrite decide_False by done.
      * apply sum_zero. intros q Hq. apply elem_of_list_fmap in Hq as (q0 & -> & Hq). destruct (Hall q0 Hq) as [->|(o' & [[-> Hw]|[-> Hw]])]; done.
      * intros Hpos. apply sum_positive in Hpos as (q & Hq & Hqw). apply elem_of_list_fmap in Hq as (q0 & -> & Hq). exfalso.
        destruct (Hall q0 Hq) as [->|(o' & [[-> Hw]|[-> Hw]])]; cbn in Hqw; lia.
Qed.

Lemma kinv_run s ls s' ev : kinv s -> krun s ls = Some (s', ev) -> kinv s'.
Proof.
  revert s' ev. induction ls as [|l ls IH] using rev_ind; intros s' ev HI Hr; [by injection Hr as <- <-|].
  apply run_snoc in Hr as (s1 & ev1 & ev2 & H1 & H2 & ->). eapply kinv_step; [by eapply IH|exact H2].
Qed.

(** ** Calls and returns *)

Lemma admit_ops fs : frame_op <$> admit_reader fs = frame_op <$> fs.
Proof. by destruct fs as [|[] ?]. Qed.

Lemma knested n ls s ev g fs : krun (k_start n) ls = Some (s, ev) -> k_g s !! g = Some fs -> within g ev (frame_op <$> fs).
Proof.
  revert s ev fs. induction ls as [|l ls IH] using rev_ind; intros s ev fs Hr Hg.
  { injection Hr as <- <-. apply lookup_replicate in Hg as [-> _]. constructor. }
  apply run_snoc in Hr as (s1 & ev1 & ev2 & H1 & H2 & ->). pose proof (fun fs => IH _ _ fs H1) as HI. unfold kstep in H2. destruct l as [g0 o|g0|g0|g0].
  - destruct (k_g s1 !! g0) as [old|] eqn:Eg; [|done]. destruct (match old with [] => true | _ => in_index_function old end); [|done].
    assert (exists f, frame_op f = o /\ k_g s = <[g0 := f :: old]> (k_g s1) /\ ev2 = [KCalled g0 o]) as (f & Hf & Hs & ->).
    { destruct (locks_writing o); [|destruct (k_busy s1)]; injection H2 as <- <-; eexists (_ o); by repeat split. }
    rewrite Hs in Hg. destruct (decide (g = g0)) as [->|Hne].
    + rewrite list_lookup_insert in Hg by (by eapply lookup_lt_Some). injection Hg as <-. rewrite fmap_cons, Hf. apply in_call. by apply HI.
    + rewrite list_lookup_insert_ne in Hg by done. apply in_other; [by apply HI|done].
  - destruct (k_g s1 !! g0) as [[|[o|o|o|o|o] old]|] eqn:Eg; try done. destruct (k_busy s1); [done|]. injection H2 as <- <-. rewrite app_nil_r. cbn [k_g] in Hg.
    destruct (decide (g = g0)) as [->|Hne]; [|rewrite list_lookup_insert_ne in Hg by done; by apply HI].
    rewrite list_lookup_insert in Hg by (by eapply lookup_lt_Some). injection Hg as <-. by apply (HI (KMutex o :: old)).
  - destruct (k_g s1 !! g0) as [[|[o|o|o|o|o] old]|] eqn:Eg; try done. destruct (k_readers s1); [|done]. injection H2 as <- <-. rewrite app_nil_r. cbn [k_g] in Hg.
    destruct (decide (g = g0)) as [->|Hne]; [|rewrite list_lookup_insert_ne in Hg by done; by apply HI].
    rewrite list_lookup_insert in Hg by (by eapply lookup_lt_Some). injection Hg as <-. by apply (HI (KDrain o :: old)).
  - assert (exists f old q, k_g s1 !! g0 = Some (f :: old) /\ ev2 = [KReturned g0 (frame_op f)] /\ <[g0 := old]> (k_g s1) !! g = Some q /\ frame_op <$> fs = frame_op <$> q) as (f & old & q & Eg & -> & Hq & ->).
    { destruct (k_g s1 !! g0) as [[|[o|o|o|o|o] old]|] eqn:Eg; try done; injection H2 as <- <-; cbn [k_g] in Hg.
      - by exists (KRead o), old, fs.
      - rewrite list_lookup_fmap in Hg. destruct (<[g0 := old]> (k_g s1) !! g) as [q|] eqn:Eq; [|done]. injection Hg as <-. exists (KWrite o), old, q. by rewrite admit_ops. }
    destruct (decide (g = g0)) as [->|Hne].
    + rewrite list_lookup_insert in Hq by (by eapply lookup_lt_Some). injection Hq as <-. apply in_return. by apply (HI (f :: old)).
    + rewrite list_lookup_insert_ne in Hq by done. apply in_other; [by apply HI|done].
Qed.

Lemma klength n ls s ev : krun (k_start n) ls = Some (s, ev) -> length (k_g s) = n.
Proof.
  revert s ev. induction ls as [|l ls IH] using rev_ind; intros s ev Hr; [injection Hr as <- <-; apply replicate_length|].
  apply run_snoc in Hr as (s1 & ev1 & ev2 & H1 & H2 & ->). rewrite <- (IH _ _ H1). unfold kstep in H2.
  repeat (match goal with H : context [match ?x with _ => _ end] |- _ => destruct x end; try discriminate H2); injection H2 as <- <-; cbn [k_g]; by rewrite ?fmap_length, ?insert_length.
Qed.

(** A goroutine's calls are determined by the events. *)
Lemma snoc_inj {A} (l1 l2 : list A) x y : l1 ++ [x] = l2 ++ [y] -> l1 = l2 /\ x = y.
Proof. apply app_inj_tail. Qed.
Lemma within_unique g ev os : within g ev os -> forall os', within g ev os' -> os = os'.
Proof.
  induction 1 as [|ev o os H IH|ev o os H IH|ev e os H IH Hne]; intros os' H'.
  - inversion H' as [|? ? ? ? E|? ? ? ? E|? ? ? ? ? E]; [done|by apply app_eq_nil in E as [_ ?]..].
  - inversion H' as [E|ev' o' os2 H2 E|ev' o' os2 H2 E|ev' e' os2 H2 Hne E]; [by symmetry in E; apply app_eq_nil in E as [_ ?]|apply snoc_inj in E as [-> E]..]; [injection E as <-; f_equal; by apply IH|done|subst e'; by destruct Hne].
  - inversion H' as [E|ev' o' os2 H2 E|ev' o' os2 H2 E|ev' e' os2 H2 Hne E]; [by symmetry in E; apply app_eq_nil in E as [_ ?]|apply snoc_inj in E as [-> E]..]; [done|injection E as <-; specialize (IH _ H2); by injection IH|subst e'; by destruct Hne].
  - inversion H' as [E|ev' o' os2 H2 E|ev' o' os2 H2 E|ev' e' os2 H2 Hne2 E]; [by symmetry in E; apply app_eq_nil in E as [_ ?]|apply snoc_inj in E as [-> E]..]; [subst e; by destruct Hne|subst e; by destruct Hne|by apply IH].
Qed.
Lemma within_stack n ls s ev g os : krun (k_start n) ls = Some (s, ev) -> g < n -> within g ev os -> exists fs, k_g s !! g = Some fs /\ os = frame_op <$> fs.
Proof.
  intros Hr Hg Hw. destruct (k_g s !! g) as [fs|] eqn:E; [|apply lookup_ge_None in E; rewrite (klength _ _ _ _ Hr) in E; lia].
  exists fs. split; [done|]. eapply within_unique; [exact Hw|]. by eapply knested.
Qed.

(** ** Calls that never return *)

(** [g] waits for the lock in an index function, that is, while it has the lock. *)
Definition waits_inside (s : kstate) (g : nat) : Prop := exists f r rest, k_g s !! g = Some (f :: r :: rest) /\ holds_lock f = false.

Lemma inside_holds s g f r rest : kinv s -> k_g s !! g = Some (f :: r :: rest) -> 1 <= total reads (r :: rest) + total writes (r :: rest) /\ total writes (r :: rest) = total turns (r :: rest).
Proof.
  intros HI Hg. destruct (kstack s g _ HI Hg) as (_ & B & _). cbn [tail] in B. pose proof (hold_total _ B). pose proof (hold_turns _ B). cbn [length] in *. lia.
Qed.

(** While some goroutine waits so, no writer is let in or returns. *)
Lemma no_writer s g f r rest : kinv s -> k_g s !! g = Some (f :: r :: rest) -> holds_lock f = false ->
  (forall g' o fs, k_g s !! g' <> Some (KWrite o :: fs)) /\ (forall o, f = KDrain o -> k_readers s <> 0).
Proof.
  intros HI Hg Hf. destruct (inside_holds _ _ _ _ _ HI Hg) as [H1 H2]. destruct HI as (HA & HB & HC & HD).
  pose proof (total_le reads s g _ Hg) as Lr. pose proof (total_le writes s g _ Hg) as Lw. pose proof (total_le turns s g _ Hg) as Lt. rewrite total_cons in Lr, Lw, Lt. split.
  - intros g' o fs Hg'. assert (g' <> g) as Hne. { intros ->. rewrite Hg in Hg'. injection Hg' as -> _. done. }
    pose proof (total_le writes s g' _ Hg') as Lw'. rewrite total_cons in Lw'. cbn [writes] in Lw'. assert (k_readers s = 0) as Hr by (apply HD; lia).
    assert (total turns (f :: r :: rest) + total turns (KWrite o :: fs) <= sum_list (total turns <$> k_g s)) as Ht.
    { pose proof (sum_insert (total turns) _ g' _ [] Hg') as Hsi. change (total turns []) with 0 in Hsi.
      assert (<[g' := []]> (k_g s) !! g = Some (f :: r :: rest)) as Hg2 by (by rewrite list_lookup_insert_ne).
      pose proof (sum_member (total turns) _ _ (elem_of_list_lookup_2 _ _ _ Hg2)). lia. }
    rewrite !total_cons in Ht. cbn [turns] in Ht. rewrite !total_cons in *. destruct (k_busy s); lia.
  - intros o -> Hr. cbn [turns writes reads] in *. destruct (k_busy s); lia.
Qed.

Lemma dead_kstep s l s' ev g f r rest : kinv s -> k_g s !! g = Some (f :: r :: rest) -> holds_lock f = false -> kstep s l = Some (s', ev) ->
  (exists f', k_g s' !! g = Some (f' :: r :: rest) /\ holds_lock f' = false) /\ (k_busy s = true -> k_busy s' = true) /\
  (forall o, KReturned g o ∉ ev) /\ (forall g' o, KReturned g' o ∈ ev -> locks_writing o = false) /\
  ((exists o, r = KWrite o) -> forall g' o, KReturned g' o ∉ ev).
Proof.
  intros HI Hg Hf Hs. destruct (no_writer _ _ _ _ _ HI Hg Hf) as [Hnw Hnd].
  assert (forall e : kev, e ∉ []) as Hnil by (intros e; apply not_elem_of_nil).
  unfold kstep in Hs. destruct l as [g0 o|g0|g0|g0].
  - destruct (k_g s !! g0) as [old|] eqn:Eg; [|done]. destruct (match old with [] => true | _ => in_index_function old end) eqn:Ein; [|done].
    assert (g0 <> g) as Hne. { intros ->. rewrite Hg in Eg. injection Eg as <-. by destruct f. }
    assert (exists f0, k_g s' = <[g0 := f0 :: old]> (k_g s) /\ ev = [KCalled g0 o] /\ k_busy s' = k_busy s) as (f0 & E & -> & Eb).
    { destruct (locks_writing o); [|destruct (k_busy s)]; injection Hs as <- <-; eexists; by repeat split. }
    split; [exists f; by rewrite E, list_lookup_insert_ne|]. rewrite Eb. split; [done|]. split; [|split]; intros; [by intros ?%elem_of_list_singleton| |by intros ?%elem_of_list_singleton].
    match goal with H : _ ∈ [_] |- _ => by apply elem_of_list_singleton in H end.
  - destruct (k_g s !! g0) as [[|[o|o|o|o|o] old]|] eqn:Eg; try done. destruct (k_busy s) eqn:Eb; [done|]. injection Hs as <- <-. cbn [k_g k_busy].
    split; [|split; [done|split; [done|split; [intros g' o' H; by apply Hnil in H|done]]]]. destruct (decide (g0 = g)) as [->|Hne].
    + rewrite Hg in Eg. injection Eg as -> <-. exists (KDrain o). split; [|done]. apply list_lookup_insert. by eapply lookup_lt_Some.
    + exists f. by rewrite list_lookup_insert_ne.
  - destruct (k_g s !! g0) as [[|[o|o|o|o|o] old]|] eqn:Eg; try done. destruct (k_readers s) eqn:Er; [|done]. injection Hs as <- <-. cbn [k_g k_busy].
    split; [|split; [done|split; [done|split; [intros g' o' H; by apply Hnil in H|done]]]]. destruct (decide (g0 = g)) as [->|Hne].
    + rewrite Hg in Eg. injection Eg as -> <-. by destruct (Hnd o).
    + exists f. by rewrite list_lookup_insert_ne.
  - destruct (k_g s !! g0) as [[|[o|o|o|o|o] old]|] eqn:Eg; try done; [|by destruct (Hnw g0 o old)]. injection Hs as <- <-. cbn [k_g k_busy].
    assert (g0 <> g) as Hne. { intros ->. rewrite Hg in Eg. by injection Eg as -> <-. }
    split; [exists f; by rewrite list_lookup_insert_ne|]. split; [done|]. split; [|split].
    + intros o'. intros [= <- _]%elem_of_list_singleton. done.
    + intros g' o' [= -> ->]%elem_of_list_singleton. destruct (kstack s g0 _ HI Eg) as (A & _). by apply Forall_cons in A as [A _].
    + intros (o' & ->) g' o2 _. destruct HI as (HA & HB & HC & HD). pose proof (total_le writes s g _ Hg) as Lw. pose proof (total_le reads s g0 _ Eg) as Lr. rewrite !total_cons in *. cbn [writes reads] in *.
      assert (k_readers s = 0) by (apply HD; lia). lia.
Qed.

Lemma dead_krun s ls s' ev g f r rest : kinv s -> k_g s !! g = Some (f :: r :: rest) -> holds_lock f = false -> krun s ls = Some (s', ev) ->
  (exists f', k_g s' !! g = Some (f' :: r :: rest) /\ holds_lock f' = false) /\ (k_busy s = true -> k_busy s' = true) /\
  (forall o, KReturned g o ∉ ev) /\ (forall g' o, KReturned g' o ∈ ev -> locks_writing o = false) /\
  ((exists o, r = KWrite o) -> forall g' o, KReturned g' o ∉ ev).
Proof.
  intros HI Hg Hf. revert s' ev. induction ls as [|l ls IH] using rev_ind; intros s' ev Hr.
  { injection Hr as <- <-. split; [by exists f|]. split; [done|]. split; [intros o; apply not_elem_of_nil|]. split; [intros g' o H; by apply elem_of_nil in H|intros _ g' o; apply not_elem_of_nil]. }
  apply run_snoc in Hr as (s1 & ev1 & ev2 & H1 & H2 & ->). destruct (IH _ _ H1) as ((f1 & Hg1 & Hf1) & Hb1 & A1 & B1 & C1).
  destruct (dead_kstep _ _ _ _ _ _ _ _ (kinv_run _ _ _ _ HI H1) Hg1 Hf1 H2) as (D & Hb2 & A2 & B2 & C2).
  split; [done|]. split; [auto|]. split; [|split].
  - intros o [H|H]%elem_of_app; [by apply (A1 o)|by apply (A2 o)].
  - intros g' o [H|H]%elem_of_app; [by apply (B1 g')|by apply (B2 g')].
  - intros Hw g' o [H|H]%elem_of_app; [by apply (C1 Hw g' o)|by apply (C2 Hw g' o)].
Qed.

(** Once a writer has its turn, no later call returns either. *)
Lemma late_calls s ls s' ev g f r rest g' : kinv s -> k_g s !! g = Some (f :: r :: rest) -> holds_lock f = false -> k_busy s = true -> k_g s !! g' = Some [] ->
  krun s ls = Some (s', ev) -> (k_g s' !! g' = Some [] \/ exists o, k_g s' !! g' = Some [KWait o] \/ k_g s' !! g' = Some [KMutex o]) /\ forall o, KReturned g' o ∉ ev.
Proof.
  intros HI Hg Hf Hb Hg'. revert s' ev. induction ls as [|l ls IH] using rev_ind; intros s' ev Hr.
  { injection Hr as <- <-. split; [by left|]. intros o. apply not_elem_of_nil. }
  apply run_snoc in Hr as (s1 & ev1 & ev2 & H1 & H2 & ->). destruct (IH _ _ H1) as (Hst & A1).
  destruct (dead_krun _ _ _ _ _ _ _ _ HI Hg Hf H1) as ((f1 & Hg1 & Hf1) & Hb1 & _). specialize (Hb1 Hb). pose proof (kinv_run _ _ _ _ HI H1) as HI1.
  destruct (no_writer _ _ _ _ _ HI1 Hg1 Hf1) as [Hnw _].
  assert ((k_g s' !! g' = Some [] \/ exists o, k_g s' !! g' = Some [KWait o] \/ k_g s' !! g' = Some [KMutex o]) /\ forall o, KReturned g' o ∉ ev2) as [Hst2 A2].
  2: { split; [done|]. intros o [H|H]%elem_of_app; [by apply (A1 o)|by apply (A2 o)]. }
  assert (forall g0 q, k_g s1 !! g0 = Some q -> g0 <> g' -> forall x, k_g s' = <[g0 := x]> (k_g s1) -> k_g s' !! g' = Some [] \/ exists o, k_g s' !! g' = Some [KWait o] \/ k_g s' !! g' = Some [KMutex o]) as Hoth.
  { intros g0 q Hq Hne x Hx. rewrite Hx, list_lookup_insert_ne by done. exact Hst. }
  unfold kstep in H2. destruct l as [g0 o|g0|g0|g0].
  - destruct (k_g s1 !! g0) as [old|] eqn:Eg; [|done]. destruct (match old with [] => true | _ => in_index_function old end) eqn:Ein; [|done]. rewrite Hb1 in H2.
    assert (exists f0, k_g s' = <[g0 := f0 :: old]> (k_g s1) /\ ev2 = [KCalled g0 o] /\ (f0 = KMutex o \/ f0 = KWait o)) as (f0 & E & -> & Ef).
    { destruct (locks_writing o); injection H2 as <- <-; eexists; (split; [done|split; [done|]]); [by left|by right]. }
    split; [|by intros o' ?%elem_of_list_singleton]. destruct (decide (g0 = g')) as [->|Hne]; [|eapply Hoth; [exact Eg|done|exact E]].
    destruct Hst as [Hst|(o' & [Hst|Hst])]; rewrite Hst in Eg; injection Eg as <-; [|done..]. right. exists o.
    rewrite E, list_lookup_insert by (by eapply lookup_lt_Some). destruct Ef as [->| ->]; [by right|by left].
  - destruct (k_g s1 !! g0) as [[|[o|o|o|o|o] old]|] eqn:Eg; try done. by rewrite Hb1 in H2.
  - destruct (k_g s1 !! g0) as [[|[o|o|o|o|o] old]|] eqn:Eg; try done. destruct (k_readers s1); [|done]. injection H2 as <- <-. split; [|intros o'; apply not_elem_of_nil].
    eapply Hoth; [exact Eg| |reflexivity]. intros ->. destruct Hst as [Hst|(o' & [Hst|Hst])]; by rewrite Hst in Eg.
  - destruct (k_g s1 !! g0) as [[|[o|o|o|o|o] old]|] eqn:Eg; try done; [|by destruct (Hnw g0 o old)]. injection H2 as <- <-.
    assert (g0 <> g') as Hne. { intros ->. destruct Hst as [Hst|(o' & [Hst|Hst])]; by rewrite Hst in Eg. }
    split; [eapply Hoth; [exact Eg|done|reflexivity]|]. intros o' [= -> _]%elem_of_list_singleton. done.
Qed.

(** ** Calls that return *)

Definition kcost (f : kframe) : nat := match f with KMutex _ => 4 | KDrain _ => 3 | KWrite _ => 2 | KWait _ => 2 | KRead _ => 1 end.

Lemma kcost_step s l s' ev : goes_on l = true -> kstep s l = Some (s', ev) -> sum_list (total kcost <$> k_g s') < sum_list (total kcost <$> k_g s).
Proof.
  intros Hl Hs. unfold kstep in Hs. destruct l as [g o|g|g|g]; [done|..];
    destruct (k_g s !! g) as [[|[o|o|o|o|o] fs]|] eqn:Eg; try done.
  - destruct (k_busy s); [done|]. injection Hs as <- <-. cbn [k_g]. pose proof (sum_insert (total kcost) _ g _ (KDrain o :: fs) Eg) as H. rewrite !total_cons in H. cbn [kcost] in H. lia.
  - destruct (k_readers s); [|done]. injection Hs as <- <-. cbn [k_g]. pose proof (sum_insert (total kcost) _ g _ (KWrite o :: fs) Eg) as H. rewrite !total_cons in H. cbn [kcost] in H. lia.
  - injection Hs as <- <-. cbn [k_g]. pose proof (sum_insert (total kcost) _ g _ fs Eg) as H. rewrite !total_cons in H. cbn [kcost] in H. lia.
  - injection Hs as <- <-. cbn [k_g]. pose proof (sum_insert (total kcost) _ g _ fs Eg) as H. rewrite !total_cons in H. cbn [kcost] in H.
    assert (sum_list (total kcost <$> (admit_reader <$> <[g := fs]> (k_g s))) <= sum_list (total kcost <$> <[g := fs]> (k_g s))) as Hle; [|lia].
    apply (sum_le admit_reader (total kcost)). intros [|[] q]; try done. cbn [admit_reader]. rewrite !total_cons. cbn [kcost]. lia.
Qed.

Lemma kstuck s : kinv s -> (forall l, goes_on l = true -> kstep s l = None) -> (exists g f fs, k_g s !! g = Some (f :: fs)) -> exists g, waits_inside s g.
Proof.
  intros HI Hst (g & f & fs & Hg).
  assert (forall g f fs, k_g s !! g = Some (f :: fs) -> holds_lock f = false) as Hnh.
  { intros g1 f1 fs1 H1. destruct f1; try done; specialize (Hst (KEnd g1) eq_refl); unfold kstep in Hst; by rewrite H1 in Hst. }
  assert (forall g f r rest, k_g s !! g = Some (f :: r :: rest) -> exists g, waits_inside s g) as Hdone. { intros g1 f1 r1 rest1 H1. exists g1, f1, r1, rest1. split; [done|by eapply Hnh]. }
  pose proof HI as (HA & HB & HC & HD).
  assert (forall c, 0 < sum_list (total c <$> k_g s) -> (forall f, holds_lock f = false -> c f = 0) -> exists g, waits_inside s g) as Hc.
  { intros c Hp Hz. apply sum_positive in Hp as (q & Hq & Hcq). apply elem_of_list_lookup in Hq as [g1 H1]. destruct q as [|f1 [|r1 rest1]]; [cbn in Hcq; lia| |by eapply Hdone].
    rewrite total_cons, (Hz f1) in Hcq by (by eapply Hnh). cbn in Hcq. lia. }
  destruct (k_readers s) as [|n] eqn:Er; [|apply (Hc reads); [lia|by intros []]].
  destruct (k_busy s) eqn:Eb.
  - assert (0 < sum_list (total turns <$> k_g s)) as Hp by lia. apply sum_positive in Hp as (q & Hq & Hcq). apply elem_of_list_lookup in Hq as [g1 H1].
    destruct q as [|f1 [|r1 rest1]]; [cbn in Hcq; lia| |by eapply Hdone]. pose proof (Hnh _ _ _ H1) as Hf1. destruct f1 as [o|o|o|o|o]; try done; [cbn in Hcq; lia..|].
    specialize (Hst (KEnter g1) eq_refl). unfold kstep in Hst. by rewrite H1, Er in Hst.
  - pose proof (Hnh _ _ _ Hg) as Hf. destruct f as [o|o|o|o|o]; try done.
    + destruct (kstack s g _ HI Hg) as (_ & _ & C). cbn in C. congruence.
    + specialize (Hst (KTake g) eq_refl). unfold kstep in Hst. by rewrite Hg, Eb in Hst.
    + pose proof (total_le turns s g _ Hg) as Hle. rewrite total_cons in Hle. cbn [turns] in Hle. lia.
Qed.

(** Nobody in a call of an index function stays so while no new calls are made. *)
Definition shallow (s : kstate) : Prop := forall g fs, k_g s !! g = Some fs -> length fs <= 1.
Lemma shallow_step s l s' ev : goes_on l = true -> kstep s l = Some (s', ev) -> shallow s -> shallow s'.
Proof.
  intros Hl Hs Hsh g fs Hg. unfold kstep in Hs. destruct l as [g0 o|g0|g0|g0]; [done|..]; destruct (k_g s !! g0) as [[|[o|o|o|o|o] old]|] eqn:Eg; try done.
  - destruct (k_busy s); [done|]. injection Hs as <- <-. cbn [k_g] in Hg. destruct (decide (g = g0)) as [->|Hne]; [|rewrite list_lookup_insert_ne in Hg by done; by eapply Hsh].
    rewrite list_lookup_insert in Hg by (by eapply lookup_lt_Some). injection Hg as <-. exact (Hsh _ _ Eg).
  - destruct (k_readers s); [|done]. injection Hs as <- <-. cbn [k_g] in Hg. destruct (decide (g = g0)) as [->|Hne]; [|rewrite list_lookup_insert_ne in Hg by done; by eapply Hsh].
    rewrite list_lookup_insert in Hg by (by eapply lookup_lt_Some). injection Hg as <-. exact (Hsh _ _ Eg).
  - injection Hs as <- <-. cbn [k_g] in Hg. destruct (decide (g = g0)) as [->|Hne]; [|rewrite list_lookup_insert_ne in Hg by done; by eapply Hsh].
    rewrite list_lookup_insert in Hg by (by eapply lookup_lt_Some). injection Hg as <-. specialize (Hsh _ _ Eg). cbn in Hsh. lia.
  - injection Hs as <- <-. cbn [k_g] in Hg. rewrite list_lookup_fmap in Hg. destruct (<[g0 := old]> (k_g s) !! g) as [q|] eqn:Eq; [|done]. injection Hg as <-.
    assert (length (admit_reader q) = length q) as -> by (by destruct q as [|[] ?]).
    destruct (decide (g = g0)) as [->|Hne]; [|rewrite list_lookup_insert_ne in Eq by done; by eapply Hsh].
    rewrite list_lookup_insert in Eq by (by eapply lookup_lt_Some). injection Eq as <-. specialize (Hsh _ _ Eg). cbn in Hsh. lia.
Qed.

Lemma kreturns s ls s' ev : kinv s -> shallow s -> Forall (fun l => goes_on l = true) ls -> krun s ls = Some (s', ev) ->
  length ls + sum_list (total kcost <$> k_g s') <= sum_list (total kcost <$> k_g s) /\ shallow s'.
Proof.
  intros HI Hsh. revert s' ev. induction ls as [|l ls IH] using rev_ind; intros s' ev HF Hr; [injection Hr as <- <-; cbn; split; [lia|done]|].
  apply Forall_app in HF as [HF Hl]. apply (Forall_inv (P := fun l => goes_on l = true)) in Hl.
  apply run_snoc in Hr as (s1 & ev1 & ev2 & H1 & H2 & ->). destruct (IH _ _ HF H1) as [Hle Hsh1]. pose proof (kcost_step _ _ _ _ Hl H2).
  rewrite app_length. cbn [length]. split; [lia|]. by eapply shallow_step.
Qed.
