(** Facts about the registry under concurrent use. *)
From Coq Require Import ZArith NArith Lia.
From stdpp Require Import base gmap list.
From Verif Require Import GoBase Encoding Run RegistryConc.

Local Open Scope list_scope.
Local Opaque must_register.

(** ** Specification *)

(** What returned, in order. *)
Definition returned {R} (ev : list (@regev R)) : list (rcall * @rout R) :=
  omap (fun e => match e with ERet _ c o => Some (c, o) | _ => None end) ev.

(** [replays answer reg l reg']: made one after the other from [reg], these calls
    return just that and leave [reg'].  A codec's panic changes nothing. *)
Inductive replays {R} (answer : registry -> rcall -> R) : registry -> list (rcall * @rout R) -> registry -> Prop :=
  | rp_nil reg : replays answer reg [] reg
  | rp_reg reg code x reg1 l reg' : must_register code x reg = Ok reg1 -> replays answer reg1 l reg' ->
      replays answer reg ((RReg code x, OutReg (Ok tt)) :: l) reg'
  | rp_fails reg code x o l reg' : (forall r, must_register code x reg <> Ok r) ->
      match o with Ok _ => False | Err e => must_register code x reg = Err e | Panic => must_register code x reg = Panic end ->
      replays answer reg l reg' -> replays answer reg ((RReg code x, OutReg o) :: l) reg'
  | rp_read reg c l reg' : (forall code x, c <> RReg code x) -> replays answer reg l reg' ->
      replays answer reg ((c, OutVal (answer reg c)) :: l) reg'
  | rp_panic reg c l reg' : (forall code x, c <> RReg code x) -> replays answer reg l reg' ->
      replays answer reg ((c, OutPanicked) :: l) reg'.

(** Goroutine [g] is in these calls after [ev], innermost first: each return was
    that of the innermost call. *)
Definition who {R} (e : @regev R) : nat := match e with ECall g _ => g | ERet g _ _ => g end.
Inductive inside {R} (g : nat) : list (@regev R) -> list rcall -> Prop :=
  | is_nil : inside g [] []
  | is_call ev c cs : inside g ev cs -> inside g (ev ++ [ECall g c]) (c :: cs)
  | is_ret ev c cs o : inside g ev (c :: cs) -> inside g (ev ++ [ERet g c o]) cs
  | is_other ev e cs : inside g ev cs -> who e <> g -> inside g (ev ++ [e]) cs.

(** A goroutine that waits for the mutex; one that does so in a codec, that is,
    while it has the mutex for reading. *)
Definition waiting (fs : list rframe) : Prop := match fs with FQueued _ :: _ | FMutex _ :: _ | FDrain _ :: _ => True | _ => False end.
Definition waits_in_codec (s : rstate) (g : nat) : Prop := exists f fs, st_g s !! g = Some (f :: fs) /\ waiting (f :: fs) /\ fs <> [].

(** ** Invariant *)

Definition is_in (f : rframe) : bool := match f with FIn _ _ => true | _ => false end.
Definition nin (fs : list rframe) : nat := length (filter (fun f => is_in f = true) fs).
Definition ndrain (fs : list rframe) : nat := match fs with FDrain _ :: _ => 1 | _ => 0 end.
Definition frame_call (f : rframe) : rcall := match f with FQueued c => c | FIn c _ => c | FMutex c => c | FDrain c => c end.

Definition frame_ok (s : rstate) (f : rframe) : Prop :=
  match f with
  | FQueued c => st_busy s = true /\ reads_registry c = true
  | FIn c reg => reg = st_reg s /\ reads_registry c = true
  | FMutex c | FDrain c => exists code x, c = RReg code x
  end.
Definition stack_ok (s : rstate) (fs : list rframe) : Prop :=
  Forall (frame_ok s) fs /\ Forall (fun f => is_in f = true) (tail fs).
Definition rinv (s : rstate) : Prop :=
  Forall (stack_ok s) (st_g s) /\ st_active s = sum_list (nin <$> st_g s) /\
  sum_list (ndrain <$> st_g s) = if st_busy s then 1 else 0.

Lemma sum_insert {A} (f : A -> nat) (l : list A) g old new : l !! g = Some old ->
  sum_list (f <$> <[g := new]> l) + f old = sum_list (f <$> l) + f new.
Proof.
  revert g. induction l as [|x l IH]; intros g H; [done|]. destruct g as [|g].
  - injection H as ->. cbn. lia.
  - specialize (IH g H). change (f x + sum_list (f <$> <[g := new]> l) + f old = f x + sum_list (f <$> l) + f new). lia.
Qed.
Lemma sum_member {A} (f : A -> nat) (l : list A) x : x ∈ l -> f x <= sum_list (f <$> l).
Proof. induction 1 as [x l|x y l H IH]; [change (f x <= f x + sum_list (f <$> l))|change (f x <= f y + sum_list (f <$> l))]; lia. Qed.
Lemma sum_zero {A} (f : A -> nat) (l : list A) : (forall x, x ∈ l -> f x = 0) -> sum_list (f <$> l) = 0.
Proof. induction l as [|x l IH]; intros H; [done|]. change (f x + sum_list (f <$> l) = 0). rewrite (H x) by left. apply IH. intros y Hy. apply H. by right. Qed.
Lemma sum_positive {A} (f : A -> nat) (l : list A) : 0 < sum_list (f <$> l) -> exists x, x ∈ l /\ 0 < f x.
Proof.
  induction l as [|x l IH]; [cbn; lia|]. intros H. destruct (f x) eqn:E.
  - destruct IH as (y & Hy & Hf); [change (0 < f x + sum_list (f <$> l)) in H; lia|]. exists y. split; [by right|done].
  - exists x. split; [left|lia].
Qed.
Lemma nin_cons f fs : nin (f :: fs) = (if is_in f then 1 else 0) + nin fs.
Proof. unfold nin. rewrite filter_cons. destruct (is_in f); [rewrite decide_True by done|rewrite decide_False by done]; done. Qed.
Lemma nin_tail fs : Forall (fun f => is_in f = true) fs -> nin fs = length fs.
Proof. induction 1 as [|f fs Hf HF IH]; [done|]. rewrite nin_cons, Hf, IH. done. Qed.

Lemma stack_lookup s g fs : rinv s -> st_g s !! g = Some fs -> stack_ok s fs.
Proof. intros [H _] Hg. by apply (proj1 (Forall_lookup _ _) H g). Qed.

Lemma ok_same s s' fs : st_reg s' = st_reg s -> (st_busy s = true -> st_busy s' = true) -> stack_ok s fs -> stack_ok s' fs.
Proof.
  intros H1 H2 [A B]. split; [|done]. eapply Forall_impl; [exact A|]. intros [c|c r|c|c] H; cbn [frame_ok] in *; [split; [apply H2, H|apply H]|rewrite H1; exact H|exact H..].
Qed.

Section facts.
Context {R : Type} (answer : registry -> rcall -> R).
Local Notation rstep := (rstep answer).
Local Notation rrun := (rrun answer).

Lemma inv_init n reg : rinv (r_init n reg).
Proof.
  split; [|split].
  - apply Forall_forall. intros fs Hin. apply elem_of_replicate_inv in Hin as ->. split; constructor.
  - symmetry. apply sum_zero. intros fs Hin. by apply elem_of_replicate_inv in Hin as ->.
  - apply sum_zero. intros fs Hin. by apply elem_of_replicate_inv in Hin as ->.
Qed.

(** Replacing one stack. *)
Lemma inv_insert s g fs fs' reg busy act : rinv s -> st_g s !! g = Some fs ->
  reg = st_reg s -> (st_busy s = true -> busy = true) ->
  stack_ok (RState reg busy act []) fs' -> act + nin fs = st_active s + nin fs' ->
  (if busy then 1 else 0) + ndrain fs = (if st_busy s then 1 else 0) + ndrain fs' ->
  rinv (RState reg busy act (<[g := fs']> (st_g s))).
Proof.
  intros (HA & HB & HC) Hg -> Hb Hok Hact Hd. split; [|split]; cbn [st_g st_active st_busy].
  - apply Forall_insert; [|exact Hok]. eapply Forall_impl; [exact HA|]. intros x. by apply ok_same.
  - pose proof (sum_insert nin _ g fs fs' Hg). lia.
  - pose proof (sum_insert ndrain _ g fs fs' Hg). lia.
Qed.

Lemma no_readers s fs : rinv s -> st_active s = 0 -> fs ∈ st_g s -> nin fs = 0.
Proof. intros (_ & H & _) H0 Hin. pose proof (sum_member nin _ _ Hin). lia. Qed.
Lemma no_readers_short s fs : stack_ok s fs -> nin fs = 0 -> fs = [] \/ exists f, fs = [f] /\ is_in f = false.
Proof.
  intros [_ H] H0. destruct fs as [|f fs]; [by left|]. right. cbn [tail] in H. rewrite nin_cons, (nin_tail _ H) in H0.
  destruct fs; [|cbn in H0; lia]. exists f. split; [done|]. by destruct (is_in f).
Qed.

Lemma inv_step s l s' ev : rinv s -> rstep s l = Some (s', ev) -> rinv s'.
Proof.
  intros HI Hs. unfold RegistryConc.rstep in Hs. destruct l as [g c|g|g|g|g].
  - destruct (st_g s !! g) as [fs|] eqn:Eg; [|done]. destruct (stack_lookup s g fs HI Eg) as [A B].
    assert (Forall (fun f => is_in f = true) fs -> Forall (frame_ok s) fs ->
      match c with
      | RReg _ _ => Some (RState (st_reg s) (st_busy s) (st_active s) (<[g:=FMutex c :: fs]> (st_g s)), [ECall g c])
      | _ => if reads_registry c then
            if st_busy s then Some (RState (st_reg s) true (st_active s) (<[g:=FQueued c :: fs]> (st_g s)), [ECall g c])
            else Some (RState (st_reg s) false (S (st_active s)) (<[g:=FIn c (st_reg s) :: fs]> (st_g s)), [ECall g c])
          else Some (s, [ECall g c; ERet g c (OutVal (answer (st_reg s) c))])
      end = Some (s', ev) -> rinv s') as Hgo.
    { intros HF HO E.
      assert (ndrain fs = 0) as Hnd by (destruct HF as [|[] ? ?]; done).
      assert (Forall (frame_ok (RState (st_reg s) (st_busy s) 0 [])) fs) as HO' by (eapply Forall_impl; [exact HO|]; by intros []).
      destruct c as [code x|x|a].
      - injection E as <- <-. eapply inv_insert; [exact HI|exact Eg|done|done| | |].
        + split; [|exact HF]. constructor; [by exists code, x|]. eapply Forall_impl; [exact HO|]. by intros [].
        + rewrite nin_cons. cbn. lia.
        + cbn [ndrain]. lia.
      - cbn [reads_registry] in E. destruct (st_busy s) eqn:Eb; injection E as <- <-.
        + eapply inv_insert; [exact HI|exact Eg|done|done| | |].
          * split; [|exact HF]. constructor; [done|]. eapply Forall_impl; [exact HO|]. intros []; cbn; tauto.
          * rewrite nin_cons. cbn. lia.
          * cbn [ndrain]. rewrite Eb. lia.
        + eapply inv_insert; [exact HI|exact Eg|done|by rewrite Eb| | |].
          * split; [|exact HF]. constructor; [done|]. eapply Forall_impl; [exact HO|]. intros []; cbn; rewrite ?Eb; tauto.
          * rewrite nin_cons. cbn. lia.
          * cbn [ndrain]. rewrite Eb. lia.
      - destruct (reads_registry (RDec a)) eqn:Er; [|by injection E as <- <-]. destruct (st_busy s) eqn:Eb; injection E as <- <-.
        + eapply inv_insert; [exact HI|exact Eg|done|done| | |].
          * split; [|exact HF]. constructor; [done|]. eapply Forall_impl; [exact HO|]. intros []; cbn; tauto.
          * rewrite nin_cons. cbn. lia.
          * cbn [ndrain]. rewrite Eb. lia.
        + eapply inv_insert; [exact HI|exact Eg|done|by rewrite Eb| | |].
          * split; [|exact HF]. constructor; [done|]. eapply Forall_impl; [exact HO|]. intros []; cbn; rewrite ?Eb; tauto.
          * rewrite nin_cons. cbn. lia.
          * cbn [ndrain]. rewrite Eb. lia. }
    destruct fs as [|[c0|c0 r0|c0|c0] fs]; try done.
    + apply Hgo; [constructor|constructor|exact Hs].
    + apply Hgo; [by constructor|exact A|exact Hs].
  - destruct (st_g s !! g) as [[|[c0|c0 r0|c0|c0] fs]|] eqn:Eg; try done. destruct (st_busy s) eqn:Eb; [done|]. injection Hs as <- <-.
    destruct (stack_lookup s g _ HI Eg) as [A B]. apply Forall_cons in A as [A0 A].
    eapply inv_insert; [exact HI|exact Eg|done|done| | |].
    + split; [|exact B]. constructor; [exact A0|]. eapply Forall_impl; [exact A|]. intros []; cbn; rewrite ?Eb; [by intros [? _]|done..].
    + rewrite !nin_cons. cbn. lia.
    + cbn [ndrain]. rewrite Eb. lia.
  - destruct (st_g s !! g) as [[|[c0|c0 r0|c0|[code x|x|a]] fs]|] eqn:Eg; try done. destruct (st_active s) as [|] eqn:Ea; [|done].
    set (reg := match must_register code x (st_reg s) with Ok r => r | _ => st_reg s end).
    assert (exists o, Some (RState reg false (length (filter (fun fs => waits_in fs = true) (<[g:=fs]> (st_g s)))) (let_in reg <$> <[g:=fs]> (st_g s)), [ERet g (RReg code x) (OutReg o)]) = Some (s', ev)) as [o E].
    { subst reg. destruct (must_register code x (st_reg s)); eexists; exact Hs. }
    injection E as <- <-. pose proof HI as (HA & HB & HC).
    assert (ndrain fs = 0) as Hnd by (destruct (stack_lookup s g _ HI Eg) as [_ B]; cbn [tail] in B; destruct B as [|[] ? ?]; done).
    assert (forall q, q ∈ <[g := fs]> (st_g s) -> q = [] \/ (exists c, q = [FQueued c] /\ reads_registry c = true) \/ (exists code x, q = [FMutex (RReg code x)])) as Hall.
    { intros q Hq.
      assert (sum_list (ndrain <$> st_g s) <= 1) as Hle by (rewrite HC; destruct (st_busy s); lia).
      assert (ndrain q = 0) as Hndq.
      { pose proof (sum_insert ndrain _ g _ fs Eg) as Hsi. cbn [ndrain] in Hsi. pose proof (sum_member ndrain _ _ Hq). lia. }
      assert (exists q0, q0 ∈ st_g s /\ (q = q0 \/ q0 = FDrain (RReg code x) :: q)) as (q0 & Hq0 & Hcase).
      { apply elem_of_list_lookup in Hq as [p Hp]. destruct (decide (p = g)) as [->|Hne].
        - rewrite list_lookup_insert in Hp by (by eapply lookup_lt_Some). injection Hp as <-. eexists. split; [eapply elem_of_list_lookup_2; exact Eg|by right].
        - rewrite list_lookup_insert_ne in Hp by done. exists q. split; [by eapply elem_of_list_lookup_2|by left]. }
      pose proof (no_readers s q0 HI Ea Hq0) as Hn. pose proof (proj1 (Forall_forall _ _) HA _ Hq0) as Hok.
      destruct (no_readers_short s q0 Hok Hn) as [->|(f & -> & Hf)].
      - destruct Hcase as [->|]; [by left|done].
      - destruct Hcase as [->|[= -> ->]]; [|by left]. destruct Hok as [Hok _]. apply Forall_cons in Hok as [Hok _].
        destruct f as [c|c r|c|c]; cbn in *; [|done| |lia].
        + right; left. exists c. split; [done|apply Hok].
        + right; right. destruct Hok as (code' & x' & ->). by exists code', x'. }
    split; [|split]; cbn [st_g st_active st_busy].
    + apply Forall_fmap, Forall_forall. intros q Hq. destruct (Hall q Hq) as [->|[(c & -> & Hr)|(code' & x' & ->)]]; split; try constructor; cbn; eauto.
    + clear -Hall. induction (<[g:=fs]> (st_g s)) as [|q l IH]; [done|].
      assert (length (filter (fun fs => waits_in fs = true) l) = sum_list (nin <$> (let_in reg <$> l))) as IH' by (apply IH; intros q' Hq'; apply Hall; by right).
      rewrite filter_cons. cbn [fmap list_fmap sum_list]. change (list_fmap ?A ?B ?f ?x) with (f <$> x). rewrite <- IH'. destruct (Hall q) as [->|[(c & -> & Hr)|(code' & x' & ->)]]; [left|..]; cbn [waits_in].
      * by rewrite decide_False by done.
      * rewrite decide_True by done. cbn. done.
      * by rewrite decide_False by done.
    + apply sum_zero. intros q Hq. apply elem_of_list_fmap in Hq as (q0 & -> & Hq). destruct (Hall q0 Hq) as [->|[(c & -> & Hr)|(code' & x' & ->)]]; done.
  - destruct (st_g s !! g) as [[|[c0|c0 r0|c0|c0] fs]|] eqn:Eg; try done. injection Hs as <- <-.
    destruct (stack_lookup s g _ HI Eg) as [A B]. apply Forall_cons in A as [A0 A]. cbn [tail] in B.
    assert (1 + nin fs <= st_active s) as Hle. { destruct HI as (_ & -> & _). rewrite <- (nin_cons (FIn c0 r0) fs : _ = 1 + _). apply sum_member. by eapply elem_of_list_lookup_2. }
    eapply inv_insert; [exact HI|exact Eg|done|done| | |].
    + split; [eapply Forall_impl; [exact A|]; by intros []|]. destruct B; [constructor|done].
    + rewrite nin_cons. cbn [is_in]. lia.
    + cbn [ndrain]. destruct B as [|[] ? ?]; cbn; try done; lia.
  - destruct (st_g s !! g) as [[|[c0|c0 r0|c0|c0] fs]|] eqn:Eg; try done. injection Hs as <- <-.
    destruct (stack_lookup s g _ HI Eg) as [A B]. apply Forall_cons in A as [A0 A]. cbn [tail] in B.
    assert (1 + nin fs <= st_active s) as Hle. { destruct HI as (_ & -> & _). rewrite <- (nin_cons (FIn c0 r0) fs : _ = 1 + _). apply sum_member. by eapply elem_of_list_lookup_2. }
    eapply inv_insert; [exact HI|exact Eg|done|done| | |].
    + split; [eapply Forall_impl; [exact A|]; by intros []|]. destruct B; [constructor|done].
    + rewrite nin_cons. cbn [is_in]. lia.
    + cbn [ndrain]. destruct B as [|[] ? ?]; cbn; try done; lia.
Qed.

Lemma inv_run s ls s' ev : rinv s -> rrun s ls = Some (s', ev) -> rinv s'.
Proof.
  revert s' ev. induction ls as [|l ls IH] using rev_ind; intros s' ev HI Hr; [by injection Hr as <- <-|].
  apply run_snoc in Hr as (s1 & ev1 & ev2 & H1 & H2 & ->). eapply inv_step; [by eapply IH|exact H2].
Qed.

(** ** One after the other *)

Lemma replays_snoc reg l reg' c o reg'' : replays answer reg l reg' -> replays answer reg' [(c, o)] reg'' -> replays answer reg (l ++ [(c, o)]) reg''.
Proof. induction 1; intros H2; [exact H2|econstructor; eauto..]. Qed.

Lemma reads_not_reg c : reads_registry c = true -> forall code x, c <> RReg code x.
Proof. intros H code x ->. discriminate H. Qed.

(** What a step does, with the invariant applied. *)
Lemma step_replays s l s' ev : rinv s -> rstep s l = Some (s', ev) -> st_reg s' = st_reg s /\ returned ev = [] \/
  exists c o, returned ev = [(c, o)] /\ replays answer (st_reg s) [(c, o)] (st_reg s').
Proof.
  intros HI Hs. unfold RegistryConc.rstep in Hs. destruct l as [g c|g|g|g|g].
  - destruct (st_g s !! g) as [fs|] eqn:Eg; [|done]. destruct fs as [|[c0|c0 r0|c0|c0] fs]; try done.
    all: destruct c as [code x|x|a]; [injection Hs as <- <-; by left|..].
    all: destruct (reads_registry _) eqn:Er; [destruct (st_busy s); injection Hs as <- <-; by left|].
    all: injection Hs as <- <-; right; do 2 eexists; split; [reflexivity|]; constructor; [done|constructor].
  - destruct (st_g s !! g) as [[|[c0|c0 r0|c0|c0] fs]|] eqn:Eg; try done. destruct (st_busy s); [done|]. injection Hs as <- <-. by left.
  - destruct (st_g s !! g) as [[|[c0|c0 r0|c0|[code x|x|a]] fs]|] eqn:Eg; try done. destruct (st_active s); [|done]. right.
    destruct (must_register code x (st_reg s)) as [r|e|] eqn:Em; injection Hs as <- <-; do 2 eexists; (split; [reflexivity|]); cbn [st_reg].
    + eapply rp_reg; [exact Em|constructor].
    + eapply rp_fails; [by rewrite Em|exact Em|constructor].
    + eapply rp_fails; [by rewrite Em|exact Em|constructor].
  - destruct (st_g s !! g) as [[|[c0|c0 r0|c0|c0] fs]|] eqn:Eg; try done. injection Hs as <- <-.
    destruct (stack_lookup s g _ HI Eg) as [A _]. apply Forall_cons in A as [[-> A] _]. right. do 2 eexists. split; [reflexivity|].
    constructor; [by apply reads_not_reg|constructor].
  - destruct (st_g s !! g) as [[|[c0|c0 r0|c0|c0] fs]|] eqn:Eg; try done. injection Hs as <- <-.
    destruct (stack_lookup s g _ HI Eg) as [A _]. apply Forall_cons in A as [[-> A] _]. right. do 2 eexists. split; [reflexivity|].
    constructor; [by apply reads_not_reg|constructor].
Qed.

Lemma sequential n reg ls s ev : rrun (r_init n reg) ls = Some (s, ev) -> replays answer reg (returned ev) (st_reg s).
Proof.
  revert s ev. induction ls as [|l ls IH] using rev_ind; intros s ev Hr; [injection Hr as <- <-; constructor|].
  apply run_snoc in Hr as (s1 & ev1 & ev2 & H1 & H2 & ->). pose proof (IH _ _ H1) as H. unfold returned in *. rewrite omap_app.
  destruct (step_replays s1 l s ev2 (inv_run _ _ _ _ (inv_init n reg) H1) H2) as [[-> E]|(c & o & E & Hrp)]; unfold returned in E; rewrite E.
  - by rewrite app_nil_r.
  - by eapply replays_snoc.
Qed.

(** ** Calls and returns *)

Lemma let_in_calls reg fs : frame_call <$> let_in reg fs = frame_call <$> fs.
Proof. by destruct fs as [|[] ?]. Qed.

Lemma nested n reg ls s ev g fs : rrun (r_init n reg) ls = Some (s, ev) -> st_g s !! g = Some fs -> inside g ev (frame_call <$> fs).
Proof.
  revert s ev fs. induction ls as [|l ls IH] using rev_ind; intros s ev fs Hr Hg.
  { injection Hr as <- <-. apply lookup_replicate in Hg as [-> _]. constructor. }
  apply run_snoc in Hr as (s1 & ev1 & ev2 & H1 & H2 & ->). pose proof (fun fs => IH _ _ fs H1) as HI.
  assert (forall g0 old new e, st_g s1 !! g0 = Some old -> st_g s = <[g0 := new]> (st_g s1) -> ev2 = [e] -> who e = g0 ->
    (inside g0 ev1 (frame_call <$> old) -> inside g0 (ev1 ++ [e]) (frame_call <$> new)) -> inside g (ev1 ++ ev2) (frame_call <$> fs)) as Hone.
  { intros g0 old new e H0 Hn -> Hw Hin. rewrite Hn in Hg. destruct (decide (g = g0)) as [->|Hne].
    - rewrite list_lookup_insert in Hg by (by eapply lookup_lt_Some). injection Hg as <-. by apply Hin, HI.
    - rewrite list_lookup_insert_ne in Hg by done. apply is_other; [by apply HI|congruence]. }
  unfold RegistryConc.rstep in H2. destruct l as [g0 c|g0|g0|g0|g0].
  - destruct (st_g s1 !! g0) as [old|] eqn:Eg; [|done].
    assert (forall f b a r, frame_call f = c -> Some (RState r b a (<[g0 := f :: old]> (st_g s1)), [@ECall R g0 c]) = Some (s, ev2) -> inside g (ev1 ++ ev2) (frame_call <$> fs)) as Hpush.
    { intros f b a r Hf [= <- <-]. eapply Hone; [exact Eg|reflexivity|reflexivity|done|]. intros Hin. cbn [fmap list_fmap]. rewrite Hf. by apply is_call. }
    assert (Some (s1, [@ECall R g0 c; ERet g0 c (OutVal (answer (st_reg s1) c))]) = Some (s, ev2) -> inside g (ev1 ++ ev2) (frame_call <$> fs)) as Hquick.
    { intros [= <- <-]. change [@ECall R g0 c; ERet g0 c (OutVal (answer (st_reg s1) c))] with ([@ECall R g0 c] ++ [ERet g0 c (OutVal (answer (st_reg s1) c))]). rewrite app_assoc.
      destruct (decide (g = g0)) as [->|Hne]; [apply is_ret, is_call, HI, Hg|]. apply is_other; [apply is_other; [by apply HI|]|]; cbn; congruence. }
    destruct old as [|[c0|c0 r0|c0|c0] old]; try done.
    all: destruct c as [code x|x|a]; [eapply Hpush; [|exact H2]; done|..].
    all: destruct (reads_registry _) eqn:Er; [|by apply Hquick].
    all: destruct (st_busy s1); (eapply Hpush; [|exact H2]; done).
  - destruct (st_g s1 !! g0) as [[|[c0|c0 r0|c0|c0] old]|] eqn:Eg; try done. destruct (st_busy s1); [done|]. injection H2 as <- <-.
    rewrite app_nil_r. cbn [st_g] in Hg. destruct (decide (g = g0)) as [->|Hne].
    + rewrite list_lookup_insert in Hg by (by eapply lookup_lt_Some). injection Hg as <-. by apply HI in Eg.
    + rewrite list_lookup_insert_ne in Hg by done. by apply HI.
  - destruct (st_g s1 !! g0) as [[|[c0|c0 r0|c0|[code x|x|a]] old]|] eqn:Eg; try done. destruct (st_active s1); [|done].
    assert (exists r o, st_g s = let_in r <$> <[g0 := old]> (st_g s1) /\ ev2 = [ERet g0 (RReg code x) (OutReg o)]) as (r & o & Hn & ->).
    { destruct (must_register code x (st_reg s1)); injection H2 as <- <-; do 2 eexists; done. }
    rewrite Hn, list_lookup_fmap in Hg. destruct (<[g0:=old]> (st_g s1) !! g) as [q|] eqn:Eq; [|done]. injection Hg as <-. rewrite let_in_calls.
    destruct (decide (g = g0)) as [->|Hne].
    + rewrite list_lookup_insert in Eq by (by eapply lookup_lt_Some). injection Eq as <-. by apply is_ret, HI in Eg || (apply HI in Eg; by apply is_ret).
    + rewrite list_lookup_insert_ne in Eq by done. apply is_other; [by apply HI|]. cbn. congruence.
  - destruct (st_g s1 !! g0) as [[|[c0|c0 r0|c0|c0] old]|] eqn:Eg; try done. injection H2 as <- <-.
    eapply Hone; [exact Eg|reflexivity|reflexivity|done|]. intros Hin. by apply is_ret.
  - destruct (st_g s1 !! g0) as [[|[c0|c0 r0|c0|c0] old]|] eqn:Eg; try done. injection H2 as <- <-.
    eapply Hone; [exact Eg|reflexivity|reflexivity|done|]. intros Hin. by apply is_ret.
Qed.

(** ** When nothing goes on *)

Definition stuck (s : rstate) : Prop := forall l, going_on l = true -> rstep s l = None.

Lemma stuck_why s : rinv s -> stuck s -> (exists fs, fs ∈ st_g s /\ fs <> []) -> exists g, waits_in_codec s g.
Proof.
  intros HI Hst (fs & Hin & Hne). pose proof HI as (HA & HB & HC).
  assert (forall g f q, st_g s !! g = Some (f :: q) -> waiting (f :: q)) as Hw.
  { intros g f q Hg. destruct f as [c|c r|c|c]; try done. specialize (Hst (LEnd g) eq_refl). unfold RegistryConc.rstep in Hst. by rewrite Hg in Hst. }
  assert (st_busy s = true) as Hb.
  { apply elem_of_list_lookup in Hin as [g Hg]. destruct fs as [|f fs]; [done|]. pose proof (Hw _ _ _ Hg) as Hwf.
    destruct (stack_lookup s g _ HI Hg) as [A _]. apply Forall_cons in A as [A _]. destruct f as [c|c r|c|c]; [apply A|done|..].
    - destruct (st_busy s) eqn:Eb; [done|]. specialize (Hst (LTake g) eq_refl). unfold RegistryConc.rstep in Hst. by rewrite Hg, Eb in Hst.
    - destruct (st_busy s); [done|]. pose proof (sum_member ndrain _ _ (elem_of_list_lookup_2 _ _ _ Hg)). cbn [ndrain] in *. lia. }
  rewrite Hb in HC. destruct (sum_positive ndrain (st_g s)) as (q & Hq & Hd); [lia|].
  destruct q as [|[c|c r|c|c] q]; cbn in Hd; try lia. apply elem_of_list_lookup in Hq as [g Hg].
  assert (0 < sum_list (nin <$> st_g s)) as Hact.
  { rewrite <- HB. destruct (st_active s) eqn:Ea; [|lia]. destruct (stack_lookup s g _ HI Hg) as [A _]. apply Forall_cons in A as [(code & x & ->) _].
    specialize (Hst (LReg g) eq_refl). unfold RegistryConc.rstep in Hst. rewrite Hg, Ea in Hst. by destruct (must_register code x (st_reg s)). }
  apply sum_positive in Hact as (q' & Hq' & Hn'). apply elem_of_list_lookup in Hq' as [g' Hg']. exists g'.
  destruct q' as [|f' q']; [cbn in Hn'; lia|]. exists f', q'. pose proof (Hw _ _ _ Hg') as Hwf. split; [exact Hg'|]. split; [exact Hwf|].
  intros ->. rewrite nin_cons in Hn'. destruct f'; cbn in Hn'; first [lia|exact Hwf].
Qed.

(** ** Calls return *)

Definition fcost (f : rframe) : nat := match f with FQueued _ | FMutex _ => 2 | _ => 1 end.
Definition scost (fs : list rframe) : nat := sum_list (fcost <$> fs).
Definition cost (s : rstate) : nat := sum_list (scost <$> st_g s).
Lemma scost_cons f fs : scost (f :: fs) = fcost f + scost fs.
Proof. reflexivity. Qed.
Lemma let_in_cost r fs : scost (let_in r fs) <= scost fs.
Proof. destruct fs as [|[] ?]; cbn; lia. Qed.
Lemma sum_le {A} (f : A -> A) (k : A -> nat) l : (forall x, k (f x) <= k x) -> sum_list (k <$> (f <$> l)) <= sum_list (k <$> l).
Proof. intros H. induction l as [|x l IH]; [done|]. change (k (f x) + sum_list (k <$> (f <$> l)) <= k x + sum_list (k <$> l)). specialize (H x). lia. Qed.

Lemma cost_step s l s' ev : going_on l = true -> rstep s l = Some (s', ev) -> cost s' < cost s.
Proof.
  intros Hl Hs. unfold RegistryConc.rstep, cost in *. destruct l as [g c|g|g|g|g]; [done|..].
  - destruct (st_g s !! g) as [[|[c0|c0 r0|c0|c0] fs]|] eqn:Eg; try done. destruct (st_busy s); [done|]. injection Hs as <- <-. cbn [st_g].
    pose proof (sum_insert scost _ g _ (FDrain c0 :: fs) Eg) as H. rewrite !scost_cons in H. cbn [fcost] in H. lia.
  - destruct (st_g s !! g) as [[|[c0|c0 r0|c0|[code x|x|a]] fs]|] eqn:Eg; try done. destruct (st_active s); [|done].
    assert (exists r, st_g s' = let_in r <$> <[g := fs]> (st_g s)) as (r & ->).
    { destruct (must_register code x (st_reg s)); injection Hs as <- <-; by eexists. }
    pose proof (sum_le (let_in r) scost (<[g := fs]> (st_g s)) (let_in_cost r)).
    pose proof (sum_insert scost _ g _ fs Eg) as H2. rewrite !scost_cons in H2. cbn [fcost] in H2. lia.
  - destruct (st_g s !! g) as [[|[c0|c0 r0|c0|c0] fs]|] eqn:Eg; try done. injection Hs as <- <-. cbn [st_g].
    pose proof (sum_insert scost _ g _ fs Eg) as H. rewrite !scost_cons in H. cbn [fcost] in H. lia.
  - destruct (st_g s !! g) as [[|[c0|c0 r0|c0|c0] fs]|] eqn:Eg; try done. injection Hs as <- <-. cbn [st_g].
    pose proof (sum_insert scost _ g _ fs Eg) as H. rewrite !scost_cons in H. cbn [fcost] in H. lia.
Qed.

(** Nobody new comes to wait in a codec when no calls are made. *)
Lemma free_step s l s' ev : rinv s -> going_on l = true -> rstep s l = Some (s', ev) -> (forall g, ~ waits_in_codec s g) -> forall g, ~ waits_in_codec s' g.
Proof.
  intros HI Hl Hs Hfree g' (f & q & Hg' & Hw & Hq). unfold RegistryConc.rstep in Hs.
  assert (forall g old new, st_g s !! g = Some old -> st_g s' = <[g := new]> (st_g s) -> (waiting (f :: q) -> new = f :: q -> False) -> False) as Hone.
  { intros g old new Hg Hn Hno. rewrite Hn in Hg'. destruct (decide (g' = g)) as [->|Hne].
    - rewrite list_lookup_insert in Hg' by (by eapply lookup_lt_Some). injection Hg' as ->. by apply Hno.
    - rewrite list_lookup_insert_ne in Hg' by done. apply (Hfree g'). by exists f, q. }
  destruct l as [g c|g|g|g|g]; [done|..].
  - destruct (st_g s !! g) as [[|[c0|c0 r0|c0|c0] fs]|] eqn:Eg; try done. destruct (st_busy s); [done|]. injection Hs as <- <-.
    eapply (Hone g); [exact Eg|reflexivity|]. intros _ [= <- ->]. apply (Hfree g). by exists (FMutex c0), q.
  - destruct (st_g s !! g) as [[|[c0|c0 r0|c0|[code x|x|a]] fs]|] eqn:Eg; try done. destruct (st_active s) eqn:Ea; [|done].
    assert (exists r, st_g s' = let_in r <$> <[g := fs]> (st_g s)) as (r & Hn).
    { destruct (must_register code x (st_reg s)); injection Hs as <- <-; by eexists. }
    rewrite Hn, list_lookup_fmap in Hg'. destruct (<[g:=fs]> (st_g s) !! g') as [p|] eqn:Ep; [|done]. injection Hg' as Hp.
    assert (p = f :: q) as ->. { destruct p as [|[c|c r0|c|c] p]; cbn in Hp; try done. injection Hp as <- _. done. }
    destruct (decide (g' = g)) as [->|Hne].
    + rewrite list_lookup_insert in Ep by (by eapply lookup_lt_Some). injection Ep as ->. apply (Hfree g). exists (FDrain (RReg code x)), (f :: q). done.
    + rewrite list_lookup_insert_ne in Ep by done. apply (Hfree g'). by exists f, q.
  - destruct (st_g s !! g) as [[|[c0|c0 r0|c0|c0] fs]|] eqn:Eg; try done. injection Hs as <- <-. eapply (Hone g); [exact Eg|reflexivity|].
    intros Hwf ->. destruct (stack_lookup s g _ HI Eg) as [_ B]. cbn [tail] in B. apply Forall_cons in B as [B _]. by destruct f.
  - destruct (st_g s !! g) as [[|[c0|c0 r0|c0|c0] fs]|] eqn:Eg; try done. injection Hs as <- <-. eapply (Hone g); [exact Eg|reflexivity|].
    intros Hwf ->. destruct (stack_lookup s g _ HI Eg) as [_ B]. cbn [tail] in B. apply Forall_cons in B as [B _]. by destruct f.
Qed.

Lemma free_run s ls s' ev : rinv s -> Forall (fun l => going_on l = true) ls -> rrun s ls = Some (s', ev) -> (forall g, ~ waits_in_codec s g) ->
  (forall g, ~ waits_in_codec s' g) /\ length ls + cost s' <= cost s.
Proof.
  intros HI HF. revert s' ev. induction ls as [|l ls IH] using rev_ind; intros s' ev Hr Hfree; [injection Hr as <- <-; cbn; split; [done|lia]|].
  apply Forall_app in HF as [HF Hl]. apply (Forall_inv (P := fun l => going_on l = true)) in Hl.
  apply run_snoc in Hr as (s1 & ev1 & ev2 & H1 & H2 & ->). destruct (IH HF _ _ H1 Hfree) as [A B].
  split; [eapply free_step; [by eapply inv_run|exact Hl|exact H2|exact A]|]. pose proof (cost_step _ _ _ _ Hl H2). rewrite app_length. cbn. lia.
Qed.

Lemma calls_return s : rinv s -> (forall g, ~ waits_in_codec s g) ->
  (exists ls s' ev, Forall (fun l => going_on l = true) ls /\ rrun s ls = Some (s', ev) /\ forall fs, fs ∈ st_g s' -> fs = []) /\
  (forall ls s' ev, Forall (fun l => going_on l = true) ls -> rrun s ls = Some (s', ev) -> length ls <= cost s /\ (stuck s' -> forall fs, fs ∈ st_g s' -> fs = [])).
Proof.
  intros HI Hfree. split.
  - remember (cost s) as k eqn:Ek. revert s HI Hfree Ek. induction k as [k IH] using lt_wf_ind. intros s HI Hfree ->.
    assert ((exists l s1 ev1, going_on l = true /\ rstep s l = Some (s1, ev1)) \/ forall fs, fs ∈ st_g s -> fs = []) as [(l & s1 & ev1 & Hl & Hs)|Hdone].
    { assert (forall gs : list (list rframe), (forall fs, fs ∈ gs -> fs = []) \/ exists fs, fs ∈ gs /\ fs <> []) as Hdec.
      { clear. induction gs as [|fs gs [IH|IH]]; [left; intros fs Hf; by apply elem_of_nil in Hf| |destruct IH as (q & Hq & Hn); right; exists q; split; [by right|done]].
        destruct fs as [|f fs]; [left; intros q [->|Hq]%elem_of_cons; [done|by apply IH]|right; exists (f :: fs); split; [left|done]]. }
      destruct (Hdec (st_g s)) as [H|Hne]; [by right|left].
      (* some goroutine has a step, or all wait *)
      assert (forall g, g < length (st_g s) -> (exists l s1 ev1, going_on l = true /\ rstep s l = Some (s1, ev1)) \/
        rstep s (LEnd g) = None /\ rstep s (LTake g) = None /\ rstep s (LReg g) = None /\ rstep s (LPanic g) = None) as Hg.
      { intros g _. destruct (rstep s (LEnd g)) as [[? ?]|] eqn:E1; [left; by exists (LEnd g); eauto|].
        destruct (rstep s (LTake g)) as [[? ?]|] eqn:E2; [left; by exists (LTake g); eauto|].
        destruct (rstep s (LReg g)) as [[? ?]|] eqn:E3; [left; by exists (LReg g); eauto|].
        destruct (rstep s (LPanic g)) as [[? ?]|] eqn:E4; [left; by exists (LPanic g); eauto|]. by right. }
      assert (forall n, n <= length (st_g s) -> (exists l s1 ev1, going_on l = true /\ rstep s l = Some (s1, ev1)) \/
        forall g, g < n -> rstep s (LEnd g) = None /\ rstep s (LTake g) = None /\ rstep s (LReg g) = None /\ rstep s (LPanic g) = None) as Hn.
      { induction n as [|n IHn]; intros Hle; [right; lia|]. destruct IHn as [H|H]; [lia|by left|]. destruct (Hg n) as [H'|H']; [lia|by left|].
        right. intros g Hlt. destruct (decide (g = n)) as [->|]; [exact H'|apply H; lia]. }
      destruct (Hn (length (st_g s))) as [H|H]; [lia|exact H|]. exfalso.
      destruct (stuck_why s HI) as [g Hw]; [|exact Hne|by apply (Hfree g)].
      intros l Hl. assert (forall g, st_g s !! g = None -> rstep s (LEnd g) = None /\ rstep s (LTake g) = None /\ rstep s (LReg g) = None /\ rstep s (LPanic g) = None) as Hout.
      { intros g E. unfold RegistryConc.rstep. by rewrite E. }
      destruct l as [g c|g|g|g|g]; [done|..].
      all: destruct (decide (g < length (st_g s))) as [Hlt|Hge]; [apply H, Hlt|apply Hout, lookup_ge_None; lia]. }
    + destruct (IH (cost s1)) with (s := s1) as (ls & s' & ev & HF & Hr & Hd); [by eapply cost_step|by eapply inv_step|by eapply free_step|done|].
      exists (l :: ls), s', (ev1 ++ ev). split; [by constructor|]. split; [|exact Hd]. unfold RegistryConc.rrun in *. cbn [run]. by rewrite Hs, Hr.
    + exists [], s, []. split; [constructor|]. split; [done|exact Hdone].
  - intros ls s' ev HF Hr. destruct (free_run _ _ _ _ HI HF Hr Hfree) as [A B]. split; [lia|]. intros Hst fs Hin.
    destruct fs as [|f fs]; [done|]. exfalso. destruct (stuck_why s') as [g Hw]; [by eapply inv_run|exact Hst| |by apply (A g)]. by exists (f :: fs).
Qed.

(** ** When a codec waits *)

Lemma dead_step s l s' ev g : rinv s -> waits_in_codec s g -> rstep s l = Some (s', ev) ->
  waits_in_codec s' g /\ (st_busy s = true -> st_busy s' = true) /\ (forall e, e ∈ ev -> who e <> g /\ forall g' code x o, e <> ERet g' (RReg code x) o) /\ st_reg s' = st_reg s /\
  (forall g' f fs, st_busy s = true -> st_g s !! g' = Some (f :: fs) -> waiting (f :: fs) -> st_g s' !! g' = Some (f :: fs) /\ forall e, e ∈ ev -> who e <> g').
Proof.
  intros HI (f & q & Hg & Hw & Hq) Hs.
  assert (forall g0 old new, st_g s !! g0 = Some old -> st_g s' = <[g0 := new]> (st_g s) -> g0 <> g -> waits_in_codec s' g) as Hother.
  { intros g0 old new H0 Hn Hne. exists f, q. split; [|done]. by rewrite Hn, list_lookup_insert_ne. }
  assert (forall (e : @regev R), e ∈ [] -> False) as Hnil by (intros e He; by apply elem_of_nil in He).
  unfold RegistryConc.rstep in Hs. destruct l as [g0 c|g0|g0|g0|g0].
  - destruct (st_g s !! g0) as [old|] eqn:Eg; [|done].
    assert (~ waiting old) as Hnw. { intros Hw0. by destruct old as [|[] ?]. }
    assert (g0 <> g) as Hne. { intros ->. rewrite Hg in Eg. injection Eg as <-. done. }
    assert (forall g' f fs, st_g s !! g' = Some (f :: fs) -> waiting (f :: fs) -> g' <> g0) as Hd.
    { intros g' f0 fs Hg' Hw' ->. rewrite Hg' in Eg. injection Eg as <-. done. }
    assert (forall new b, st_g s' = <[g0 := new]> (st_g s) -> st_reg s' = st_reg s -> (st_busy s = true -> st_busy s' = true) -> ev = [@ECall R g0 b] ->
      waits_in_codec s' g /\ (st_busy s = true -> st_busy s' = true) /\ (forall e, e ∈ ev -> who e <> g /\ forall g' code x o, e <> ERet g' (RReg code x) o) /\ st_reg s' = st_reg s /\
      (forall g' f fs, st_busy s = true -> st_g s !! g' = Some (f :: fs) -> waiting (f :: fs) -> st_g s' !! g' = Some (f :: fs) /\ forall e, e ∈ ev -> who e <> g')) as Hpush.
    { intros new b Hn Hrg Hb ->. split; [by eapply Hother|]. split; [exact Hb|]. split; [intros e ->%elem_of_list_singleton; by split|]. split; [exact Hrg|].
      intros g' f0 fs _ Hg' Hw'. pose proof (Hd _ _ _ Hg' Hw') as Hn'. split; [by rewrite Hn, list_lookup_insert_ne|]. intros e ->%elem_of_list_singleton. cbn. congruence. }
    assert (Some (s, [ECall g0 c; ERet g0 c (OutVal (answer (st_reg s) c))]) = Some (s', ev) -> reads_registry c = false -> (forall code x, c <> RReg code x) ->
      waits_in_codec s' g /\ (st_busy s = true -> st_busy s' = true) /\ (forall e, e ∈ ev -> who e <> g /\ forall g' code x o, e <> ERet g' (RReg code x) o) /\ st_reg s' = st_reg s /\
      (forall g' f fs, st_busy s = true -> st_g s !! g' = Some (f :: fs) -> waiting (f :: fs) -> st_g s' !! g' = Some (f :: fs) /\ forall e, e ∈ ev -> who e <> g')) as Hquick.
    { intros [= <- <-] Hr Hnr. split; [by exists f, q|]. split; [done|]. split.
      { intros e [->|[->|He]%elem_of_cons]%elem_of_cons; [by split| |by apply Hnil in He]. split; [done|]. intros g' code x o [= _ E _]. by eapply Hnr. }
      split; [done|]. intros g' f0 fs _ Hg' Hw'. pose proof (Hd _ _ _ Hg' Hw') as Hn'. split; [done|].
      intros e [->|[->|He]%elem_of_cons]%elem_of_cons; [cbn; congruence..|by apply Hnil in He]. }
    destruct old as [|[c0|c0 r0|c0|c0] old]; try done.
    all: destruct c as [code x|x|a]; [by injection Hs as <- <-; eapply Hpush|..].
    all: destruct (reads_registry _) eqn:Er; [|by apply Hquick].
    all: destruct (st_busy s) eqn:Eb; injection Hs as <- <-; by eapply Hpush.
  - destruct (st_g s !! g0) as [[|[c0|c0 r0|c0|c0] old]|] eqn:Eg; try done. destruct (st_busy s) eqn:Eb; [done|]. injection Hs as <- <-.
    split. { destruct (decide (g0 = g)) as [->|Hne].
      - rewrite Hg in Eg. injection Eg as -> ->. exists (FDrain c0), old. split; [|done]. cbn [st_g]. apply list_lookup_insert. by eapply lookup_lt_Some.
      - by eapply Hother. }
    split; [done|]. split; [intros e He; by apply Hnil in He|]. split; [done|]. intros g' f0 fs Hx. discriminate Hx.
  - destruct (st_g s !! g0) as [[|[c0|c0 r0|c0|[code x|x|a]] old]|] eqn:Eg; try done. destruct (st_active s) eqn:Ea; [|done]. exfalso.
    pose proof (no_readers s _ HI Ea (elem_of_list_lookup_2 _ _ _ Hg)) as Hn. destruct (stack_lookup s g _ HI Hg) as [_ B]. cbn [tail] in B.
    rewrite nin_cons, (nin_tail _ B) in Hn. destruct q; [done|cbn in Hn; lia].
  - destruct (st_g s !! g0) as [[|[c0|c0 r0|c0|c0] old]|] eqn:Eg; try done. injection Hs as <- <-.
    destruct (stack_lookup s g0 _ HI Eg) as [A _]. apply Forall_cons in A as [[_ A] _].
    assert (g0 <> g) as Hne. { intros ->. rewrite Hg in Eg. injection Eg as -> ->. done. }
    split; [by eapply Hother|]. split; [done|]. split. { intros e ->%elem_of_list_singleton. split; [done|]. intros g' code x o [= _ E _]. by eapply reads_not_reg. }
    split; [done|]. intros g' f0 fs _ Hg' Hw'. assert (g' <> g0) as Hn' by (intros ->; rewrite Hg' in Eg; injection Eg as -> ->; done).
    split; [cbn [st_g]; by rewrite list_lookup_insert_ne|]. intros e ->%elem_of_list_singleton. cbn. congruence.
  - destruct (st_g s !! g0) as [[|[c0|c0 r0|c0|c0] old]|] eqn:Eg; try done. injection Hs as <- <-.
    destruct (stack_lookup s g0 _ HI Eg) as [A _]. apply Forall_cons in A as [[_ A] _].
    assert (g0 <> g) as Hne. { intros ->. rewrite Hg in Eg. injection Eg as -> ->. done. }
    split; [by eapply Hother|]. split; [done|]. split. { intros e ->%elem_of_list_singleton. split; [done|]. intros g' code x o [= _ E _]. by eapply reads_not_reg. }
    split; [done|]. intros g' f0 fs _ Hg' Hw'. assert (g' <> g0) as Hn' by (intros ->; rewrite Hg' in Eg; injection Eg as -> ->; done).
    split; [cbn [st_g]; by rewrite list_lookup_insert_ne|]. intros e ->%elem_of_list_singleton. cbn. congruence.
Qed.

Lemma dead_run s ls s' ev g : rinv s -> waits_in_codec s g -> rrun s ls = Some (s', ev) ->
  waits_in_codec s' g /\ (st_busy s = true -> st_busy s' = true) /\ (forall e, e ∈ ev -> who e <> g /\ forall g' code x o, e <> ERet g' (RReg code x) o) /\ st_reg s' = st_reg s /\
  (forall g' f fs, st_busy s = true -> st_g s !! g' = Some (f :: fs) -> waiting (f :: fs) -> st_g s' !! g' = Some (f :: fs) /\ forall e, e ∈ ev -> who e <> g').
Proof.
  intros HI Hw. revert s' ev. induction ls as [|l ls IH] using rev_ind; intros s' ev Hr.
  { injection Hr as <- <-. split; [done|]. split; [done|]. split; [intros e He; by apply elem_of_nil in He|]. split; [done|]. intros g' f fs _ Hg _. split; [done|]. intros e He. by apply elem_of_nil in He. }
  apply run_snoc in Hr as (s1 & ev1 & ev2 & H1 & H2 & ->). destruct (IH _ _ H1) as (A1 & A2 & A3 & A4 & A5).
  destruct (dead_step s1 l s' ev2 g (inv_run _ _ _ _ HI H1) A1 H2) as (B1 & B2 & B3 & B4 & B5).
  split; [exact B1|]. split; [tauto|]. split; [intros e [He|He]%elem_of_app; [by apply A3|by apply B3]|]. split; [congruence|].
  intros g' f fs Hb Hg Hwf. destruct (A5 g' f fs Hb Hg Hwf) as [C1 C2]. destruct (B5 g' f fs (A2 Hb) C1 Hwf) as [D1 D2]. split; [exact D1|].
  intros e [He|He]%elem_of_app; [by apply C2|by apply D2].
Qed.

(** A call made when a writer has its turn waits. *)
Lemma late_call s g c s' ev : st_busy s = true -> reads_registry c = true \/ (exists code x, c = RReg code x) -> rstep s (LCall g c) = Some (s', ev) ->
  ev = [ECall g c] /\ st_busy s' = true /\ exists f fs, st_g s' !! g = Some (f :: fs) /\ waiting (f :: fs).
Proof.
  intros Hb Hc Hs. unfold RegistryConc.rstep in Hs. destruct (st_g s !! g) as [old|] eqn:Eg; [|done]. pose proof (lookup_lt_Some _ _ _ Eg) as Hlt.
  assert (forall f b a r, waiting (f :: old) -> b = true -> Some (RState r b a (<[g := f :: old]> (st_g s)), [@ECall R g c]) = Some (s', ev) -> ev = [ECall g c] /\ st_busy s' = true /\ exists f fs, st_g s' !! g = Some (f :: fs) /\ waiting (f :: fs)) as Hgo.
  { intros f b a r Hw -> [= <- <-]. split; [done|]. split; [done|]. exists f, old. split; [cbn; by apply list_lookup_insert|done]. }
  rewrite Hb in Hs. destruct old as [|[c0|c0 r0|c0|c0] old]; try done.
  all: destruct c as [code x|x|a]; [by eapply Hgo; [| |exact Hs]|..].
  all: destruct (reads_registry _) eqn:Er; [|destruct Hc as [Hc|(? & ? & Hc)]; discriminate Hc].
  all: by eapply Hgo; [| |exact Hs].
Qed.
End facts.

(** ** What is registered *)

Lemma replays_codes {R} (answer : registry -> rcall -> R) reg l reg' : replays answer reg l reg' ->
  (forall code te, decodings reg !! code = Some te -> decodings reg' !! code = Some te) /\
  (forall code x, (RReg code x, OutReg (Ok tt)) ∈ l -> decodings reg !! code = None /\ is_Some (decodings reg' !! code)).
Proof.
  Local Transparent must_register.
  induction 1 as [reg|reg code x reg1 l reg' Hm Hr [IH1 IH2]|reg code x o l reg' Hno Ho Hr [IH1 IH2]|reg c l reg' Hc Hr [IH1 IH2]|reg c l reg' Hc Hr [IH1 IH2]].
  - split; [done|]. intros code x H. by apply elem_of_nil in H.
  - unfold must_register in Hm. destruct (decodings reg !! code) eqn:Ed; [done|].
    destruct (new_encoding_for_type code x) as [te| |]; try done. destruct (lookup_encoding (te_t te) (Encoding.encodings reg)); [done|]. injection Hm as <-. cbn [decodings] in *.
    assert (forall c t, decodings reg !! c = Some t -> <[code := te]> (decodings reg) !! c = Some t) as Hmono.
    { intros c t Hc. rewrite lookup_insert_ne; [done|]. intros ->. congruence. }
    split; [intros c t Hc; by apply IH1, Hmono|]. intros c y [[= -> ->]|Hin]%elem_of_cons.
    + split; [exact Ed|]. exists te. apply IH1, lookup_insert.
    + destruct (IH2 c y Hin) as [H1 H2]. split; [|exact H2]. destruct (decodings reg !! c) eqn:Ec; [|done]. rewrite (Hmono _ _ Ec) in H1. discriminate H1.
  - split; [done|]. intros c y [[= -> -> <-]|Hin]%elem_of_cons; [done|by eapply IH2].
  - split; [done|]. intros c' y [[= E E']|Hin]%elem_of_cons; by eapply IH2.
  - split; [done|]. intros c' y [[= E E']|Hin]%elem_of_cons; by eapply IH2.
Qed.

Lemma replays_app_inv {R} (answer : registry -> rcall -> R) reg l1 l2 reg' : replays answer reg (l1 ++ l2) reg' ->
  exists reg1, replays answer reg l1 reg1 /\ replays answer reg1 l2 reg'.
Proof.
  intros H. remember (l1 ++ l2) as l eqn:El. revert l1 El.
  induction H as [reg|reg code x reg1 l reg' Hm Hr IH|reg code x o l reg' Hno Ho Hr IH|reg c l reg' Hc Hr IH|reg c l reg' Hc Hr IH]; intros l1 El.
  { symmetry in El. apply app_nil in El as [-> ->]. exists reg. split; constructor. }
  all: destruct l1 as [|y l1]; [cbn in El; subst l2; exists reg; split; [constructor|]|injection El as <- El; destruct (IH l1 El) as (r1 & A & B); exists r1; split; [|exact B]].
  - by eapply rp_reg.
  - by eapply rp_reg.
  - by eapply rp_fails.
  - by eapply rp_fails.
  - by eapply rp_read.
  - by eapply rp_read.
  - by eapply rp_panic.
  - by eapply rp_panic.
Qed.
