(** The goroutine that asks a source for its records. *)
From Coq Require Import ZArith Lia.
From stdpp Require Import base list.
From Verif Require Import Run FlushTool.

Local Open Scope list_scope.

(** ** Specification *)

(** What was attempted and returned. *)
Definition course (evs : list fev) : list fev :=
  List.filter (fun e => match e with FAttempt _ _ | FResult _ | FRet _ => true | _ => false end) evs.

(** The courses it may take from beginning to end: a flush after a message; if it
    fails, perhaps a second one; or one flush because no message came in time. *)
Inductive complete : list fev -> Prop :=
  | co_first t : complete [FAttempt Within t; FResult None; FRet None]
  | co_failed t e : complete [FAttempt Within t; FResult (Some e); FRet (Some e)]
  | co_again t e t' r : complete [FAttempt Within t; FResult (Some e); FAttempt Outer t'; FResult r; FRet r]
  | co_late t r : complete [FAttempt Outer t; FResult r; FRet r].

(** Steps that the goroutine, or the timer of its context, does by itself. *)
Definition its_own (l : flabel) : Prop := match l with FGo | FSeeDone | FSeeCtx | FExpire => True | _ => False end.

(** What errors.Is tells about an error. *)
Definition wraps (e : serr) (c : cerr) : Prop := match c with CDeadline => e_deadline e = true | CCanceled => e_canceled e = true end.

(** How often the goroutine went on. *)
Definition went (ls : list flabel) : nat := length (List.filter (fun l => match l with FGo => true | _ => false end) ls).

(** ** The invariant *)

Lemma wraps_is e c : err_is e c = true <-> wraps e c.
Proof. by destruct c. Qed.
Lemma wraps_not e c : err_is e c = false <-> ~ wraps e c.
Proof. rewrite <- wraps_is. by destruct (err_is e c). Qed.

Lemma course_app a b : course (a ++ b) = course a ++ course b.
Proof. apply List.filter_app. Qed.

Definition past_start (p : fpc) : bool := match p with FStart => false | _ => true end.

(** What an event needs in the history before it. *)
Definition just (c0 : bool) (ls : list flabel) (a : list fev) (e : fev) : Prop :=
  match e with
  | FAttempt Within _ => exists t', FMessage t' ∈ a
  | FAttempt Outer _ => exists c t', FCtx c t' ∈ a /\ forall e, FResult (Some e) ∈ a -> err_is e c = true
  | FCtx c t => exists t0, FBegan t0 ∈ a /\ match c with CDeadline => (t0 + flush_wait <= t)%Z | CCanceled => c0 = true \/ FCancel ∈ ls end
  | FRet (Some e) => (forall t, FAttempt Outer t ∉ a) -> forall c t, FCtx c t ∈ a -> err_is e c = false
  | FMessage t => exists t0, FBegan t0 ∈ a /\ (t0 <= t)%Z
  | FBegan _ => a = []
  | _ => True
  end.
Fixpoint justs (c0 : bool) (ls : list flabel) (a ev : list fev) : Prop :=
  match ev with [] => True | e :: r => just c0 ls a e /\ justs c0 ls (a ++ [e]) r end.
Definition all_just (c0 : bool) (ls : list flabel) (evs : list fev) : Prop := forall a e b, evs = a ++ e :: b -> just c0 ls a e.

Lemma all_just_app c0 ls evs ev : all_just c0 ls evs -> justs c0 ls evs ev -> all_just c0 ls (evs ++ ev).
Proof.
  revert evs. induction ev as [|e ev IH]; intros evs H Hj; [by rewrite app_nil_r|]. destruct Hj as [H1 H2].
  change (e :: ev) with ([e] ++ ev). rewrite app_assoc. apply IH; [|done]. intros a x b E.
  destruct b as [|z b] using rev_ind.
  - apply app_inj_tail in E as [-> ->]. done.
  - rewrite app_comm_cons, app_assoc in E. apply app_inj_tail in E as [-> _]. by apply (H a x b).
Qed.

Record finv (c0 : bool) (ls : list flabel) (s : fstate) (evs : list fev) : Prop := FInv {
  fi_course : match f_pc s with
    | FStart | FReg1 | FReg2 | FSelect => course evs = []
    | FSending => exists t, course evs = [FAttempt Within t]
    | FCheck e => course evs = [] /\ (exists c, f_ctx s = Some c /\ e = err_of c) \/ exists t, course evs = [FAttempt Within t; FResult (Some e)]
    | FAgain => (exists t, course evs = [FAttempt Outer t]) \/ exists t e t', course evs = [FAttempt Within t; FResult (Some e); FAttempt Outer t']
    | FReturned r => complete (course evs) /\ last (course evs) = Some (FRet r)
    end;
  fi_start : f_pc s = FStart -> evs = [] /\ f_rec s = false /\ f_hb s = false /\ f_done s = false /\ f_ctx s = None;
  fi_began : f_pc s <> FStart -> exists t0, (forall t, FBegan t ∈ evs <-> t = t0) /\ f_deadline s = (t0 + flush_wait)%Z /\ (t0 <= f_now s)%Z;
  fi_done : f_done s = true <-> exists t, FMessage t ∈ evs;
  fi_ctx : forall c, f_ctx s = Some c <-> exists t, FCtx c t ∈ evs;
  fi_parent : f_parent s = true -> c0 = true \/ FCancel ∈ ls;
  fi_reg1 : f_pc s = FReg1 -> f_rec s = false /\ f_hb s = false;
  fi_just : all_just c0 ls evs;
}.

Lemma in_course e evs : e ∈ evs -> match e with FAttempt _ _ | FResult _ | FRet _ => True | _ => False end -> e ∈ course evs.
Proof. intros H He. apply elem_of_list_In, filter_In. split; [by apply elem_of_list_In|by destruct e]. Qed.
Lemma course_in e evs : e ∈ course evs -> e ∈ evs.
Proof. intros H. apply elem_of_list_In, filter_In in H as [H _]. by apply elem_of_list_In. Qed.

Ltac ev_simpl := repeat (setoid_rewrite elem_of_app || setoid_rewrite elem_of_cons || setoid_rewrite elem_of_nil).

Lemma finv_step c0 ls s evs l s' ev : finv c0 ls s evs -> l ∈ ls -> fstep s l = Some (s', ev) -> finv c0 ls s' (evs ++ ev).
Proof.
  intros [H1 H2 H3 H4 H5 H6 H7 H8] Hl Hs.
  assert (forall e, FResult (Some e) ∈ evs -> FResult (Some e) ∈ course evs) as Hres by (intros e He; by apply in_course).
  destruct l; cbn [fstep] in Hs.
  - (* time *)
    destruct (0 <=? dt)%Z eqn:E; [|done]. apply Z.leb_le in E. injection Hs as <- <-. rewrite app_nil_r. split; cbn; try done.
    intros Hp. destruct (H3 Hp) as (t0 & G1 & G2 & G3). exists t0. split; [done|]. split; [done|lia].
  - (* cancel *)
    injection Hs as <- <-. rewrite app_nil_r. split; cbn; try done. intros _. by right.
  - (* propagate *)
    destruct (f_pc s) eqn:Ep; try done; destruct (f_parent s) eqn:Ea; try done; destruct (f_ctx s) eqn:Ec; try done; injection Hs as <- <-.
    all: destruct (H3 ltac:(done)) as (t0 & G1 & G2 & G3).
    all: assert (course (evs ++ [FCtx CCanceled (f_now s)]) = course evs) as Eco by (by rewrite course_app; cbn; rewrite app_nil_r).
    all: split; cbn [f_pc f_ctx f_now f_deadline f_done f_parent f_rec f_hb fs_ctx]; rewrite ?Ep, ?Eco; try done; try (intros _; by apply H6).
    all: try (intros _; exists t0; split; [|done]; intros t; rewrite elem_of_app, elem_of_list_singleton, <- G1; naive_solver).
    all: try (rewrite H4; split; intros [t Ht]; exists t; rewrite elem_of_app, elem_of_list_singleton in *; naive_solver).
    all: try (intros c; split; [intros [= <-]; exists (f_now s); rewrite elem_of_app, elem_of_list_singleton; by right|
      intros [t Ht]; rewrite elem_of_app, elem_of_list_singleton in Ht; destruct Ht as [Ht|[= -> _]]; [exfalso; specialize (H5 c); assert (None = Some c) by (apply H5; eauto); done|done]]).
    all: try (apply all_just_app; [done|]; cbn; split; [|done]; exists t0; split; [by apply G1|auto]).
    destruct H1 as [[? (c & ? & ?)]|?]; [done|by right].
  - (* deadline *)
    destruct (f_pc s) eqn:Ep; try done; destruct (f_ctx s) eqn:Ec; try done; (destruct (f_deadline s <=? f_now s)%Z eqn:El; [|done]; apply Z.leb_le in El; injection Hs as <- <-).
    all: destruct (H3 ltac:(done)) as (t0 & G1 & G2 & G3).
    all: assert (course (evs ++ [FCtx CDeadline (f_now s)]) = course evs) as Eco by (by rewrite course_app; cbn; rewrite app_nil_r).
    all: split; cbn [f_pc f_ctx f_now f_deadline f_done f_parent f_rec f_hb fs_ctx]; rewrite ?Ep, ?Eco; try done.
    all: try (intros _; exists t0; split; [|done]; intros t; rewrite elem_of_app, elem_of_list_singleton, <- G1; naive_solver).
    all: try (rewrite H4; split; intros [t Ht]; exists t; rewrite elem_of_app, elem_of_list_singleton in *; naive_solver).
    all: try (intros c; split; [intros [= <-]; exists (f_now s); rewrite elem_of_app, elem_of_list_singleton; by right|
      intros [t Ht]; rewrite elem_of_app, elem_of_list_singleton in Ht; destruct Ht as [Ht|[= -> _]]; [exfalso; specialize (H5 c); assert (None = Some c) by (apply H5; eauto); done|done]]).
    all: try (apply all_just_app; [done|]; cbn [justs just]; split; [|done]; exists t0; split; [by apply G1|lia]).
    destruct H1 as [[? (c & ? & ?)]|?]; [done|by right].
  - (* record *)
    unfold handled in Hs. destruct (f_rec s) eqn:Er; injection Hs as <- <-; [|by rewrite app_nil_r; split; rewrite ?Er].
    assert (f_pc s <> FStart) as Hp by (intros Hp; destruct (H2 Hp) as (_ & ? & _); congruence).
    destruct (H3 Hp) as (t0 & G1 & G2 & G3).
    assert (course (evs ++ [FMessage (f_now s)]) = course evs) as Eco by (by rewrite course_app; cbn; rewrite app_nil_r).
    split; cbn [f_pc f_ctx f_now f_deadline f_done f_parent f_rec f_hb]; rewrite ?Eco; try done.
    + intros _. exists t0. split; [|done]. intros t. rewrite elem_of_app, elem_of_list_singleton, <- G1. naive_solver.
    + split; [intros _; exists (f_now s); rewrite elem_of_app, elem_of_list_singleton; by right|done].
    + intros c. rewrite H5. split; intros [t Ht]; exists t; rewrite elem_of_app, elem_of_list_singleton in *; naive_solver.
    + apply all_just_app; [done|]. cbn. split; [|done]. exists t0. split; [by apply G1|done].
  - (* heartbeat *)
    unfold handled in Hs. destruct (f_hb s) eqn:Er; injection Hs as <- <-; [|by rewrite app_nil_r; split; rewrite ?Er].
    assert (f_pc s <> FStart) as Hp by (intros Hp; destruct (H2 Hp) as (_ & _ & ? & _); congruence).
    destruct (H3 Hp) as (t0 & G1 & G2 & G3).
    assert (course (evs ++ [FMessage (f_now s)]) = course evs) as Eco by (by rewrite course_app; cbn; rewrite app_nil_r).
    split; cbn [f_pc f_ctx f_now f_deadline f_done f_parent f_rec f_hb]; rewrite ?Eco; try done.
    + intros _. exists t0. split; [|done]. intros t. rewrite elem_of_app, elem_of_list_singleton, <- G1. naive_solver.
    + split; [intros _; exists (f_now s); rewrite elem_of_app, elem_of_list_singleton; by right|done].
    + intros c. rewrite H5. split; intros [t Ht]; exists t; rewrite elem_of_app, elem_of_list_singleton in *; naive_solver.
    + apply all_just_app; [done|]. cbn. split; [|done]. exists t0. split; [by apply G1|done].
  - (* own step *)
    destruct (f_pc s) eqn:Ep; try done.
    + destruct (H2 eq_refl) as (-> & E1 & E2 & E3 & E4). injection Hs as <- <-. cbn [app].
      split; cbn [f_pc f_ctx f_now f_deadline f_done f_parent f_rec f_hb]; try done.
      * by destruct (f_parent s).
      * intros _. exists (f_now s). split; [|split; [done|lia]]. intros t. destruct (f_parent s); rewrite ?elem_of_cons, elem_of_nil; naive_solver.
      * split; [done|]. intros [t Ht]. destruct (f_parent s); rewrite ?elem_of_cons, elem_of_nil in Ht; naive_solver.
      * intros c. destruct (f_parent s); (split; [intros [= <-]; exists (f_now s); right; left|intros [t Ht]; rewrite ?elem_of_cons, elem_of_nil in Ht; naive_solver]).
      * intros a e b E. destruct a as [|e1 a]; [injection E as <- _; done|]. injection E as <- E. destruct (f_parent s) eqn:Ea; [|by destruct a].
        destruct a as [|e2 a]; [|by destruct a]. injection E as <- _. cbn. exists (f_now s). split; [left|by apply H6].
    + injection Hs as <- <-. rewrite app_nil_r. split; cbn; try done. intros _. by apply H3.
    + injection Hs as <- <-. rewrite app_nil_r. split; cbn; try done. intros _. by apply H3.
    + destruct (H3 ltac:(done)) as (t0 & G1 & G2 & G3).
      destruct (f_ctx s) as [c|] eqn:Ec.
      2: { injection Hs as <- <-. split; cbn [f_pc f_ctx f_now f_deadline f_done f_parent f_rec f_hb fs_pc]; rewrite ?course_app; try done.
        - destruct H1 as [[_ (c & ? & _)]|[t ->]]; [done|]. cbn. split; [constructor|done].
        - intros _. exists t0. split; [|done]. intros t. rewrite elem_of_app, elem_of_list_singleton, <- G1. naive_solver.
        - rewrite H4. split; intros [t Ht]; exists t; rewrite elem_of_app, elem_of_list_singleton in *; naive_solver.
        - intros c. rewrite Ec, H5. split; intros [t Ht]; exists t; rewrite elem_of_app, elem_of_list_singleton in *; naive_solver.
        - apply all_just_app; [done|]. cbn. split; [|done]. intros _ c t Hc. exfalso. assert (None = Some c) by (apply H5; eauto). done. }
      destruct (err_is e c) eqn:Ei.
      * injection Hs as <- <-. split; cbn [f_pc f_ctx f_now f_deadline f_done f_parent f_rec f_hb fs_pc]; rewrite ?course_app; try done.
        -- destruct H1 as [[-> _]|[t ->]]; cbn; [left; eauto|right; eauto].
        -- intros _. exists t0. split; [|done]. intros t. rewrite elem_of_app, elem_of_list_singleton, <- G1. naive_solver.
        -- rewrite H4. split; intros [t Ht]; exists t; rewrite elem_of_app, elem_of_list_singleton in *; naive_solver.
        -- intros c'. rewrite Ec, H5. split; intros [t Ht]; exists t; rewrite elem_of_app, elem_of_list_singleton in *; naive_solver.
        -- apply all_just_app; [done|]. cbn. split; [|done]. destruct (proj1 (H5 c) eq_refl) as [t' Ht']. exists c, t'. split; [done|].
           intros e' He'. apply Hres in He'. destruct H1 as [[E _]|[t E]]; rewrite E in He'; [by apply elem_of_nil in He'|].
           rewrite !elem_of_cons, elem_of_nil in He'. naive_solver.
      * injection Hs as <- <-. split; cbn [f_pc f_ctx f_now f_deadline f_done f_parent f_rec f_hb fs_pc]; rewrite ?course_app; try done.
        -- destruct H1 as [[_ (c' & Ec' & ->)]|[t ->]]; cbn; [injection Ec' as <-; by destruct c|]. split; [constructor|done].
        -- intros _. exists t0. split; [|done]. intros t. rewrite elem_of_app, elem_of_list_singleton, <- G1. naive_solver.
        -- rewrite H4. split; intros [t Ht]; exists t; rewrite elem_of_app, elem_of_list_singleton in *; naive_solver.
        -- intros c'. rewrite Ec, H5. split; intros [t Ht]; exists t; rewrite elem_of_app, elem_of_list_singleton in *; naive_solver.
        -- apply all_just_app; [done|]. cbn. split; [|done]. intros _ c' t Hc. assert (Some c = Some c') as [= <-] by (apply H5; eauto). done.
  - (* done *)
    destruct (f_pc s) eqn:Ep; try done. destruct (f_done s) eqn:Ed; [|done]. injection Hs as <- <-. destruct (H3 ltac:(done)) as (t0 & G1 & G2 & G3).
    split; cbn [f_pc f_ctx f_now f_deadline f_done f_parent f_rec f_hb fs_pc]; rewrite ?course_app, ?H1; try done.
    + cbn. eauto.
    + intros _. exists t0. split; [|done]. intros t. rewrite elem_of_app, elem_of_list_singleton, <- G1. naive_solver.
    + rewrite Ed, H4. split; intros [t Ht]; exists t; rewrite elem_of_app, elem_of_list_singleton in *; naive_solver.
    + intros c'. rewrite H5. split; intros [t Ht]; exists t; rewrite elem_of_app, elem_of_list_singleton in *; naive_solver.
    + apply all_just_app; [done|]. cbn. split; [|done]. by apply H4.
  - (* context *)
    destruct (f_pc s) eqn:Ep; try done. destruct (f_ctx s) as [c|] eqn:Ec; [|done]. injection Hs as <- <-. rewrite app_nil_r.
    split; cbn [f_pc f_ctx f_now f_deadline f_done f_parent f_rec f_hb fs_pc]; try done; rewrite ?Ec; try done.
    { left. split; [done|]. eauto. }
    intros _. by apply H3.
  - (* sent *)
    destruct (f_pc s) eqn:Ep; try done; injection Hs as <- <-; destruct (H3 ltac:(done)) as (t0 & G1 & G2 & G3).
    + destruct H1 as [t1 Hco].
      destruct r as [e|]; (split; cbn [f_pc f_ctx f_now f_deadline f_done f_parent f_rec f_hb fs_pc]; rewrite ?course_app, ?Hco; try done).
      * right. by exists t1.
      * intros _. exists t0. split; [|done]. intros t. rewrite elem_of_app, ?elem_of_cons, elem_of_nil, <- G1. naive_solver.
      * rewrite H4. split; intros [t Ht]; exists t; rewrite elem_of_app, ?elem_of_cons, elem_of_nil in *; naive_solver.
      * intros c'. rewrite H5. split; intros [t Ht]; exists t; rewrite elem_of_app, ?elem_of_cons, elem_of_nil in *; naive_solver.
      * by apply all_just_app.
      * cbn. split; [constructor|done].
      * intros _. exists t0. split; [|done]. intros t. rewrite elem_of_app, ?elem_of_cons, elem_of_nil, <- G1. naive_solver.
      * rewrite H4. split; intros [t Ht]; exists t; rewrite elem_of_app, ?elem_of_cons, elem_of_nil in *; naive_solver.
      * intros c'. rewrite H5. split; intros [t Ht]; exists t; rewrite elem_of_app, ?elem_of_cons, elem_of_nil in *; naive_solver.
      * by apply all_just_app.
    + split; cbn [f_pc f_ctx f_now f_deadline f_done f_parent f_rec f_hb fs_pc]; rewrite ?course_app; try done.
      * destruct H1 as [[t ->]|(t & e & t' & ->)]; cbn; (split; [constructor|done]).
      * intros _. exists t0. split; [|done]. intros t. rewrite elem_of_app, ?elem_of_cons, elem_of_nil, <- G1. naive_solver.
      * rewrite H4. split; intros [t Ht]; exists t; rewrite elem_of_app, ?elem_of_cons, elem_of_nil in *; naive_solver.
      * intros c'. rewrite H5. split; intros [t Ht]; exists t; rewrite elem_of_app, ?elem_of_cons, elem_of_nil in *; naive_solver.
      * apply all_just_app; [done|]. cbn. split; [done|]. split; [|done]. destruct r as [e|]; [|done]. intros Hno. exfalso.
        assert (exists t, FAttempt Outer t ∈ course evs) as [t Ht].
        { destruct H1 as [[t ->]|(t & e' & t' & ->)]; [exists t; left|exists t'; do 2 right; left]. }
        apply (Hno t). apply elem_of_app. left. by apply course_in.
Qed.

Lemma finv_run now c0 ls s evs : frun (f_init now c0) ls = Some (s, evs) -> finv c0 ls s evs.
Proof.
  intros Hr. change evs with ([] ++ evs). apply (run_inv_rel fstep (finv c0 ls) (f_init now c0) [] ls s evs) with (3 := Hr).
  - split; cbn; try done.
    + split; [done|]. by intros [t ?%elem_of_nil].
    + intros c. split; [done|]. by intros [t ?%elem_of_nil].
    + by left.
    + by intros [].
  - intros s1 evs1 l s2 ev Hi Hl _ Hs. by eapply finv_step.
Qed.

(** ** Consequences *)

Lemma course_of now c0 ls s evs : frun (f_init now c0) ls = Some (s, evs) ->
  exists full, complete full /\ course evs `prefix_of` full /\ (forall r, FRet r ∈ evs <-> f_pc s = FReturned r) /\ forall r, FRet r ∈ evs -> course evs = full.
Proof.
  intros Hr. destruct (finv_run _ _ _ _ _ Hr) as [H1 _ _ _ _ _ _ _].
  assert (forall r, FRet r ∈ evs -> FRet r ∈ course evs) as Hin by (intros r H; by apply in_course).
  assert (forall l, course evs = l -> (forall r, FRet r ∉ l) -> (forall r, f_pc s <> FReturned r) -> forall full, complete full -> l `prefix_of` full ->
    exists full, complete full /\ course evs `prefix_of` full /\ (forall r, FRet r ∈ evs <-> f_pc s = FReturned r) /\ forall r, FRet r ∈ evs -> course evs = full) as Hnot.
  { intros l E Hno Hp full Hc Hpre. exists full. split; [done|]. split; [by rewrite E|]. split.
    - intros r. split; [intros H; exfalso; apply (Hno r); rewrite <- E; by apply Hin|intros H; by destruct (Hp r)].
    - intros r H. exfalso. apply (Hno r). rewrite <- E. by apply Hin. }
  assert (forall r (l : list fev), l = [] -> FRet r ∉ l) as Hnil by (intros r l ->; by intros ?%elem_of_nil).
  destruct (f_pc s) eqn:Ep.
  1-4: apply (Hnot [] H1 ltac:(intros r; by apply Hnil) ltac:(done) [FAttempt Within 0; FResult None; FRet None] ltac:(constructor)), prefix_nil.
  - destruct H1 as [t H1]. apply (Hnot _ H1) with (full := [FAttempt Within t; FResult None; FRet None]); [intros r; rewrite !elem_of_cons, elem_of_nil; naive_solver|done|constructor|by eexists].
  - destruct H1 as [[H1 _]|[t H1]].
    + apply (Hnot [] H1 ltac:(intros r; by apply Hnil) ltac:(done) [FAttempt Within 0; FResult None; FRet None] ltac:(constructor)), prefix_nil.
    + apply (Hnot _ H1) with (full := [FAttempt Within t; FResult (Some e); FRet (Some e)]); [intros r; rewrite !elem_of_cons, elem_of_nil; naive_solver|done|constructor|by eexists].
  - destruct H1 as [[t H1]|(t & e & t' & H1)].
    + apply (Hnot _ H1) with (full := [FAttempt Outer t; FResult None; FRet None]); [intros r; rewrite !elem_of_cons, elem_of_nil; naive_solver|done|constructor|by eexists].
    + apply (Hnot _ H1) with (full := [FAttempt Within t; FResult (Some e); FAttempt Outer t'; FResult None; FRet None]); [intros r; rewrite !elem_of_cons, elem_of_nil; naive_solver|done|constructor|by eexists].
  - destruct H1 as [Hc Hla]. exists (course evs). split; [done|]. split; [done|]. split; [|done]. intros r'. split.
    + intros H%Hin. destruct Hc; injection Hla as <-; rewrite !elem_of_cons, elem_of_nil in H; naive_solver.
    + intros [= <-]. apply course_in. by apply last_Some_elem_of.
Qed.

(** An attempt can be made at once when a message was seen, and in any case
    when the five seconds are over. *)
Lemma asks now c0 ls s evs : frun (f_init now c0) ls = Some (s, evs) -> course evs = [] ->
  exists l1 dt l2 s' evs', Forall its_own l1 /\ Forall its_own l2 /\ (0 <= dt <= flush_wait)%Z /\ ((exists t, FMessage t ∈ evs) -> dt = 0%Z) /\
    frun s (l1 ++ FTime dt :: l2) = Some (s', evs') /\ exists w t, FAttempt w t ∈ evs'.
Proof.
  intros Hr Hco. pose proof (finv_run _ _ _ _ _ Hr) as [H1 H2 H3 H4 H5 _ _ _].
  (* in the select *)
  assert (forall s, f_pc s = FSelect -> (f_deadline s <= f_now s + flush_wait)%Z ->
    exists dt l2 s' evs', Forall its_own l2 /\ (0 <= dt <= flush_wait)%Z /\ (f_done s = true -> dt = 0%Z) /\
      frun s (FTime dt :: l2) = Some (s', evs') /\ exists w t, FAttempt w t ∈ evs') as Hsel.
  { clear. intros s Hp Hd.
    destruct (f_done s) eqn:Ed.
    - exists 0%Z, [FSeeDone]. eexists _, _. split; [by repeat constructor|]. split; [unfold flush_wait; lia|]. split; [done|].
      split; [cbn [run fstep]; rewrite Z.leb_refl; cbn [fstep f_pc f_done]; rewrite Hp, Ed; reflexivity|]. cbn. exists Within. eexists. left.
    - destruct (f_ctx s) as [c|] eqn:Ec.
      + exists 0%Z, [FSeeCtx; FGo]. eexists _, _. split; [by repeat constructor|]. split; [unfold flush_wait; lia|]. split; [done|].
        split; [cbn [run fstep]; rewrite Z.leb_refl; cbn [fstep f_pc f_ctx]; rewrite Hp, Ec; cbn [fstep fs_pc f_pc f_ctx]; destruct c; cbn; reflexivity|].
        cbn. exists Outer. eexists. left.
      + set (dt := Z.max 0 (f_deadline s - f_now s)). exists dt, [FExpire; FSeeCtx; FGo]. eexists _, _. split; [by repeat constructor|].
        split; [unfold dt, flush_wait in *; lia|]. split; [done|].
        split; [cbn [run fstep]; rewrite (proj2 (Z.leb_le 0 dt)) by lia; cbn [fstep f_pc f_ctx f_deadline f_now]; rewrite Hp, Ec;
          rewrite (proj2 (Z.leb_le (f_deadline s) (f_now s + dt))) by lia; cbn; reflexivity|].
        cbn. exists Outer. eexists. rewrite !elem_of_cons. auto. }
  (* before it *)
  assert (forall l1 s1 ev1, Forall its_own l1 -> frun s l1 = Some (s1, ev1) -> f_pc s1 = FSelect -> (f_deadline s1 <= f_now s1 + flush_wait)%Z -> (f_done s1 = f_done s) ->
    exists l1 dt l2 s' evs', Forall its_own l1 /\ Forall its_own l2 /\ (0 <= dt <= flush_wait)%Z /\ ((exists t, FMessage t ∈ evs) -> dt = 0%Z) /\
    frun s (l1 ++ FTime dt :: l2) = Some (s', evs') /\ exists w t, FAttempt w t ∈ evs') as Hgo.
  { intros l1 s1 ev1 Hl1 Hr1 Hp Hd Hdn. destruct (Hsel s1 Hp Hd) as (dt & l2 & s' & evs' & Hl2 & Hdt & H0 & Hr2 & w & t & Hw).
    exists l1, dt, l2, s', (ev1 ++ evs'). split; [done|]. split; [done|]. split; [done|]. split; [intros Hm; apply H0; rewrite Hdn; by apply H4|].
    split; [by rewrite run_app, Hr1, Hr2|]. exists w, t. apply elem_of_app. by right. }
  destruct (f_pc s) eqn:Ep.
  - destruct (H2 eq_refl) as (_ & _ & _ & Ed & _). eapply (Hgo [FGo; FGo; FGo]); [by repeat constructor|cbn [run fstep]; rewrite Ep; reflexivity|done|cbn; lia|by rewrite Ed].
  - destruct (H3 ltac:(done)) as (t0 & _ & Hd & Hn). eapply (Hgo [FGo; FGo]); [by repeat constructor|cbn [run fstep]; rewrite Ep; reflexivity|done|cbn; lia|done].
  - destruct (H3 ltac:(done)) as (t0 & _ & Hd & Hn). eapply (Hgo [FGo]); [by repeat constructor|cbn [run fstep]; rewrite Ep; reflexivity|done|cbn; lia|done].
  - destruct (H3 ltac:(done)) as (t0 & _ & Hd & Hn). eapply (Hgo []); [constructor|reflexivity|done|lia|done].
  - destruct H1 as [t H1]. congruence.
  - destruct H1 as [[_ (c & Hc & ->)]|[t H1]]; [|congruence].
    exists [FGo], 0%Z, []. eexists _, _. split; [by repeat constructor|]. split; [constructor|]. split; [unfold flush_wait; lia|]. split; [done|].
    split; [cbn [run app fstep]; rewrite Ep, Hc; destruct c; cbn; reflexivity|]. exists Outer. eexists. left.
  - destruct H1 as [[t H1]|(t & e & t' & H1)]; congruence.
  - destruct H1 as [Hc _]. rewrite Hco in Hc. inversion Hc.
Qed.

Lemma asks_within now c0 ls s evs a t b : frun (f_init now c0) ls = Some (s, evs) -> evs = a ++ FAttempt Within t :: b -> exists t', FMessage t' ∈ a.
Proof. intros Hr E. exact (fi_just _ _ _ _ (finv_run _ _ _ _ _ Hr) a _ b E). Qed.
Lemma asks_outer now c0 ls s evs a t b : frun (f_init now c0) ls = Some (s, evs) -> evs = a ++ FAttempt Outer t :: b ->
  exists c t', FCtx c t' ∈ a /\ forall e, FResult (Some e) ∈ a -> err_is e c = true.
Proof. intros Hr E. exact (fi_just _ _ _ _ (finv_run _ _ _ _ _ Hr) a _ b E). Qed.
Lemma ctx_ends now c0 ls s evs a c t b : frun (f_init now c0) ls = Some (s, evs) -> evs = a ++ FCtx c t :: b ->
  exists t0, FBegan t0 ∈ a /\ match c with CDeadline => (t0 + flush_wait <= t)%Z | CCanceled => c0 = true \/ FCancel ∈ ls end.
Proof. intros Hr E. exact (fi_just _ _ _ _ (finv_run _ _ _ _ _ Hr) a _ b E). Qed.
Lemma gives_up now c0 ls s evs a e b : frun (f_init now c0) ls = Some (s, evs) -> evs = a ++ FRet (Some e) :: b -> (forall t, FAttempt Outer t ∉ a) ->
  forall c t, FCtx c t ∈ a -> err_is e c = false.
Proof. intros Hr E. exact (fi_just _ _ _ _ (finv_run _ _ _ _ _ Hr) a _ b E). Qed.

(** After a first flush that failed: a second one if the context has ended with
    that error, and otherwise the end. *)
Lemma after_failure now c0 ls s evs t e : frun (f_init now c0) ls = Some (s, evs) -> course evs = [FAttempt Within t; FResult (Some e)] ->
  exists s' ev, frun s [FGo] = Some (s', [ev]) /\
    ((exists c t', FCtx c t' ∈ evs /\ err_is e c = true) /\ ev = FAttempt Outer (f_now s) \/
     (forall c t', FCtx c t' ∈ evs -> err_is e c = false) /\ ev = FRet (Some e)).
Proof.
  intros Hr Hco. destruct (finv_run _ _ _ _ _ Hr) as [H1 _ _ _ H5 _ _ _].
  assert (f_pc s = FCheck e) as Ep.
  { destruct (f_pc s); rewrite ?Hco in H1; try done.
    - destruct H1 as [? ?]; done.
    - destruct H1 as [[? _]|[t' E]]; [done|]. congruence.
    - destruct H1 as [[? ?]|(? & ? & ? & ?)]; done.
    - destruct H1 as [_ ?]. done. }
  cbn [run fstep]. rewrite Ep. destruct (f_ctx s) as [c|] eqn:Ec.
  - destruct (err_is e c) eqn:Ei; eexists _, _; (split; [reflexivity|]); [left|right]; (split; [|done]).
    + destruct (proj1 (H5 c) eq_refl) as [t' Ht']. eauto.
    + intros c' t' Hc. assert (Some c = Some c') as [= <-] by (apply H5; eauto). done.
  - eexists _, _. split; [reflexivity|]. right. split; [|done]. intros c t' Hc. assert (None = Some c) by (apply H5; eauto). done.
Qed.

(** Once the goroutine has made its three first steps both handlers are there. *)
Lemma hears now c0 ls s evs : frun (f_init now c0) ls = Some (s, evs) -> 3 <= went ls -> f_rec s = true /\ f_hb s = true.
Proof.
  assert (forall ls s evs, frun (f_init now c0) ls = Some (s, evs) ->
    match f_pc s with FStart => went ls = 0 | FReg1 => went ls = 1 | FReg2 => went ls = 2 /\ f_rec s = true | _ => f_rec s = true /\ f_hb s = true end) as H.
  { clear. intros ls. induction ls as [|l ls IH] using rev_ind; intros s evs Hr; [by injection Hr as <- <-|].
    apply run_snoc in Hr as (s1 & ev1 & ev2 & H1 & H2 & ->). specialize (IH _ _ H1). unfold went in *. rewrite List.filter_app, app_length. cbn [List.filter].
    unfold fstep, handled in H2. destruct s1 as [pc nw dl pa cx rc hb dn]. cbn [f_pc f_now f_deadline f_parent f_ctx f_rec f_hb f_done] in *.
    destruct l; repeat case_match; try done; injection H2 as <- <-; cbn [f_pc f_rec f_hb fs_pc fs_ctx length] in *; subst; try done; try (rewrite Nat.add_0_r; done); try lia; try (split; [lia|tauto]); try tauto. }
  intros Hr Hn. specialize (H _ _ _ Hr). destruct (f_pc s); try done; lia.
Qed.
