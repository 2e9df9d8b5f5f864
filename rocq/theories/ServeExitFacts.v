(** Proofs about how the HTTP commands end (C108). *)
From Coq Require Import ZArith Lia.
From stdpp Require Import base list.
From Verif Require Import Run ServeExit.

Local Open Scope list_scope.
Local Open Scope Z_scope.

(** ** Specification *)

Definition times (e : xev) (evs : list xev) : nat := length (List.filter (fun f => match f, e with EAccept q, EAccept r | EAnswer q, EAnswer r => Nat.eqb q r | _, _ => false end) evs).
(** Steps that need nobody outside: no request has to end. *)
Definition unaided (l : xlabel) : Prop :=
  match l with XTime _ | XListen _ | XServe | XStopServing | XWake | XShutdown | XExpired | XExit => True | _ => False end.
Definition xlapse (l : xlabel) : Z := match l with XTime dt => dt | _ => 0 end.
Definition xlapses (ls : list xlabel) : Z := foldr (fun l z => xlapse l + z) 0 ls.

(** ** Invariant *)

Lemma times_app e a b : times e (a ++ b) = (times e a + times e b)%nat.
Proof. unfold times. by rewrite List.filter_app, app_length. Qed.

Record xinv (s : xstate) (evs : list xev) : Prop := XInv {
  xi_ctx : x_ctx s = true <-> exists t, EStop t ∈ evs;
  xi_past : forall t, EStop t ∈ evs -> t <= x_now s;
  xi_once : forall t t', EStop t ∈ evs -> EStop t' ∈ evs -> t = t';
  xi_main : match x_main s with
    | MWait => x_flag s = false /\ x_var s = false
    | MAbout d => x_flag s = false /\ x_ctx s = true /\ (forall t, EStop t ∈ evs -> t + second <= d) /\ d <= x_now s + second
    | MShut d => x_flag s = true /\ x_ctx s = true /\ (forall t, EStop t ∈ evs -> t + second <= d) /\ d <= x_now s + second
    | MJoin | MGone => x_flag s = true /\ x_ctx s = true /\ (x_open s = [] \/ (forall t, EStop t ∈ evs -> t + second <= x_now s) \/ x_grace s = true)
    end;
  xi_gone : x_main s = MGone -> EExit (x_now s) (x_open s) ∈ evs;
  xi_exit : forall t cut, EExit t cut ∈ evs -> x_main s = MGone /\ t = x_now s /\ cut = x_open s;
  xi_open : NoDup (x_open s);
  xi_count : forall r, times (EAccept r) evs = (times (EAnswer r) evs + if bool_decide (r ∈ x_open s) then 1 else 0)%nat;
  xi_shut : (exists t, EShut t ∈ evs) <-> x_flag s = true;
}.

Lemma xinv_init : xinv x_init [].
Proof.
  split; cbn; try done; try (by intros ? ?%elem_of_nil); try (by constructor); try (split; [done|intros [? ?%elem_of_nil]; done]).
  - by intros ? ? ?%elem_of_nil.
  - by intros ? ? ?%elem_of_nil.
  - split; [intros [? ?%elem_of_nil]; done|done].
Qed.

Lemma stop_old s evs e : xinv s evs -> (forall t, e <> EStop t) -> forall t, EStop t ∈ evs ++ [e] <-> EStop t ∈ evs.
Proof. intros _ Hn t. rewrite elem_of_app, elem_of_list_singleton. split; [intros [?|<-]; [done|]; by destruct (Hn t)|by left]. Qed.

Lemma end_inv s evs c : xinv s evs -> x_main s <> MGone -> xinv (fst (end_ctx (x_ctrgo c s))) (evs ++ snd (end_ctx (x_ctrgo c s))).
Proof.
  intros [H1 H2 H3 H4 H5 H6 H7 H8 H9] Hg. unfold end_ctx. cbn [fst snd x_ctrgo x_ctx x_now]. destruct (x_ctx s) eqn:Ec.
  - rewrite app_nil_r. split; cbn [x_ctx x_now x_main x_var x_flag x_grace x_open x_srv x_ctr x_ctrgo]; try done.
  - assert (forall t, EStop t ∉ evs) as Hno by (intros t Ht; assert (false = true) by (apply H1; eauto); done).
    assert (forall t, EStop t ∈ evs ++ [EStop (x_now s)] <-> t = x_now s) as He.
    { intros t. rewrite elem_of_app, elem_of_list_singleton. split; [intros [Ht|[= ->]]; [by destruct (Hno t)|done]|intros ->; by right]. }
    split; cbn [x_ctx x_now x_main x_var x_flag x_grace x_open x_srv x_ctr x_ctrgo].
    + split; [intros _; exists (x_now s); by apply He|done].
    + intros t Ht. apply He in Ht. lia.
    + intros t t' Ht Ht'. apply He in Ht, Ht'. congruence.
    + destruct (x_main s) as [|d|d| |]; [done|destruct H4 as (_ & ? & _); congruence..].
    + done.
    + intros t cut. rewrite elem_of_app, elem_of_list_singleton. intros [Ht|Ht]; [|done]. by apply H6.
    + done.
    + intros r. rewrite !times_app. cbn. rewrite H8. lia.
    + rewrite <- H9. split; intros [t Ht]; exists t; [apply elem_of_app in Ht as [Ht|Ht%elem_of_list_singleton]; [done|congruence]|apply elem_of_app; by left].
Qed.

Lemma xinv_step s evs l s2 ev : xinv s evs -> xstep s l = Some (s2, ev) -> xinv s2 (evs ++ ev).
Proof.
  intros Hi Hs. assert (x_main s <> MGone) as Hg by (intros E; unfold xstep in Hs; by rewrite E in Hs).
  assert (xstep s l = Some (s2, ev) -> x_main s <> MGone) as _ by done.
  pose proof Hi as [H1 H2 H3 H4 H5 H6 H7 H8 H9]. unfold xstep in Hs.
  assert (forall s', (match x_main s with MGone => None | _ => Some s' end) = Some (s2, ev) -> s' = (s2, ev)) as Hm by (intros s' E; destruct (x_main s); congruence).
  assert (forall t cut, EExit t cut ∈ evs -> False) as Hne by (intros t cut Ht; by destruct (H6 _ _ Ht) as (? & _)).
  destruct l; cbn in Hs.
  - (* time *) destruct (0 <=? dt) eqn:Ed; [|by destruct (x_main s)]. apply Hm in Hs. injection Hs as <- <-. apply Z.leb_le in Ed. rewrite app_nil_r.
    split; cbn; try done.
    + intros t Ht. specialize (H2 t Ht). lia.
    + destruct (x_main s); try done; [destruct H4 as (? & ? & ? & ?); repeat split; try done; lia..|].
      destruct H4 as (? & ? & [Ho|[Ht|?]]); split_and!; try done; [by left| |by right; right]. right. left. intros t Hx. specialize (Ht t Hx). lia.
    + intros t cut Ht. by apply Hne in Ht.
  - (* signal *) apply Hm in Hs. pose proof (end_inv s evs (x_ctr s) Hi Hg) as E. replace (x_ctrgo (x_ctr s) s) with s in E by (by destruct s). by rewrite Hs in E.
  - (* gives up *) destruct (x_ctr s); try (by destruct (x_main s)). destruct (x_ctx s) eqn:Ec; [by destruct (x_main s)|]. apply Hm in Hs. injection Hs as <- <-. rewrite app_nil_r. split; cbn; try done; try (by rewrite Ec).
  - destruct (x_ctr s); try (by destruct (x_main s)). destruct (x_ctx s) eqn:Ec; [|by destruct (x_main s)]. apply Hm in Hs. injection Hs as <- <-. rewrite app_nil_r. split; cbn; try done; by rewrite Ec.
  - (* handler *) destruct (x_ctr s); try (by destruct (x_main s)). destruct (x_var s) eqn:Ev.
    + apply Hm in Hs. injection Hs as <- <-. rewrite app_nil_r. split; cbn; try done. destruct (x_main s); try done; destruct H4 as (? & ? & ?); try congruence; split_and!; try done; by right; right.
    + apply Hm in Hs. pose proof (end_inv s evs CDone Hi Hg) as E. by rewrite Hs in E.
  - destruct (x_srv s); try (by destruct (x_main s)). apply Hm in Hs. injection Hs as <- <-. rewrite app_nil_r. by split.
  - destruct (x_srv s); try (by destruct (x_main s)). apply Hm in Hs. injection Hs as <- <-. rewrite app_nil_r. by split.
  - destruct (x_srv s); try (by destruct (x_main s)). destruct (x_flag s) eqn:Ef; [by destruct (x_main s)|]. apply Hm in Hs. injection Hs as <- <-. rewrite app_nil_r. split; cbn; try done; by rewrite Ef.
  - (* accept *) destruct (x_srv s); try (by destruct (x_main s)). destruct (x_flag s) eqn:Ef; [by destruct (x_main s)|]. case_bool_decide as Hr; [by destruct (x_main s)|]. cbn in Hs. apply Hm in Hs. injection Hs as <- <-.
    pose proof (stop_old s evs (EAccept r) Hi ltac:(done)) as Hst. split; cbn.
    + rewrite H1. split; intros [t Ht]; exists t; by apply Hst.
    + intros t Ht. apply H2. by apply Hst.
    + intros t t' Ht Ht'. apply H3; by apply Hst.
    + rewrite Ef. destruct (x_main s) as [|d|d| |]; try done; try (by destruct H4); destruct H4 as (? & ? & Hx & ?); split_and!; try done. intros t Ht. apply Hx. by apply Hst.
    + done.
    + intros t cut. rewrite elem_of_app, elem_of_list_singleton. intros [Ht|Ht]; [|done]. by apply Hne in Ht.
    + by constructor.
    + intros q. rewrite !times_app, H8. cbn. destruct (Nat.eqb_spec r q) as [->|Hn]; cbn.
      * rewrite (bool_decide_false _ Hr), bool_decide_true by left. lia.
      * destruct (decide (q ∈ x_open s)) as [Hq|Hq]; [rewrite !bool_decide_true by (done || by right)|rewrite !bool_decide_false; [|rewrite elem_of_cons; naive_solver|done]]; lia.
    + rewrite Ef. split; [|done]. intros [t Ht]. apply elem_of_app in Ht as [Ht|Ht%elem_of_list_singleton]; [|done]. apply H9. eauto.
  - (* answer *) case_bool_decide as Hr; [|by destruct (x_main s)]. apply Hm in Hs. injection Hs as <- <-.
    pose proof (stop_old s evs (EAnswer r) Hi ltac:(done)) as Hst.
    assert (forall q, q ∈ List.filter (fun q => negb (Nat.eqb q r)) (x_open s) <-> q ∈ x_open s /\ q <> r) as Hf.
    { intros q. rewrite !elem_of_list_In, filter_In. destruct (Nat.eqb_spec q r); cbn; naive_solver. }
    split; cbn.
    + rewrite H1. split; intros [t Ht]; exists t; by apply Hst.
    + intros t Ht. apply H2. by apply Hst.
    + intros t t' Ht Ht'. apply H3; by apply Hst.
    + destruct (x_main s) as [|d|d| |]; try done.
      * destruct H4 as (? & ? & Hx & ?); split_and!; try done. intros t Ht. apply Hx. by apply Hst.
      * destruct H4 as (? & ? & Hx & ?); split_and!; try done. intros t Ht. apply Hx. by apply Hst.
      * destruct H4 as (? & ? & [Ho|[Hx|?]]); split_and!; try done; [left; by rewrite Ho| |by right; right]. right. left. intros t Ht. apply Hx. by apply Hst.
    + done.
    + intros t cut. rewrite elem_of_app, elem_of_list_singleton. intros [Ht|Ht]; [|done]. by apply Hne in Ht.
    + clear - H7. induction H7 as [|x l Hx Hl IH]; cbn; [constructor|]. destruct (negb (x =? r)%nat); [|done]. constructor; [|done]. rewrite elem_of_list_In, filter_In, <- elem_of_list_In. tauto.
    + intros q. rewrite !times_app, H8. cbn. destruct (Nat.eqb_spec r q) as [->|Hn]; cbn.
      * rewrite (bool_decide_true _ Hr), bool_decide_false; [lia|]. rewrite Hf. tauto.
      * destruct (decide (q ∈ x_open s)) as [Hq|Hq]; [rewrite !bool_decide_true; [|rewrite Hf; split; congruence|done]|rewrite !bool_decide_false; [|rewrite Hf; tauto|done]]; lia.
    + rewrite <- H9. split; intros [t Ht]; exists t; [apply elem_of_app in Ht as [Ht|Ht%elem_of_list_singleton]; [done|congruence]|apply elem_of_app; by left].
  - destruct (x_srv s); try (by destruct (x_main s)). destruct (x_flag s) eqn:Ef; [|by destruct (x_main s)]. apply Hm in Hs. injection Hs as <- <-. rewrite app_nil_r. split; cbn; try done; by rewrite Ef.
  - (* wake *) destruct (x_main s) eqn:Em; try done. destruct (x_ctx s) eqn:Ec; [|done]. injection Hs as <- <-. rewrite app_nil_r. split; cbn; try done.
    + split; [by destruct H4|]. split; [done|]. split; [|lia]. intros t Ht. specialize (H2 t Ht). lia.
    + intros t cut Ht. by apply Hne in Ht.
  - (* shutdown *) destruct (x_main s) as [|d|d| |] eqn:Em; try done. injection Hs as <- <-. pose proof (stop_old s evs (EShut (x_now s)) Hi ltac:(done)) as Hst. split; cbn.
    + rewrite H1. split; intros [t Ht]; exists t; by apply Hst.
    + intros t Ht. apply H2. by apply Hst.
    + intros t t' Ht Ht'. apply H3; by apply Hst.
    + destruct H4 as (? & ? & Hx & ?); split_and!; try done. intros t Ht. apply Hx. by apply Hst.
    + done.
    + intros t cut. rewrite elem_of_app, elem_of_list_singleton. intros [Ht|Ht]; [|done]. by apply Hne in Ht.
    + done.
    + intros r. rewrite !times_app, H8. cbn. lia.
    + split; [done|]. intros _. exists (x_now s). apply elem_of_app. right. by apply elem_of_list_singleton.
  - destruct (x_main s) eqn:Em; try (by destruct (x_open s)). destruct (x_open s) eqn:Eo; [|done]. injection Hs as <- <-. rewrite app_nil_r. split; cbn; rewrite ?Eo; try done.
    + destruct H4 as (? & ? & _). split_and!; try done. by left.
    + intros t cut Ht. by apply Hne in Ht.
  - destruct (x_main s) as [|d|d| |] eqn:Em; try done. destruct ((d <=? x_now s) || x_grace s) eqn:Ed; [|done]. injection Hs as <- <-. rewrite app_nil_r. split; cbn; try done.
    + destruct H4 as (? & ? & Hx & _). split_and!; try done. right. apply orb_true_iff in Ed as [Ed|Ed]; [left|by right]. apply Z.leb_le in Ed. intros t Ht. specialize (Hx t Ht). lia.
    + intros t cut Ht. by apply Hne in Ht.
  - (* exit *) destruct (x_main s) eqn:Em; try done. assert (s2 = x_goto MGone s /\ ev = [EExit (x_now s) (x_open s)]) as [-> ->] by (destruct (x_srv s); try done; by injection Hs as <- <-).
    pose proof (stop_old s evs (EExit (x_now s) (x_open s)) Hi ltac:(done)) as Hst. split; cbn.
    + rewrite H1. split; intros [t Ht]; exists t; by apply Hst.
    + intros t Ht. apply H2. by apply Hst.
    + intros t t' Ht Ht'. apply H3; by apply Hst.
    + destruct H4 as (? & ? & [Ho|[Hx|?]]); split_and!; try done; [by left| |by right; right]. right. left. intros t Ht. apply Hx. by apply Hst.
    + intros _. apply elem_of_app. right. by apply elem_of_list_singleton.
    + intros t cut. rewrite elem_of_app, elem_of_list_singleton. intros [Ht|[= -> ->]]; [by apply Hne in Ht|done].
    + done.
    + intros r. rewrite !times_app, H8. cbn. lia.
    + rewrite <- H9. split; intros [t Ht]; exists t; [apply elem_of_app in Ht as [Ht|Ht%elem_of_list_singleton]; [done|congruence]|apply elem_of_app; by left].
Qed.

Lemma xinv_run ls s evs : xrun x_init ls = Some (s, evs) -> xinv s evs.
Proof.
  intros Hr. apply (run_inv xstep xinv (fun _ => True) x_init [] ls s evs) with (4 := Hr); [apply xinv_init| |by apply Forall_true].
  intros s1 evs1 l s2 ev Hi _ Hs. by eapply xinv_step.
Qed.

(** ** It ends only when told *)

Lemma told ls : forall s evs t, xrun x_init ls = Some (s, evs) -> EStop t ∈ evs -> XSignal ∈ ls \/ XHandler ∈ ls.
Proof.
  induction ls as [|l ls IH] using rev_ind; intros s evs t Hr Ht; [injection Hr as _ <-; by apply elem_of_nil in Ht|].
  apply run_snoc in Hr as (s1 & ev1 & ev2 & H1 & H2 & ->). rewrite !elem_of_app. apply elem_of_app in Ht as [Ht|Ht]; [destruct (IH _ _ _ H1 Ht); tauto|].
  rewrite !elem_of_list_singleton. assert (l = XSignal \/ l = XHandler) as [->| ->]; [|by left; right|by right; right].
  unfold xstep in H2. destruct l; try (by left); try (by right); repeat case_match; try done; injection H2 as _ <-; by apply elem_of_nil in Ht || apply elem_of_list_singleton in Ht.
Qed.

Lemma exit_told ls s evs t cut : xrun x_init ls = Some (s, evs) -> EExit t cut ∈ evs -> exists t0, EStop t0 ∈ evs /\ t0 <= t.
Proof.
  intros Hr He. pose proof (xinv_run _ _ _ Hr) as Hi. destruct (xi_exit _ _ Hi _ _ He) as (Em & -> & _). pose proof (xi_main _ _ Hi) as Hm. rewrite Em in Hm.
  destruct Hm as (_ & Hc & _). apply (xi_ctx _ _ Hi) in Hc as [t0 Ht0]. exists t0. split; [done|]. by apply (xi_past _ _ Hi).
Qed.

(** ** A second for requests *)

Lemma kept ls : forall s evs, xrun x_init ls = Some (s, evs) -> XGiveUp ∉ ls -> x_ctr s <> CFinal /\ x_grace s = false.
Proof.
  induction ls as [|l ls IH] using rev_ind; intros s evs Hr Hn; [by injection Hr as <- _|].
  apply run_snoc in Hr as (s1 & ev1 & ev2 & H1 & H2 & ->). rewrite elem_of_app, elem_of_list_singleton in Hn. destruct (IH _ _ H1) as [Hc Hg]; [tauto|].
  unfold xstep, end_ctx in H2. destruct l; try (by destruct Hn; right); repeat case_match; try done; by injection H2 as <- _.
Qed.

Lemma second_given ls s evs t cut : xrun x_init ls = Some (s, evs) -> EExit t cut ∈ evs -> cut <> [] -> XGiveUp ∉ ls -> exists t0, EStop t0 ∈ evs /\ t0 + second <= t.
Proof.
  intros Hr He Hc Hn. pose proof (xinv_run _ _ _ Hr) as Hi. destruct (kept _ _ _ Hr Hn) as [_ Hg]. destruct (xi_exit _ _ Hi _ _ He) as (Em & -> & ->). pose proof (xi_main _ _ Hi) as Hm. rewrite Em in Hm.
  destruct Hm as (_ & Hx & [Ho|[Ht|Hy]]); [done| |congruence]. apply (xi_ctx _ _ Hi) in Hx as [t0 Ht0]. exists t0. split; [done|]. by apply Ht.
Qed.

(** ** Requests *)

Lemma accept_step s l s2 ev r : xstep s l = Some (s2, ev) -> EAccept r ∈ ev -> x_flag s = false /\ x_srv s = SServing.
Proof.
  unfold xstep, end_ctx. intros Hs Hin. destruct l; repeat case_match; try done; injection Hs as _ <-; try (by apply elem_of_nil in Hin); try (by apply elem_of_list_singleton in Hin).
  all: match goal with H : _ || _ = false |- _ => apply orb_false_iff in H as [H _]; done end.
Qed.

Lemma none_after ls : forall s evs e1 t e2 r, xrun x_init ls = Some (s, evs) -> evs = e1 ++ EShut t :: e2 -> EAccept r ∉ e2.
Proof.
  induction ls as [|l ls IH] using rev_ind; intros s evs e1 t e2 r Hr E; [injection Hr as _ <-; by destruct e1|].
  apply run_snoc in Hr as (s1 & ev1 & ev2 & H1 & H2 & ->). pose proof (xinv_run _ _ _ H1) as Hi.
  apply app_eq_inv in E as [(k & -> & E)|(k & -> & E)].
  - destruct k as [|y k]; cbn in E.
    + assert (EShut t ∈ ev2) as Hin by (rewrite <- E; left). intros Hr. assert (EAccept r ∈ ev2) as Hr2 by (rewrite <- E; by right). destruct (accept_step _ _ _ _ _ H2 Hr2) as [Hf Hsv].
      clear - H2 Hin Hr2. unfold xstep, end_ctx in H2. destruct l; repeat case_match; try done; injection H2 as _ <-; try (by apply elem_of_nil in Hin); try (by apply elem_of_list_singleton in Hin); by apply elem_of_list_singleton in Hr2.
    + injection E as <- ->. rewrite elem_of_app. intros [Hx|Hx]; [by apply (IH _ _ _ _ _ r H1 eq_refl)|]. destruct (accept_step _ _ _ _ _ H2 Hx) as [Hf _].
      assert (x_flag s1 = true); [|congruence]. apply (xi_shut _ _ Hi). exists t. apply elem_of_app. right. left.
  - intros Hx. assert (EShut t ∈ ev2) as Hin by (rewrite E; apply elem_of_app; right; left). assert (EAccept r ∈ ev2) as Hr2 by (rewrite E; apply elem_of_app; right; by right).
    clear - H2 Hin Hr2. unfold xstep, end_ctx in H2. destruct l; repeat case_match; try done; injection H2 as _ <-; try (by apply elem_of_nil in Hin); try (by apply elem_of_list_singleton in Hin); by apply elem_of_list_singleton in Hr2.
Qed.

(** ** A server that failed *)

Lemma failed_run ls : forall s s' evs r, x_srv s = SFailed -> xrun s ls = Some (s', evs) -> EAccept r ∉ evs /\ x_srv s' = SFailed.
Proof.
  induction ls as [|l ls IH]; intros s s' evs r Hf Hr; cbn [run] in Hr; [injection Hr as <- <-; split; [apply not_elem_of_nil|done]|].
  destruct (xstep s l) as [[s1 e1]|] eqn:E1; [|done]. destruct (xrun s1 ls) as [[s2 e2]|] eqn:E2; [|done]. injection Hr as <- <-.
  assert (x_srv s1 = SFailed) as Hf1 by (clear - E1 Hf; unfold xstep, end_ctx in E1; destruct l; repeat case_match; try done; injection E1 as <- _; done).
  destruct (IH _ _ _ r Hf1 E2) as [G1 G2]. split; [|done]. rewrite elem_of_app. intros [Hx|Hx]; [|done]. destruct (accept_step _ _ _ _ _ E1 Hx) as [_ ?]. congruence.
Qed.

Lemma listen_step s l s2 ev : xstep s l = Some (s2, ev) ->
  (x_srv s2 = x_srv s /\ forall b, l <> XListen b) \/ (exists b, l = XListen b /\ x_srv s = SNew /\ ev = [] /\ (b = false -> x_srv s2 = SFailed \/ x_srv s2 = SClosed) /\ x_srv s2 <> SNew) \/
  (x_srv s <> SNew /\ x_srv s2 <> SNew /\ (x_srv s = SFailed \/ x_srv s = SClosed -> x_srv s2 = x_srv s) /\ forall b, l <> XListen b).
Proof.
  unfold xstep, end_ctx. intros Hs. destruct l; repeat case_match; try done; injection Hs as <- <-; cbn; try (by left); right; try (right; split_and!; try done; by intros [?|?]); left; eexists; split_and!; try done; try (by left); by right.
Qed.

Lemma unheard ls : forall s evs, xrun x_init ls = Some (s, evs) ->
  (x_srv s = SNew -> (forall r, EAccept r ∉ evs) /\ forall b, XListen b ∉ ls) /\ (XListen false ∈ ls -> (x_srv s = SFailed \/ x_srv s = SClosed) /\ forall r, EAccept r ∉ evs).
Proof.
  induction ls as [|l ls IH] using rev_ind; intros s evs Hr.
  - injection Hr as <- <-. split; [|by intros ?%elem_of_nil]. intros _. split; intros ?; apply not_elem_of_nil.
  - apply run_snoc in Hr as (s1 & ev1 & ev2 & H1 & H2 & ->). destruct (IH _ _ H1) as [I1 I2].
    assert (forall r, x_srv s1 <> SServing -> (forall r, EAccept r ∉ ev1) -> EAccept r ∉ ev1 ++ ev2) as Hacc.
    { intros r Hns Hold. rewrite elem_of_app. intros [Hx|Hx]; [by apply (Hold r)|]. destruct (accept_step _ _ _ _ _ H2 Hx) as [_ ?]. done. }
    destruct (listen_step _ _ _ _ H2) as [[E Hl]|[(b & -> & E & -> & Hb & Hnew)|(E1 & E2 & E3 & Hl)]].
    + rewrite E. split.
      * intros Hn. destruct (I1 Hn) as [G1 G2]. split; [intros r; apply Hacc; [congruence|done]|]. intros b. rewrite elem_of_app, elem_of_list_singleton. intros [Hx|<-]; [by apply (G2 b)|by destruct (Hl b)].
      * rewrite elem_of_app, elem_of_list_singleton. intros [Hx|<-]; [|by destruct (Hl false)]. destruct (I2 Hx) as [G1 G2]. split; [done|]. intros r. apply Hacc; [destruct G1; congruence|done].
    + split; [done|]. rewrite app_nil_r. destruct (I1 E) as [G1 G2]. rewrite elem_of_app, elem_of_list_singleton. intros [Hx|[= <-]]; [by destruct (G2 false)|]. split; [by apply Hb|done].
    + split; [done|]. rewrite elem_of_app, elem_of_list_singleton. intros [Hx|<-]; [|by destruct (Hl false)]. destruct (I2 Hx) as [G1 G2]. split; [by rewrite (E3 G1)|]. intros r. apply Hacc; [destruct G1; congruence|done].
Qed.

(** ** Told, it can end *)

Definition can_end (t : Z) (s : xstate) : Prop :=
  exists ls s' ev, Forall unaided ls /\ 0 <= xlapses ls <= t /\ xrun s ls = Some (s', ev) /\ EExit (x_now s + xlapses ls) (x_open s) ∈ ev.

Lemma can_step t s l s1 ev : xstep s l = Some (s1, ev) -> unaided l -> 0 <= xlapse l -> x_open s1 = x_open s -> x_now s1 = x_now s + xlapse l -> can_end t s1 -> can_end (xlapse l + t) s.
Proof.
  intros Hs Hl Hz Ho Hn (ls & s' & ev' & HF & Ht & Hr & He). exists (l :: ls), s', (ev ++ ev'). unfold xlapses in *. cbn [foldr]. split; [by constructor|]. split; [lia|].
  split; [cbn [run]; by rewrite Hs, Hr|]. apply elem_of_app. right. rewrite Ho, Hn in He. by rewrite Z.add_assoc.
Qed.

Lemma end_join s : x_main s = MJoin -> x_flag s = true -> can_end 0 s.
Proof.
  intros Em Ef.
  assert (forall s, x_main s = MJoin -> x_srv s = SClosed \/ x_srv s = SFailed -> can_end 0 s) as Hex.
  { clear. intros s Em Hs. exists [XExit], (x_goto MGone s), [EExit (x_now s) (x_open s)]. split; [by repeat constructor|]. split; [cbn; lia|].
    split; [rewrite run_one; unfold xstep; rewrite Em; destruct Hs as [-> | ->]; done|]. apply elem_of_list_singleton. cbn. by rewrite Z.add_0_r. }
  destruct (x_srv s) eqn:Es; [| | |apply Hex; [done|by left]|apply Hex; [done|by right]].
  - eapply (can_step 0 s (XListen true) (x_serve SClosed s)); try done; [unfold xstep; by rewrite Em, Es, Ef|cbn; lia|]. apply Hex; [done|by left].
  - eapply (can_step 0 s XServe (x_serve SClosed s)); try done; [unfold xstep; by rewrite Em, Es, Ef|cbn; lia|]. apply Hex; [done|by left].
  - eapply (can_step 0 s XStopServing (x_serve SClosed s)); try done; [unfold xstep; by rewrite Em, Es, Ef|cbn; lia|]. apply Hex; [done|by left].
Qed.

Lemma end_shut s d : x_main s = MShut d -> x_flag s = true -> can_end (Z.max 0 (d - x_now s)) s.
Proof.
  intros Em Ef. set (z := Z.max 0 (d - x_now s)). replace z with (xlapse (XTime z) + (0 + 0)) by (cbn; lia).
  eapply can_step; [unfold xstep; rewrite Em; destruct (0 <=? z) eqn:Ez; [reflexivity|apply Z.leb_gt in Ez; lia]|done|cbn; lia|done|done|].
  match goal with |- can_end _ ?x => set (s1 := x) end.
  eapply (can_step 0 s1 XExpired (x_goto MJoin s1)); try done; [|cbn; lia|by apply end_join]. assert (x_main s1 = MShut d) as Em1 by done. unfold xstep. rewrite Em1.
  assert (d <=? x_now s1 = true) as -> by (apply Z.leb_le; unfold s1; cbn; lia). done.
Qed.

Lemma ends ls s evs t0 : xrun x_init ls = Some (s, evs) -> EStop t0 ∈ evs -> (forall t cut, EExit t cut ∉ evs) -> can_end second s.
Proof.
  intros Hr Ht Hn. pose proof (xinv_run _ _ _ Hr) as Hi. assert (x_ctx s = true) as Hc by (apply (xi_ctx _ _ Hi); eauto). pose proof (xi_main _ _ Hi) as Hm.
  assert (forall t t' s, can_end t s -> t <= t' -> can_end t' s) as Hmore.
  { clear. intros t t' s (ls & s' & ev & H1 & H2 & H3) Hl. exists ls, s', ev. split; [done|]. split; [lia|done]. }
  assert (forall s d, x_main s = MAbout d -> can_end (Z.max 0 (d - x_now s)) s) as Hab.
  { clear. intros s d Em. replace (Z.max 0 (d - x_now s)) with (xlapse XShutdown + Z.max 0 (d - x_now s)) by done.
    eapply can_step; [unfold xstep; rewrite Em; reflexivity| | | | |]; [done|done|done|cbn; lia|]. by apply (end_shut (XState _ _ (MShut d) _ _ true _ _ _) d). }
  destruct (x_main s) as [|d|d| |] eqn:Em.
  - replace second with (xlapse XWake + second) by done. eapply can_step; [unfold xstep; rewrite Em, Hc; reflexivity| | | | |]; [done|done|done|cbn; lia|].
    eapply Hmore; [by apply (Hab _ (x_now s + second))|]. cbn [x_now]. unfold second. lia.
  - eapply Hmore; [by apply Hab|]. destruct Hm as (_ & _ & _ & ?). unfold second in *. lia.
  - destruct Hm as (Hf & _ & _ & ?). eapply Hmore; [by apply end_shut|]. unfold second in *. lia.
  - destruct Hm as (Hf & _). eapply Hmore; [by apply end_join|]. unfold second. lia.
  - destruct (Hn (x_now s) (x_open s)). by apply (xi_gone _ _ Hi).
Qed.

(** ** Told to end *)

Lemma stopped ls s evs : xrun x_init ls = Some (s, evs) -> XSignal ∈ ls \/ XHandler ∈ ls -> exists t0, EStop t0 ∈ evs.
Proof.
  revert s evs. induction ls as [|l ls IH] using rev_ind; intros s evs Hr Hin; [by destruct Hin as [?%elem_of_nil|?%elem_of_nil]|].
  apply run_snoc in Hr as (s1 & ev1 & ev2 & H1 & H2 & ->). pose proof (xinv_run _ _ _ H1) as Hi.
  assert (XSignal ∈ ls \/ XHandler ∈ ls \/ l = XSignal \/ l = XHandler) as [Ho|[Ho|Hl]].
  { destruct Hin as [Hin|Hin]; apply elem_of_app in Hin as [Hin|Hin%elem_of_list_singleton]; subst; tauto. }
  - destruct (IH _ _ H1 (or_introl Ho)) as [t0 Ht]. exists t0. apply elem_of_app. by left.
  - destruct (IH _ _ H1 (or_intror Ho)) as [t0 Ht]. exists t0. apply elem_of_app. by left.
  - assert (x_ctx s = true) as Hc.
    { unfold xstep in H2. destruct Hl as [->| ->].
      - destruct (x_main s1); [injection H2 as <- _; done..|discriminate H2].
      - destruct (x_main s1) eqn:Em; try discriminate H2; destruct (x_ctr s1); try discriminate H2; destruct (x_var s1) eqn:Ev; injection H2 as <- _; try done; cbn;
          pose proof (xi_main _ _ Hi) as Hm; rewrite Em in Hm; first [by apply Hm|destruct Hm; congruence]. }
    by apply (xi_ctx _ _ (xinv_step _ _ _ _ _ Hi H2)).
Qed.
