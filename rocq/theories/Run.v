(** Runs of a labelled step function: the labels are the schedule and what the
    outside does, the events what happened.  Used for the concurrent parts; it
    models no code of its own. *)
From Coq Require Import ZArith.
From stdpp Require Import base list.

Local Open Scope list_scope.

Section run.
Context {S L E : Type} (step : S -> L -> option (S * list E)).

Fixpoint run (s : S) (ls : list L) : option (S * list E) :=
  match ls with
  | [] => Some (s, [])
  | l :: ls' =>
      match step s l with
      | Some (s1, ev1) => match run s1 ls' with Some (s2, ev2) => Some (s2, ev1 ++ ev2) | None => None end
      | None => None
      end
  end.

(** In the run of [ls] from [s0] the label [l] takes [s1] to [s2]. *)
Definition transition (s0 : S) (ls : list L) (s1 : S) (l : L) (s2 : S) : Prop :=
  exists ls1 ls2 ev1 ev2, ls = ls1 ++ l :: ls2 /\ run s0 ls1 = Some (s1, ev1) /\ step s1 l = Some (s2, ev2).

Lemma run_app s ls1 ls2 : run s (ls1 ++ ls2) =
  match run s ls1 with
  | Some (s1, ev1) => match run s1 ls2 with Some (s2, ev2) => Some (s2, ev1 ++ ev2) | None => None end
  | None => None
  end.
Proof.
  revert s. induction ls1 as [|l ls1 IH]; intros s; cbn [run app].
  - destruct (run s ls2) as [[s2 ev2]|]; reflexivity.
  - destruct (step s l) as [[s1 ev1]|]; [|reflexivity]. rewrite IH. destruct (run s1 ls1) as [[s2 ev2]|]; [|reflexivity].
    destruct (run s2 ls2) as [[s3 ev3]|]; [|reflexivity]. by rewrite app_assoc.
Qed.

Lemma run_app_inv s ls1 ls2 s2 evs : run s (ls1 ++ ls2) = Some (s2, evs) ->
  exists s1 ev1 ev2, run s ls1 = Some (s1, ev1) /\ run s1 ls2 = Some (s2, ev2) /\ evs = ev1 ++ ev2.
Proof.
  rewrite run_app. destruct (run s ls1) as [[s1 ev1]|] eqn:E1; [|done]. destruct (run s1 ls2) as [[s3 ev2]|] eqn:E2; [|done].
  intros [= -> <-]. eauto 10.
Qed.

Lemma run_one s l : run s [l] = match step s l with Some (s1, ev1) => Some (s1, ev1) | None => None end.
Proof. cbn [run]. destruct (step s l) as [[s1 ev1]|]; [|reflexivity]. by rewrite app_nil_r. Qed.

Lemma run_snoc s ls l s2 evs : run s (ls ++ [l]) = Some (s2, evs) ->
  exists s1 ev1 ev2, run s ls = Some (s1, ev1) /\ step s1 l = Some (s2, ev2) /\ evs = ev1 ++ ev2.
Proof.
  intros H. apply run_app_inv in H as (s1 & ev1 & ev2 & H1 & H2 & ->). exists s1, ev1, ev2. split; [done|]. split; [|done].
  rewrite run_one in H2. by destruct (step s1 l) as [[? ?]|].
Qed.

Lemma transition_cons s0 l ls s1 ev a m b : step s0 l = Some (s1, ev) -> transition s1 ls a m b -> transition s0 (l :: ls) a m b.
Proof.
  intros H (ls1 & ls2 & ev1 & ev2 & -> & Hr & Hs). exists (l :: ls1), ls2, (ev ++ ev1), ev2. split; [done|].
  split; [|done]. cbn [run]. by rewrite H, Hr.
Qed.

(** Invariants over states and the events so far.  A step may use that it is
    one of the run. *)
Lemma run_inv_rel (I : S -> list E -> Prop) s0 ev0 ls s evs : I s0 ev0 ->
  (forall s1 evs l s2 ev, I s1 evs -> l ∈ ls -> transition s0 ls s1 l s2 -> step s1 l = Some (s2, ev) -> I s2 (evs ++ ev)) ->
  run s0 ls = Some (s, evs) -> I s (ev0 ++ evs).
Proof.
  revert s0 ev0 evs. induction ls as [|l ls IH]; intros s0 ev0 evs H0 Hstep Hrun.
  - injection Hrun as <- <-. by rewrite app_nil_r.
  - cbn [run] in Hrun. destruct (step s0 l) as [[s1 ev1]|] eqn:Es; [|done].
    destruct (run s1 ls) as [[s2 ev2]|] eqn:E2; [|done]. injection Hrun as <- <-.
    rewrite app_assoc. apply (IH s1); [| |exact E2].
    + apply (Hstep s0 ev0 l); [done|left| |done]. exists [], ls, [], ev1. done.
    + intros s3 evs3 m s4 ev4 HI Hin Ht. apply (Hstep s3 evs3 m); [done|by right|]. by eapply transition_cons.
Qed.

Lemma run_inv (I : S -> list E -> Prop) (Q : L -> Prop) s0 ev0 ls s evs : I s0 ev0 ->
  (forall s1 evs l s2 ev, I s1 evs -> Q l -> step s1 l = Some (s2, ev) -> I s2 (evs ++ ev)) ->
  Forall Q ls -> run s0 ls = Some (s, evs) -> I s (ev0 ++ evs).
Proof.
  intros H0 Hs HQ. apply run_inv_rel; [done|]. intros s1 evs1 l s2 ev HI Hl _. apply Hs; [done|].
  exact (proj1 (Forall_forall _ _) HQ l Hl).
Qed.

(** A step cannot be found past the end of a run. *)
Lemma run_transition s0 ls s evs s1 l s2 : run s0 ls = Some (s, evs) -> transition s0 ls s1 l s2 -> l ∈ ls.
Proof. intros _ (ls1 & ls2 & ? & ? & -> & _). apply elem_of_app. right. left. Qed.

(** All transitions of a run, to check examples. *)
Fixpoint transitions (s : S) (ls : list L) : list (S * L * S) :=
  match ls with
  | [] => []
  | l :: ls' => match step s l with Some (s', _) => (s, l, s') :: transitions s' ls' | None => [] end
  end.

Lemma transition_in s0 ls s1 l s2 : transition s0 ls s1 l s2 -> (s1, l, s2) ∈ transitions s0 ls.
Proof.
  intros (ls1 & ls2 & ev1 & ev2 & -> & Hr & Hs). revert s0 ev1 Hr. induction ls1 as [|l1 ls1 IH]; intros s0 ev1 Hr.
  - injection Hr as <- <-. cbn [app transitions]. rewrite Hs. left.
  - cbn [run] in Hr. destruct (step s0 l1) as [[s' ev']|] eqn:Es; [|done].
    destruct (run s' ls1) as [[s'' ev'']|] eqn:E2; [|done]. injection Hr as <- <-.
    cbn [app transitions]. rewrite Es. right. by apply (IH s' ev'').
Qed.

Lemma transitions_check (P : S -> L -> S -> bool) s0 ls s1 l s2 :
  forallb (fun x => P x.1.1 x.1.2 x.2) (transitions s0 ls) = true -> transition s0 ls s1 l s2 -> P s1 l s2 = true.
Proof.
  intros H Ht. rewrite forallb_forall in H. apply transition_in, elem_of_list_In in Ht. exact (H _ Ht).
Qed.
End run.
