(** Consequences of linearizability: one effect per call, the plain map, and
    the events handlers get. *)
From Coq Require Import ZArith NArith Ascii String Lia.
From stdpp Require Import base gmap strings list.
From Verif Require Import GoBase Encoding Records MessageFacts Env SyncMap Tokens Cache SpecStore StoreFacts ListFacts
  StoreExamples StoreConc ConcFacts.

Local Open Scope list_scope.
Local Opaque vanflow_registry builtin_types record_types Encode Decode.

Lemma threads_same cf s0 progs sched c tr t : progs_ok progs ->
  crun cf (cinit s0 progs) sched = (c, tr) -> is_Some (c_threads c !! t) -> is_Some (progs !! t).
Proof.
  intros Hok Hrun [T Ht]. pose proof (cinv_run cf s0 progs sched _ [] Hok (cinv_init cf s0 progs) _ _ Hrun) as Hi.
  pose proof (ci_threads _ _ _ _ _ Hi t) as Hc. rewrite Ht in Hc. destruct (progs !! t); [eauto|done].
Qed.

(** ** Every call takes effect at most once *)

Lemma lins_seen id tr : lins (seen id tr) = filter (fun x => x.1 = id) (lins tr).
Proof.
  induction tr as [|l tr IH]; [done|].
  destruct l as [i t e o|i e o|i|i|i ev|i r]; cbn [seen lins]; try done.
  - case_decide; cbn [lins]; done.
  - rewrite filter_cons. case_decide as D; cbn [lins fst]; [|by rewrite decide_False]. rewrite decide_True by done. by rewrite IH.
  - case_decide; cbn [lins]; done.
  - case_decide; cbn [lins]; done.
Qed.

Lemma lins_events id evs : lins (LEv id <$> evs) = [].
Proof. induction evs as [|ev evs IH]; [done|]. by rewrite fmap_cons. Qed.

Lemma lins_life id t e o r ev : lins (life id t e o r ev) = [(id, (e, o))].
Proof. unfold life. cbn [lins]. by rewrite lins_app, lins_events. Qed.

Lemma effects_once cf s0 progs sched c tr : progs_ok progs ->
  crun cf (cinit s0 progs) sched = (c, tr) -> NoDup (fst <$> lins tr).
Proof.
  intros Hok Hrun.
  assert (forall id, length (filter (fun x : nat * call => x.1 = id) (lins tr)) <= 1) as H.
  { intros id. rewrite <- lins_seen.
    destruct (linearizable cf s0 progs sched c tr id Hok Hrun) as [->|[(t & e & o & ->)|(t & e & o & r & ev & _ & _ & _ & [k Hk])]];
      [cbn; lia|cbn; lia|].
    apply (f_equal (fun l => length (lins l))) in Hk. rewrite lins_life, lins_app, app_length in Hk. cbn in Hk. lia. }
  clear Hrun. induction (lins tr) as [|[i x] l IH]; [constructor|]. rewrite fmap_cons. constructor.
  - intros Hin. apply elem_of_list_fmap in Hin as ([j y] & E & Hin). cbn in E. subst j.
    specialize (H i). rewrite filter_cons_True in H by done. cbn in H.
    assert ((i, y) ∈ filter (fun x : nat * call => x.1 = i) l) as Hf by (by apply elem_of_list_filter).
    destruct (filter _ l); [by apply not_elem_of_nil in Hf|]. cbn in H. lia.
  - apply IH. intros id. specialize (H id). rewrite filter_cons in H. case_decide; cbn in H; lia.
Qed.

Lemma answers_ids cf s l : fst <$> answers cf s l = fst <$> l.
Proof.
  revert s. induction l as [|[i [e o]] l IH]; intros s; [done|]. cbn [answers].
  destruct (run_op cf e s o) as [[s' r] ev]. rewrite !fmap_cons. cbn [fst]. by rewrite IH.
Qed.

Lemma answers_fun cf s l i a b : NoDup (fst <$> l) -> (i, a) ∈ answers cf s l -> (i, b) ∈ answers cf s l -> a = b.
Proof.
  intros Hnd Ha Hb. rewrite <- (answers_ids cf s l) in Hnd.
  apply elem_of_list_lookup in Ha as [n Ha]. apply elem_of_list_lookup in Hb as [m Hb].
  assert (n = m) as ->.
  { eapply (NoDup_lookup (fst <$> answers cf s l) n m i); [done|..]; rewrite list_lookup_fmap; [by rewrite Ha|by rewrite Hb]. }
  congruence.
Qed.

Lemma answers_call cf s l i a : (i, a) ∈ answers cf s l ->
  exists e o s1 s2, (i, (e, o)) ∈ l /\ run_op cf e s1 o = (s2, a.1, a.2).
Proof.
  revert s. induction l as [|[j [e o]] l IH]; intros s H; [by apply not_elem_of_nil in H|].
  cbn [answers] in H. destruct (run_op cf e s o) as [[s' r] ev] eqn:E. apply elem_of_cons in H as [H|H].
  - injection H as -> ->. exists e, o, s, s'. split; [apply elem_of_list_here|done].
  - destruct (IH _ H) as (e1 & o1 & s1 & s2 & H1 & H2). exists e1, o1, s1, s2. split; [by apply elem_of_list_further|done].
Qed.

Lemma answers_run cf s l : run_from cf s (snd <$> l) =
  (after cf s l, (fun x => x.2.1) <$> answers cf s l, concat ((fun x => x.2.2) <$> answers cf s l)).
Proof.
  revert s. induction l as [|[i [e o]] l IH]; intros s; [done|]. rewrite fmap_cons. cbn [snd run_from answers after].
  destruct (run_op cf e s o) as [[s' r] ev]. rewrite IH. done.
Qed.

(** The results of the calls, in the order of their effects, are those of a
    plain map. *)
Lemma concurrent_map cf progs sched c tr : progs_ok progs ->
  crun cf (cinit new_simap progs) sched = (c, tr) ->
  spec_run cf ∅ (timed (snd <$> lins tr)) ((fun x => x.2.1) <$> answers cf new_simap (lins tr))
    (contents (after cf new_simap (lins tr))).
Proof.
  intros Hok Hrun. eapply run_refines; [|unfold run; apply answers_run].
  pose proof (cinv_run cf new_simap progs sched _ [] Hok (cinv_init cf _ progs) _ _ Hrun) as Hi. cbn [app] in Hi.
  (* every effect belongs to a call of some program *)
  assert (forall tr0 sched c0 c1 tr1, crun cf c0 sched = (c1, tr1) -> cinv cf new_simap progs tr0 c0 ->
    envs_ok (snd <$> lins tr0) -> envs_ok (snd <$> lins (tr0 ++ tr1))) as H.
  { clear - Hok. intros tr0 sched. revert tr0. induction sched as [|t sched IH]; intros tr0 c0 c1 tr1 Hr Hi He; cbn [crun] in Hr.
    - injection Hr as _ <-. by rewrite app_nil_r.
    - destruct (cstep cf c0 t) as [[l c2]|] eqn:E; [|by eapply IH].
      destruct (crun cf c2 sched) as [c3 tr3] eqn:E3. injection Hr as _ <-.
      replace (tr0 ++ l :: tr3) with ((tr0 ++ [l]) ++ tr3) by (by rewrite <- app_assoc).
      eapply IH; [exact E3|by eapply cinv_step|].
      rewrite lins_app, fmap_app. apply Forall_app. split; [done|].
      unfold cstep in E. destruct (c_threads c0 !! t) as [T|] eqn:Ht; [|discriminate].
      pose proof (ci_threads _ _ _ _ _ Hi t) as Hc. rewrite Ht in Hc. destruct (progs !! t); [|done]. destruct Hc as [_ Hc].
      destruct T as [[|[e o] todo]|id e o todo|id w [[r ev]|upd next] todo|id [|ev evs] r todo]; try discriminate;
        try (injection E as <- _; constructor).
      cbn in Hc. destruct Hc as (_ & _ & Hc).
      assert (l = LLin id e o) as ->.
      { destruct (plan_of cf e o) as [[]|[] ?]; try case_bool_decide; try discriminate; by injection E as <- _. }
      cbn. constructor; [done|constructor]. }
  apply (H [] sched (cinit new_simap progs) c tr Hrun); [apply cinv_init|constructor].
Qed.

(** ** Events *)

(** The events handlers get, in order, with the call they belong to. *)
Fixpoint notices (tr : list label) : list (nat * event) :=
  match tr with
  | [] => []
  | LEv id ev :: tr' => (id, ev) :: notices tr'
  | _ :: tr' => notices tr'
  end.
Definition heard (tr : list label) : list event := snd <$> notices tr.

(** The events of the sequential run. *)
Definition due (cf : config) (s : items) (tr : list label) : list event :=
  concat ((fun x => x.2.2) <$> answers cf s (lins tr)).

Lemma notices_app a b : notices (a ++ b) = notices a ++ notices b.
Proof. induction a as [|l a IH]; [done|]. destruct l; cbn; by rewrite ?IH. Qed.
Lemma heard_app a b : heard (a ++ b) = heard a ++ heard b.
Proof. unfold heard. by rewrite notices_app, fmap_app. Qed.

Lemma notices_seen id tr : notices (seen id tr) = filter (fun x => x.1 = id) (notices tr).
Proof.
  induction tr as [|l tr IH]; [done|].
  destruct l as [i t e o|i e o|i|i|i ev|i r]; cbn [seen notices]; try done.
  - case_decide; cbn [notices]; done.
  - case_decide; cbn [notices]; done.
  - rewrite filter_cons. case_decide as D; cbn [notices fst]; [|by rewrite decide_False]. rewrite decide_True by done. by rewrite IH.
  - case_decide; cbn [notices]; done.
Qed.

Lemma notices_life id t e o r ev : notices (life id t e o r ev) = (fun x => (id, x)) <$> ev.
Proof.
  unfold life. cbn [notices]. rewrite notices_app. cbn [notices]. rewrite app_nil_r.
  induction ev as [|x ev IH]; [done|]. rewrite !fmap_cons. cbn [notices]. by rewrite IH.
Qed.

Lemma filter_split {A} (P : A -> Prop) `{forall x, Decision (P x)} (l : list A) :
  filter P l ++ filter (fun x => ¬ P x) l ≡ₚ l.
Proof.
  induction l as [|a l IH]; [done|]. rewrite !filter_cons. destruct (decide (P a)) as [D|D].
  - rewrite (decide_False (P := ¬ P a)) by tauto. cbn. by rewrite IH.
  - rewrite (decide_True (P := ¬ P a)) by tauto. rewrite <- Permutation_middle. by rewrite IH.
Qed.

(** Splitting a list by number. *)
Lemma group_perm {B} (ids : list nat) (l : list (nat * B)) : NoDup ids -> (forall x, x ∈ l -> x.1 ∈ ids) ->
  l ≡ₚ concat ((fun i => filter (fun x => x.1 = i) l) <$> ids).
Proof.
  revert l. induction ids as [|i ids IH]; intros l Hnd Hin.
  - destruct l as [|x l]; [done|]. specialize (Hin x (elem_of_list_here _ _)). by apply not_elem_of_nil in Hin.
  - apply NoDup_cons in Hnd as [Hi Hnd]. rewrite fmap_cons. cbn [concat].
    rewrite <- (filter_split (fun x : nat * B => x.1 = i) l) at 1. f_equiv.
    rewrite (IH (filter (fun x => ¬ x.1 = i) l)) at 1; [|done|].
    + apply reflexive_eq. f_equal. apply list_fmap_ext. intros n j Hj. apply elem_of_list_lookup_2 in Hj.
      rewrite list_filter_filter. apply list_filter_iff. intros x. split; [tauto|]. intros ->. split; [done|]. intros ->. done.
    + intros x Hx. apply elem_of_list_filter in Hx as [Hx1 Hx]. apply Hin, elem_of_cons in Hx. tauto.
Qed.

(** When all calls have returned, handlers have had every event of the
    sequential run exactly once. *)
Lemma events_exactly_once cf s0 progs sched c tr : progs_ok progs ->
  crun cf (cinit s0 progs) sched = (c, tr) ->
  (forall t T, c_threads c !! t = Some T -> T = TIdle []) ->
  heard tr ≡ₚ due cf s0 tr.
Proof.
  intros Hok Hrun Hend. pose proof (cinv_run cf s0 progs sched _ [] Hok (cinv_init cf s0 progs) _ _ Hrun) as Hi. cbn [app] in Hi.
  pose proof (effects_once cf s0 progs sched c tr Hok Hrun) as Hnd.
  assert (forall id, seen id tr <> [] -> exists t e o r ev, seen id tr = life id t e o r ev /\ (id, (e, o)) ∈ lins tr /\
     (id, (r, ev)) ∈ answers cf s0 (lins tr)) as Hall.
  { intros id Hne. destruct (decide (id < c_next c)) as [Hlt|Hge].
    - destruct (ci_done _ _ _ _ _ Hi id Hlt) as [(t & T & Ht & HT)|H]; [|exact H].
      rewrite (Hend t T Ht) in HT. discriminate HT.
    - destruct Hne. apply (ci_fresh _ _ _ _ _ Hi). lia. }
  unfold heard, due.
  rewrite (group_perm (fst <$> lins tr) (notices tr) Hnd).
  - rewrite <- (answers_ids cf s0). apply reflexive_eq.
    assert (forall l, (forall x, x ∈ l -> x ∈ answers cf s0 (lins tr)) ->
      snd <$> concat ((fun i => filter (fun x : nat * event => x.1 = i) (notices tr)) <$> (fst <$> l)) = concat ((fun x => x.2.2) <$> l)) as H.
    { induction l as [|[i [r ev]] l IH]; intros Hl; [done|]. rewrite !fmap_cons. cbn [concat fst snd].
      rewrite fmap_app, IH by (intros x Hx; apply Hl; by apply elem_of_list_further). f_equal.
      specialize (Hl _ (elem_of_list_here _ _)).
      destruct (answers_call _ _ _ _ _ Hl) as (e & o & _ & _ & Hlin & _).
      assert (seen i tr <> []) as Hne.
      { intros E. pose proof (lins_seen i tr) as Hs. rewrite E in Hs. symmetry in Hs. cbn in Hs.
        assert ((i, (e, o)) ∈ filter (fun x : nat * call => x.1 = i) (lins tr)) as Hf by (by apply elem_of_list_filter).
        rewrite Hs in Hf. by apply not_elem_of_nil in Hf. }
      destruct (Hall i Hne) as (t & e' & o' & r' & ev' & Hseen & _ & Hans).
      assert ((r, ev) = (r', ev')) as [= -> ->] by (by eapply answers_fun).
      rewrite <- notices_seen, Hseen, notices_life. clear. induction ev' as [|x l IH]; [done|].
      rewrite !fmap_cons. by rewrite IH. }
    by apply H.
  - intros [i ev] Hx. cbn.
    assert (seen i tr <> []) as Hne.
    { intros E. pose proof (notices_seen i tr) as Hs. rewrite E in Hs. cbn in Hs.
      assert ((i, ev) ∈ filter (fun x : nat * event => x.1 = i) (notices tr)) as Hf by (by apply elem_of_list_filter).
      rewrite <- Hs in Hf. by apply not_elem_of_nil in Hf. }
    destruct (Hall i Hne) as (t & e & o & r & ev' & _ & Hlin & _).
    apply elem_of_list_fmap. by exists (i, (e, o)).
Qed.

(** ** With one writing thread, handlers see the changes in order *)

Definition reading (o : op) : Prop :=
  match o with OGet _ | OList _ | OIndex _ _ _ | OIndexValues _ => True | _ => False end.

Lemma reading_silent cf e s o s' r ev : reading o -> run_op cf e s o = (s', r, ev) -> ev = [].
Proof. destruct o; cbn; try done; intros _ [= _ _ <-]; done. Qed.

Record winv (cf : config) (s0 : items) (w : nat) (tr : list label) (c : cstate) : Prop := {
  wi_pend : exists pend, heard tr ++ pend = due cf s0 tr /\
     match c_threads c !! w with
     | Some (TOut _ evs _ _) => pend = evs
     | Some (TIn id _ _ _) => exists r, (id, (r, pend)) ∈ answers cf s0 (lins tr)
     | _ => pend = []
     end;
  wi_read : forall t e o id, LInv id t e o ∈ tr -> t <> w -> reading o;
}.

Lemma seen_in id l tr : l ∈ seen id tr -> l ∈ tr.
Proof.
  induction tr as [|l' tr IH]; cbn [seen]; [done|]. intros H. apply elem_of_cons.
  destruct l'; try (right; by apply IH); case_decide; try (right; by apply IH);
    (apply elem_of_cons in H as [->|H]; [by left|right; by apply IH]).
Qed.

Lemma winv_step cf s0 progs w tr c t l c' : progs_ok progs ->
  (forall t p, progs !! t = Some p -> t <> w -> Forall (fun x => reading x.2) p) ->
  cinv cf s0 progs tr c -> NoDup (fst <$> lins (tr ++ [l])) ->
  winv cf s0 w tr c -> cstep cf c t = Some (l, c') -> winv cf s0 w (tr ++ [l]) c'.
Proof.
  intros Hok Hrd Hi Hnd Hw Hstep. pose proof (cinv_step _ _ _ _ _ _ _ _ Hok Hi Hstep) as Hi'.
  split.
  2: { intros t' e o id Hin Hne. apply elem_of_app in Hin as [Hin|Hin]; [by eapply (wi_read _ _ _ _ _ Hw)|].
       apply elem_of_list_singleton in Hin. subst l. unfold cstep in Hstep.
       destruct (c_threads c !! t) as [T|] eqn:Ht; [|discriminate].
       destruct T as [[|[e' o'] todo]|i e' o' todo|i w' [[r ev]|upd next] todo|i [|ev evs] r todo]; try discriminate.
       - injection Hstep as -> -> -> -> _. pose proof (ci_threads _ _ _ _ _ Hi t') as Hc. rewrite Ht in Hc.
         destruct (progs !! t') as [p|] eqn:Hp; [|done]. destruct Hc as [Hc _]. specialize (Hrd t' p Hp Hne).
         rewrite <- Hc in Hrd. apply Forall_app in Hrd as [_ Hrd]. cbn [todo_of] in Hrd. apply Forall_cons in Hrd as [Hrd _]. exact Hrd.
       - destruct (plan_of cf e' o') as [[]|[] ?]; try case_bool_decide; discriminate. }
  destruct (wi_pend _ _ _ _ _ Hw) as (pend & Hpend & HT).
  assert (forall t' id e o r ev, t' <> w -> seen id tr = [LInv id t' e o; LLin id e o] \/ (exists evd, seen id tr = LInv id t' e o :: LLin id e o :: evd) ->
     (id, (e, o)) ∈ lins tr -> (id, (r, ev)) ∈ answers cf s0 (lins tr) -> ev = []) as Hsilent.
  { intros t' id e o r ev Hne Hs Hl Ha. destruct (answers_call _ _ _ _ _ Ha) as (e1 & o1 & s1 & s2 & Hl1 & E1).
    assert (NoDup (fst <$> lins tr)) as Hnd0.
    { rewrite lins_app, fmap_app in Hnd. by apply NoDup_app in Hnd as [? _]. }
    assert ((e, o) = (e1, o1)) as [= <- <-].
    { apply elem_of_list_lookup in Hl as [n Hn]. apply elem_of_list_lookup in Hl1 as [m Hm].
      assert (n = m) as ->.
      { eapply (NoDup_lookup (fst <$> lins tr) n m id); [done|..]; rewrite list_lookup_fmap; [by rewrite Hn|by rewrite Hm]. }
      congruence. }
    cbn [fst snd] in E1. eapply reading_silent; [|exact E1].
    apply (wi_read _ _ _ _ _ Hw t' e o id); [|done]. apply (seen_in id).
    destruct Hs as [-> | [evd ->]]; apply elem_of_list_here. }
  (* a label that is neither an effect nor an event *)
  assert (lins [l] = [] -> notices [l] = [] -> heard (tr ++ [l]) = heard tr /\ due cf s0 (tr ++ [l]) = due cf s0 tr /\ lins (tr ++ [l]) = lins tr) as Hquiet.
  { intros E1 E2. unfold due. rewrite heard_app, lins_app, E1, app_nil_r. unfold heard at 2. rewrite E2, app_nil_r. done. }
  unfold cstep in Hstep. destruct (c_threads c !! t) as [T|] eqn:Ht; [|discriminate].
  pose proof (ci_threads _ _ _ _ _ Hi t) as Hc. rewrite Ht in Hc. destruct (progs !! t) as [p|] eqn:Hp; [|done]. destruct Hc as [_ Hc].
  destruct T as [[|[e o] todo]|i e o todo|i w' [[r ev]|upd next] todo|i [|ev evs] r todo]; [discriminate|..].
  - injection Hstep as <- <-. destruct (Hquiet eq_refl eq_refl) as (-> & -> & ->). exists pend. split; [done|]. cbn [c_threads].
    destruct (decide (t = w)) as [->|Hne]; [rewrite lookup_insert; by rewrite Ht in HT|by rewrite lookup_insert_ne].
  - set (A := after cf s0 (lins tr)).
    destruct (run_op cf e A o) as [[s' r] ev] eqn:E.
    assert (l = LLin i e o) as ->.
    { destruct (plan_of cf e o) as [[]|[] ?]; try case_bool_decide; try discriminate; by injection Hstep as <- _. }
    assert (heard (tr ++ [LLin i e o]) = heard tr) as Hh by (rewrite heard_app; by rewrite app_nil_r).
    assert (due cf s0 (tr ++ [LLin i e o]) = due cf s0 tr ++ ev) as Hd.
    { unfold due. rewrite lins_app, answers_app, fmap_app, concat_app. f_equal. cbn. fold A. rewrite E. cbn. by rewrite app_nil_r. }
    assert ((i, (r, ev)) ∈ answers cf s0 (lins (tr ++ [LLin i e o]))) as Hans.
    { rewrite lins_app, answers_app. apply elem_of_app. right. cbn. fold A. rewrite E. apply elem_of_list_here. }
    rewrite Hh, Hd. destruct (decide (t = w)) as [->|Hne].
    + rewrite Ht in HT. subst pend. rewrite app_nil_r in Hpend. exists ev. split; [by rewrite Hpend|].
      destruct Hc as (_ & _ & He). pose proof (plan_of_ok cf e o He) as Hplan.
      destruct (plan_of cf e o) as [[r1 ev1]|[] q].
      * injection Hstep as <-. cbn. rewrite lookup_insert. cbn in Hplan. specialize (Hplan A). congruence.
      * case_bool_decide; [|discriminate]. injection Hstep as <-. cbn [c_threads]. rewrite lookup_insert. eauto.
      * case_bool_decide; [|discriminate]. injection Hstep as <-. cbn [c_threads]. rewrite lookup_insert. eauto.
    + assert (ev = []) as ->.
      { eapply reading_silent; [|exact E]. apply (wi_read _ _ _ _ _ Hw t e o i); [|done].
        destruct Hc as (_ & Hc & _). apply (seen_in i). rewrite Hc. apply elem_of_list_here. }
      rewrite app_nil_r. exists pend. split; [done|].
      assert (c_threads c' !! w = c_threads c !! w) as ->.
      { destruct (plan_of cf e o) as [[r1 ev1]|[] q]; try case_bool_decide; try discriminate; injection Hstep as <-;
          cbn [set_thread c_threads]; by rewrite lookup_insert_ne. }
      destruct (c_threads c !! w) as [[| | |]|]; try done. destruct HT as [r0 HT]. exists r0. by apply answers_mono.
  - injection Hstep as <- <-. destruct (Hquiet eq_refl eq_refl) as (-> & -> & ->). exists pend. split; [done|]. cbn [c_threads].
    destruct (decide (t = w)) as [->|Hne]; [|by rewrite lookup_insert_ne]. rewrite lookup_insert. rewrite Ht in HT.
    destruct HT as [r0 HT]. destruct Hc as (_ & e & o & r1 & ev1 & _ & _ & Hans & Hw').
    assert (NoDup (fst <$> lins tr)) as Hnd0.
    { rewrite lins_app, fmap_app in Hnd. by apply NoDup_app in Hnd as [? _]. }
    assert ((r0, pend) = (r1, ev1)) as [= -> ->] by (by eapply answers_fun).
    destruct w'; cbn in Hw'; [destruct Hw' as [_ Hw']|destruct Hw' as (_ & _ & Hw')]; congruence.
  - injection Hstep as <- <-. destruct (Hquiet eq_refl eq_refl) as (-> & -> & ->). exists pend. split; [done|]. cbn [c_threads].
    destruct (decide (t = w)) as [->|Hne]; [|by rewrite lookup_insert_ne]. rewrite lookup_insert. by rewrite Ht in HT.
  - injection Hstep as <- <-. destruct (Hquiet eq_refl eq_refl) as (-> & -> & ->). exists pend. split; [done|]. cbn [set_thread c_threads].
    destruct (decide (t = w)) as [->|Hne]; [|by rewrite lookup_insert_ne]. rewrite lookup_insert. by rewrite Ht in HT.
  - injection Hstep as <- <-.
    assert (due cf s0 (tr ++ [LEv i ev]) = due cf s0 tr) as Hd by (unfold due; by rewrite lins_app, app_nil_r).
    destruct (decide (t = w)) as [->|Hne].
    + rewrite Ht in HT. subst pend. exists evs. rewrite heard_app, Hd, <- app_assoc. split; [done|].
      cbn [set_thread c_threads]. by rewrite lookup_insert.
    + exfalso. destruct Hc as (_ & e & o & evd & Hs & Hl & Ha).
      apply (Hsilent t i e o) in Ha; [|done|right; eauto|done]. by destruct evd.
Qed.

Lemma one_writer_order cf s0 progs sched c tr w : progs_ok progs ->
  (forall t p, progs !! t = Some p -> t <> w -> Forall (fun x => reading x.2) p) ->
  crun cf (cinit s0 progs) sched = (c, tr) -> heard tr `prefix_of` due cf s0 tr.
Proof.
  intros Hok Hrd Hrun.
  assert (forall n, n <= length sched -> forall c1 tr1, crun cf (cinit s0 progs) (take n sched) = (c1, tr1) ->
    winv cf s0 w tr1 c1) as H.
  { induction n as [|n IH]; intros Hn c1 tr1 Hr.
    - cbn in Hr. injection Hr as <- <-. split.
      + exists []. split; [done|]. cbn. rewrite lookup_fmap. by destruct (progs !! w).
      + intros t e o id Hin. by apply not_elem_of_nil in Hin.
    - destruct (lookup_lt_is_Some_2 sched n) as [t Ht]; [lia|].
      rewrite (take_S_r _ _ _ Ht) in Hr.
      destruct (crun cf (cinit s0 progs) (take n sched)) as [c0 tr0] eqn:E0.
      assert (crun cf (cinit s0 progs) (take n sched ++ [t]) =
        match cstep cf c0 t with None => (c0, tr0) | Some (l, c') => (c', tr0 ++ [l]) end) as E1.
      { clear - E0. revert E0. generalize (cinit s0 progs). intros d. revert d tr0. induction (take n sched) as [|t0 l IH]; intros d tr0 E0; cbn [crun app] in *.
        - injection E0 as <- <-. destruct (cstep cf d t) as [[l c']|]; done.
        - destruct (cstep cf d t0) as [[l1 d1]|]; [|by apply IH].
          destruct (crun cf d1 l) as [d2 tr2] eqn:E2. injection E0 as <- <-. rewrite (IH _ _ E2).
          destruct (cstep cf d2 t) as [[l2 c2]|]; done. }
      pose proof (cinv_run cf s0 progs _ _ [] Hok (cinv_init cf s0 progs) _ _ E0) as Hi0. cbn [app] in Hi0.
      pose proof (IH ltac:(lia) _ _ eq_refl) as Hw0.
      rewrite E1 in Hr. destruct (cstep cf c0 t) as [[l c']|] eqn:Es.
      + injection Hr as <- <-. eapply (winv_step cf s0 progs); try done. by eapply effects_once.
      + injection Hr as <- <-. done. }
  specialize (H (length sched) ltac:(lia) c tr). rewrite firstn_all in H. specialize (H Hrun).
  destruct (wi_pend _ _ _ _ _ H) as (pend & E & _). exists pend. done.
Qed.
