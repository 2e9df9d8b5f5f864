(** Facts about event handlers that call their store (StoreReentry.v). *)
From Coq Require Import ZArith NArith Ascii String Lia.
From stdpp Require Import base gmap strings list fin_maps.
From Verif Require Import GoBase Encoding Records Env SyncMap Tokens Cache SpecStore StoreFacts StoreConc ConcFacts Run StoreReentry.

Local Open Scope list_scope.

(** ** Specification *)

(** What the calls did. *)
Definition flat (tr : list hev) : list label := omap (fun x => match x with HE l => Some l | _ => None end) tr.

(** The clock and map orders of the calls that handlers make. *)
Definition calls_ok (ls : list hlabel) : Prop := Forall (fun l => match l with HCall _ _ e _ => env_ok e | _ => True end) ls.

Ltac not_in H := exfalso; repeat (apply elem_of_cons in H as [H|H]; [discriminate H|]); by apply elem_of_nil in H.

(** ** As if others had made the calls *)

Lemma flat_app a b : flat (a ++ b) = flat a ++ flat b.
Proof. apply omap_app. Qed.

Lemma cstep_frame cf c u T t : c_threads c !! u = None -> t <> u ->
  cstep cf (set_thread c u T) t =
  match cstep cf c t with Some (l, c') => Some (l, set_thread c' u T) | None => None end.
Proof.
  intros Hu Ht. unfold cstep, set_thread. cbn [c_threads c_shared c_writer c_readers c_next]. rewrite lookup_insert_ne by done.
  destruct (c_threads c !! t) as [[[|[e o] todo]|id e o todo|id w p todo|id evs r todo]|]; try done.
  - cbn. do 3 f_equal. by rewrite insert_commute.
  - destruct (plan_of cf e o) as [[r ev]|[] p]; cbn.
    + do 3 f_equal. by rewrite insert_commute.
    + destruct (bool_decide _); [|done]. cbn. do 3 f_equal. by rewrite insert_commute.
    + destruct (bool_decide _); [|done]. cbn. do 3 f_equal. by rewrite insert_commute.
  - destruct p as [[r ev]|upd next]; cbn; do 3 f_equal; by rewrite insert_commute.
  - destruct evs as [|ev evs]; cbn; do 3 f_equal; by rewrite insert_commute.
Qed.

Lemma cstep_threads cf c t l c' u : cstep cf c t = Some (l, c') -> u <> t -> c_threads c' !! u = c_threads c !! u.
Proof.
  intros Hs Hu. unfold cstep in Hs. destruct (c_threads c !! t) as [[[|[e o] todo]|id e o todo|id w p todo|id evs r todo]|]; try done.
  - injection Hs as <- <-. cbn. by rewrite lookup_insert_ne.
  - destruct (plan_of cf e o) as [[r ev]|[] p].
    + injection Hs as <- <-. cbn. by rewrite lookup_insert_ne.
    + destruct (bool_decide _); [|done]. injection Hs as <- <-. cbn. by rewrite lookup_insert_ne.
    + destruct (bool_decide _); [|done]. injection Hs as <- <-. cbn. by rewrite lookup_insert_ne.
  - destruct p as [[r ev]|upd next]; injection Hs as <- <-; cbn; by rewrite lookup_insert_ne.
  - destruct evs as [|ev evs]; injection Hs as <- <-; cbn; by rewrite lookup_insert_ne.
Qed.
Lemma cstep_self cf c t l c' : cstep cf c t = Some (l, c') -> is_Some (c_threads c !! t) /\ is_Some (c_threads c' !! t).
Proof.
  intros Hs. unfold cstep in Hs. destruct (c_threads c !! t) as [[[|[e o] todo]|id e o todo|id w p todo|id evs r todo]|]; try done; (split; [by eexists|]).
  - injection Hs as <- <-. cbn. rewrite lookup_insert. by eexists.
  - destruct (plan_of cf e o) as [[r ev]|[] p].
    + injection Hs as <- <-. cbn. rewrite lookup_insert. by eexists.
    + destruct (bool_decide _); [|done]. injection Hs as <- <-. cbn. rewrite lookup_insert. by eexists.
    + destruct (bool_decide _); [|done]. injection Hs as <- <-. cbn. rewrite lookup_insert. by eexists.
  - destruct p as [[r ev]|upd next]; injection Hs as <- <-; cbn; rewrite lookup_insert; by eexists.
  - destruct evs as [|ev evs]; injection Hs as <- <-; cbn; rewrite lookup_insert; by eexists.
Qed.
Lemma cstep_dom cf c t l c' u : cstep cf c t = Some (l, c') -> is_Some (c_threads c' !! u) <-> is_Some (c_threads c !! u).
Proof.
  intros Hs. destruct (decide (u = t)) as [->|Hne]; [by destruct (cstep_self _ _ _ _ _ Hs)|]. by rewrite (cstep_threads _ _ _ _ _ _ Hs Hne).
Qed.

Lemma crun_frame cf u T sched : forall c c' tr, c_threads c !! u = None -> crun cf c sched = (c', tr) ->
  exists sched', crun cf (set_thread c u T) sched' = (set_thread c' u T, tr).
Proof.
  induction sched as [|t sched IH]; intros c c' tr Hu Hr; cbn [crun] in Hr; [injection Hr as <- <-; by exists []|].
  destruct (cstep cf c t) as [[l c1]|] eqn:Es; [|by apply IH].
  destruct (crun cf c1 sched) as [c2 tr2] eqn:Er. injection Hr as <- <-.
  assert (t <> u) as Hne. { intros ->. destruct (cstep_self _ _ _ _ _ Es) as [[T' HT] _]. by rewrite Hu in HT. }
  assert (c_threads c1 !! u = None) as Hu1 by (by rewrite (cstep_threads _ _ _ _ _ _ Es)).
  destruct (IH _ _ _ Hu1 Er) as [sched' Hr']. exists (t :: sched'). cbn [crun]. by rewrite (cstep_frame _ _ _ _ _ Hu Hne), Es, Hr'.
Qed.

Lemma crun_snoc cf sched t l c' : forall c0 c tr, crun cf c0 sched = (c, tr) -> cstep cf c t = Some (l, c') ->
  crun cf c0 (sched ++ [t]) = (c', tr ++ [l]).
Proof.
  induction sched as [|t0 sched IH]; intros c0 c tr Hr Hs; cbn [crun app] in *.
  - injection Hr as <- <-. by rewrite Hs.
  - destruct (cstep cf c0 t0) as [[l0 c1]|]; [|by eapply IH].
    destruct (crun cf c1 sched) as [c2 tr2] eqn:E. injection Hr as <- <-. by rewrite (IH _ _ _ E Hs).
Qed.

(** ** The invariant *)

Record hinv (cf : config) (s0 : items) (progs : gmap nat (list call)) (s : hstate) (tr : list hev) : Prop := {
  hi_flat : exists progs' sched, crun cf (cinit s0 progs') sched = (h_c s, flat tr) /\ progs ⊆ progs' /\ progs_ok progs' /\
    (forall t u e o, HAsk t u e o ∈ tr -> progs' !! u = Some [(e, o)]);
  hi_handler : forall t, t ∈ h_in s -> exists id evs r todo ev, c_threads (h_c s) !! t = Some (TOut id evs r todo) /\ LEv id ev ∈ flat tr;
  hi_waits : forall t u, h_sub s !! t = Some u -> t ∈ h_in s /\ t < u /\ is_Some (c_threads (h_c s) !! u);
}.

Lemma fresh_above (m : gmap nat tstate) u : map_Forall (fun k _ => k < u) m -> m !! u = None.
Proof. intros H. destruct (m !! u) as [T|] eqn:E; [|done]. specialize (H _ _ E). cbn in H. lia. Qed.

Lemma out_event cf c t id ev c' : cstep cf c t = Some (LEv id ev, c') -> exists evs r todo, c_threads c' !! t = Some (TOut id evs r todo).
Proof.
  unfold cstep. destruct (c_threads c !! t) as [[[|[e o] todo]|i e o todo|i w p todo|i evs r todo]|]; try done.
  - destruct (plan_of cf e o) as [[r ev']|[] p]; [done|destruct (bool_decide _); done ..].
  - by destruct p as [[r ev']|upd next].
  - destruct evs as [|ev' evs]; [done|]. intros H. injection H as <- <- <-. cbn. rewrite lookup_insert. eauto.
Qed.

Lemma hinv_step cf s0 progs s tr l s' ev : hinv cf s0 progs s tr -> hstep cf s l = Some (s', ev) ->
  match l with HCall _ _ e _ => env_ok e | _ => True end -> hinv cf s0 progs s' (tr ++ ev).
Proof.
  intros [(progs' & sched & Hr & Hsub & Hok & Hask) Hin Hw] Hs Hl. destruct l as [t|t u e o]; cbn [hstep] in Hs.
  - destruct (back s t) eqn:Eb; [|done]. destruct (cstep cf (h_c s) t) as [[l c']|] eqn:Ec; [|done]. injection Hs as <- <-. split; cbn [h_c h_in h_sub].
    + exists progs', (sched ++ [t]). split; [rewrite flat_app; cbn; by eapply crun_snoc|]. split; [done|]. split; [done|].
      intros t' u' e' o' H. apply elem_of_app in H as [H|H]; [by eapply Hask|]. by apply elem_of_list_singleton in H.
    + intros k Hk. rewrite flat_app. cbn. destruct (decide (k = t)) as [->|Hne].
      * destruct l as [i ? ? ?|i ? ?|i|i|i ev|i r]; try (by apply elem_of_difference in Hk as [_ []]; apply elem_of_singleton). destruct (out_event _ _ _ _ _ _ Ec) as (evs & r & todo & HT).
        exists i, evs, r, todo, ev. split; [done|]. set_solver.
      * assert (k ∈ h_in s) as Hk' by (destruct l; set_solver). destruct (Hin k Hk') as (i & evs & r & todo & ev & HT & He).
        exists i, evs, r, todo, ev. split; [by rewrite (cstep_threads _ _ _ _ _ _ Ec Hne)|]. set_solver.
    + intros k u Hk. apply lookup_delete_Some in Hk as [Hne Hk]. destruct (Hw _ _ Hk) as (H1 & H2 & H3). split; [destruct l; set_solver|]. split; [done|].
      by rewrite (cstep_dom _ _ _ _ _ u Ec).
  - destruct (bool_decide (t ∈ h_in s)) eqn:E1; [|done]. destruct (back s t) eqn:Eb; [|done]. cbn [andb] in Hs. case_bool_decide as E2; [|done]. injection Hs as <- <-.
    apply bool_decide_eq_true in E1. pose proof (fresh_above _ _ E2) as Hu.
    assert (forall k, is_Some (c_threads (h_c s) !! k) -> k < u) as Hlt by (intros k [T HT]; exact (E2 _ _ HT)).
    split; cbn [h_c h_in h_sub].
    + assert (progs' !! u = None) as Hpu.
      { pose proof (ci_threads _ _ _ _ _ (cinv_run cf s0 progs' sched (cinit s0 progs') [] Hok (cinv_init cf s0 progs') _ _ Hr) u) as H. rewrite Hu in H. by destruct (progs' !! u). }
      assert (c_threads (cinit s0 progs') !! u = None) as Hc0 by (cbn; by rewrite lookup_fmap, Hpu).
      destruct (crun_frame cf u (TIdle [(e, o)]) sched _ _ _ Hc0 Hr) as [sched' Hr'].
      exists (<[u := [(e, o)]]> progs'), sched'. split; [|split; [|split]].
      * rewrite flat_app. cbn. rewrite app_nil_r, <- Hr'. f_equal. unfold cinit, set_thread. cbn. f_equal. by rewrite fmap_insert.
      * etrans; [exact Hsub|]. by apply insert_subseteq.
      * intros k p Hk. destruct (decide (k = u)) as [->|Hne]; [rewrite lookup_insert in Hk; injection Hk as <-; constructor; [done|constructor]|].
        rewrite lookup_insert_ne in Hk by done. by eapply Hok.
      * intros t' u' e' o' H. apply elem_of_app in H as [H|H].
        -- pose proof (Hask _ _ _ _ H) as Hp. rewrite lookup_insert_ne; [done|]. intros ->. by rewrite Hpu in Hp.
        -- apply elem_of_list_singleton in H. injection H as -> -> -> ->. by rewrite lookup_insert.
    + intros k Hk. destruct (Hin k Hk) as (i & evs & r & todo & ev & HT & He). exists i, evs, r, todo, ev. split; [|rewrite flat_app; set_solver].
      unfold set_thread. cbn [c_threads]. rewrite lookup_insert_ne; [done|]. intros ->. by rewrite Hu in HT.
    + intros k v Hk. destruct (decide (k = t)) as [->|Hne].
      * rewrite lookup_insert in Hk. injection Hk as <-. split; [done|]. destruct (Hin t E1) as (i & evs & r & todo & ev & HT & He). split; [apply Hlt; by eexists|].
        unfold set_thread. cbn [c_threads]. rewrite lookup_insert. by eexists.
      * rewrite lookup_insert_ne in Hk by done. destruct (Hw _ _ Hk) as (H1 & H2 & H3). split; [done|]. split; [done|].
        unfold set_thread. cbn [c_threads]. destruct (decide (v = u)) as [->|Hv]; [rewrite lookup_insert; by eexists|]. by rewrite lookup_insert_ne.
Qed.

Lemma hinv_init cf s0 progs : progs_ok progs -> hinv cf s0 progs (hinit s0 progs) [].
Proof.
  intros Hok. split; cbn; [|set_solver|done]. exists progs, []. split; [done|]. split; [done|]. split; [done|]. intros ? ? ? ? H. by apply elem_of_nil in H.
Qed.

Lemma hinv_run cf s0 progs ls s tr : progs_ok progs -> calls_ok ls -> hrun cf (hinit s0 progs) ls = Some (s, tr) -> hinv cf s0 progs s tr.
Proof.
  intros Hok. revert s tr. induction ls as [|l ls IH] using rev_ind; intros s tr Hl Hr.
  - injection Hr as <- <-. by apply hinv_init.
  - apply Forall_app in Hl as [Hl Hl1]. apply (Forall_inv (l := [])) in Hl1. apply run_snoc in Hr as (s1 & e1 & e2 & Hr & Hs & ->). eapply hinv_step; [by apply IH|exact Hs|exact Hl1].
Qed.

(** The invariant of StoreConc.v. *)
Lemma hinv_cinv cf s0 progs s tr : hinv cf s0 progs s tr -> exists progs', progs ⊆ progs' /\ cinv cf s0 progs' (flat tr) (h_c s) /\
  (forall t u e o, HAsk t u e o ∈ tr -> progs' !! u = Some [(e, o)]).
Proof.
  intros [(progs' & sched & Hr & Hsub & Hok & Hask) _ _]. exists progs'. split; [done|]. split; [|done].
  exact (cinv_run cf s0 progs' sched (cinit s0 progs') [] Hok (cinv_init cf s0 progs') _ _ Hr).
Qed.

(** ** No deadlock *)

Lemma free_steps cf c t T : c_writer c = None -> c_readers c = ∅ -> c_threads c !! t = Some T -> T <> TIdle [] -> is_Some (cstep cf c t).
Proof.
  intros Hw Hr Ht HT. unfold cstep. rewrite Ht. destruct T as [[|[e o] todo]|i e o todo|i w p todo|i evs r todo]; try done.
  - destruct (plan_of cf e o) as [[r ev]|[] p]; [eexists; reflexivity|rewrite bool_decide_eq_true_2 by done; eexists; reflexivity ..].
  - destruct p as [[r ev]|upd next]; eexists; reflexivity.
  - destruct evs as [|ev evs]; eexists; reflexivity.
Qed.
Lemma in_steps cf c t i w p todo : c_threads c !! t = Some (TIn i w p todo) -> is_Some (cstep cf c t).
Proof. intros Ht. unfold cstep. rewrite Ht. destruct p as [[r ev]|upd next]; eexists; reflexivity. Qed.

Lemma no_wait cf s0 progs s tr t : hinv cf s0 progs s tr -> (forall id evs r todo, c_threads (h_c s) !! t <> Some (TOut id evs r todo)) -> back s t = true.
Proof.
  intros Hi HT. unfold back. destruct (h_sub s !! t) as [u|] eqn:E; [|done]. destruct (hi_waits _ _ _ _ _ Hi _ _ E) as (Hin & _).
  destruct (hi_handler _ _ _ _ _ Hi _ Hin) as (i & evs & r & todo & _ & H & _). by destruct (HT i evs r todo).
Qed.

(** A thread that waits does so for one that does not. *)
Lemma waits_for cf s0 progs s tr t T : hinv cf s0 progs s tr -> c_threads (h_c s) !! t = Some T -> T <> TIdle [] ->
  exists t' T', c_threads (h_c s) !! t' = Some T' /\ T' <> TIdle [] /\ back s t' = true.
Proof.
  intros Hi. set (B := S (foldr Nat.max 0 (fst <$> map_to_list (c_threads (h_c s))))).
  assert (forall k K, c_threads (h_c s) !! k = Some K -> k < B) as HB.
  { intros k K Hk. apply elem_of_map_to_list in Hk. unfold B. revert Hk. generalize (map_to_list (c_threads (h_c s))) as l. clear. induction l as [|x l IH]; intros Hk; [by apply elem_of_nil in Hk|].
    apply elem_of_cons in Hk as [<-|Hk]; [cbn; lia|]. specialize (IH Hk). cbn in *. lia. }
  remember (B - t) as n eqn:En. revert t T En. induction n as [n IH] using (well_founded_induction lt_wf). intros t T En Ht HT.
  destruct (back s t) eqn:Eb; [by exists t, T|]. unfold back in Eb. destruct (h_sub s !! t) as [u|] eqn:Eu; [|done].
  destruct (hi_waits _ _ _ _ _ Hi _ _ Eu) as (_ & Hlt & [U HU]). rewrite HU in Eb. pose proof (HB _ _ HU). pose proof (HB _ _ Ht).
  apply (IH (B - u) ltac:(lia) u U eq_refl HU). intros ->. done.
Qed.

Lemma some_steps cf s0 progs s tr t T : hinv cf s0 progs s tr -> c_threads (h_c s) !! t = Some T -> T <> TIdle [] ->
  exists t', is_Some (hstep cf s (HStep t')).
Proof.
  intros Hi Ht HT. destruct (hinv_cinv _ _ _ _ _ Hi) as (progs' & _ & Hc & _).
  assert (forall t', back s t' = true -> is_Some (cstep cf (h_c s) t') -> is_Some (hstep cf s (HStep t'))) as Hgo.
  { intros t' Hb [[l c'] Hs]. cbn [hstep]. rewrite Hb, Hs. by eexists. }
  destruct (c_writer (h_c s)) as [w|] eqn:Ew.
  - destruct (ci_writer _ _ _ _ _ Hc _ Ew) as (_ & i & p & todo & Hw). exists w. apply Hgo; [|by eapply in_steps]. eapply no_wait; [exact Hi|]. intros ? ? ? ?. by rewrite Hw.
  - destruct (decide (c_readers (h_c s) = ∅)) as [Er|Er].
    + destruct (waits_for _ _ _ _ _ _ _ Hi Ht HT) as (t' & T' & Ht' & HT' & Hb). exists t'. apply Hgo; [done|]. by eapply free_steps.
    + apply set_choose_L in Er as [k Hk]. destruct (ci_readers _ _ _ _ _ Hc _ Hk) as (i & p & todo & Hw). exists k. apply Hgo; [|by eapply in_steps].
      eapply no_wait; [exact Hi|]. intros ? ? ? ?. by rewrite Hw.
Qed.

(** ** What a handler's call sees, and when it is done *)

(** The labels of a thread's step carry its call. *)
Lemma invoked_by cf c t l c' id u e o : cstep cf c t = Some (l, c') -> l = LInv id u e o -> u = t.
Proof.
  unfold cstep. intros Hs ->. destruct (c_threads c !! t) as [[[|[e' o'] todo]|i e' o' todo|i w p todo|i evs r todo]|]; try done.
  - injection Hs as <- <- <- <- <-. done.
  - destruct (plan_of cf e' o') as [[r ev]|[] p]; [done|destruct (bool_decide _); done ..].
  - by destruct p as [[r ev]|upd next].
  - by destruct evs as [|ev evs].
Qed.

Lemma seen_in id tr l : l ∈ seen id tr -> l ∈ tr.
Proof.
  induction tr as [|x tr IH]; cbn [seen]; [done|]. intros H. destruct x; try (right; by apply IH); (destruct (decide _); [apply elem_of_cons in H as [->|H]; [left|right; by apply IH]|right; by apply IH]).
Qed.
Lemma made_in t tr e o : (e, o) ∈ made t tr -> exists id, LInv id t e o ∈ tr.
Proof.
  induction tr as [|x tr IH]; cbn [made]; intros H; [by apply elem_of_nil in H|].
  destruct x as [i t' e' o'|i ? ?|i|i|i ?|i ?]; try (destruct (IH H) as [j Hj]; exists j; by right).
  destruct (decide (t' = t)) as [->|Hne]; [|destruct (IH H) as [j Hj]; exists j; by right].
  apply elem_of_cons in H as [E|H]; [injection E as -> ->; exists i; by left|]. destruct (IH H) as [j Hj]. exists j. by right.
Qed.
Lemma in_made t tr id e o : LInv id t e o ∈ tr -> (e, o) ∈ made t tr.
Proof.
  induction tr as [|x tr IH]; intros H; [by apply elem_of_nil in H|]. cbn [made]. apply elem_of_cons in H as [<-|H].
  - rewrite decide_True by done. by left.
  - destruct x; try (by apply IH). destruct (decide _); [right|]; by apply IH.
Qed.
Lemma in_seen tr l : l ∈ tr -> match l with LStep _ | LRel _ => False | _ => True end -> l ∈ seen (label_id l) tr.
Proof.
  intros H Hl. induction tr as [|x tr IH]; [by apply elem_of_nil in H|]. apply elem_of_cons in H as [->|H].
  - cbn [seen]. destruct x; try done; cbn [label_id]; rewrite decide_True by done; by left.
  - specialize (IH H). cbn [seen]. destruct x; try done; (destruct (decide _); [by right|done]).
Qed.

(** A thread that has made its calls and finished has had them return. *)
Lemma finished_calls cf s0 progs tr c t id e o : cinv cf s0 progs tr c -> c_threads c !! t = Some (TIdle []) -> LInv id t e o ∈ tr ->
  exists r, LRes id r ∈ tr.
Proof.
  intros Hc Ht Hin. pose proof (in_seen _ _ Hin I) as Hs. cbn [label_id] in Hs.
  assert (id < c_next c) as Hlt. { destruct (decide (c_next c <= id)) as [H|H]; [|lia]. by rewrite (ci_fresh _ _ _ _ _ Hc id H) in Hs; apply elem_of_nil in Hs. }
  destruct (ci_done _ _ _ _ _ Hc id Hlt) as [(t' & T & HT & Hid)|(t' & e' & o' & r & ev & Hlife & _)].
  - exfalso. pose proof (ci_threads _ _ _ _ _ Hc t') as H. rewrite HT in H. destruct (progs !! t') as [p|]; [|done]. destruct H as [_ H].
    assert (exists e' o' rest, seen id tr = LInv id t' e' o' :: rest /\ Forall (fun l => match l with LInv _ _ _ _ => False | _ => True end) rest) as (e' & o' & rest & E & HF).
    { destruct T as [l|i e0 o0 l|i w p0 l|i evs r l]; cbn [id_in] in Hid; try done; injection Hid as ->; cbn [shown] in H.
      - destruct H as (_ & -> & _). exists e0, o0, []. split; [done|constructor].
      - destruct H as (_ & e0 & o0 & r & ev & -> & _). exists e0, o0, [LLin id e0 o0]. split; [done|by repeat constructor].
      - destruct H as (_ & e0 & o0 & evd & -> & _). exists e0, o0, (LLin id e0 o0 :: (LEv id <$> evd)). split; [done|]. constructor; [done|]. apply Forall_fmap. by apply Forall_true. }
    rewrite E in Hs. apply elem_of_cons in Hs as [Hs|Hs].
    + injection Hs as <- _ _. rewrite Ht in HT. injection HT as <-. done.
    + by apply (proj1 (Forall_forall _ _) HF) in Hs.
  - exists r. apply (seen_in id). rewrite Hlife. unfold life. right. right. apply elem_of_app. right. by left.
Qed.

Lemma flat_in l tr : l ∈ flat tr <-> HE l ∈ tr.
Proof.
  unfold flat. rewrite elem_of_list_omap. split.
  - intros (x & Hx & E). destruct x; [|done]. injection E as ->. done.
  - intros H. by exists (HE l).
Qed.

(** Every step shows one event. *)
Lemma one_event cf s l s' ev : hstep cf s l = Some (s', ev) -> exists x, ev = [x].
Proof.
  destruct l as [t|t u e o]; cbn [hstep].
  - destruct (back s t); [|done]. destruct (cstep cf (h_c s) t) as [[l c']|]; [|done]. intros H. injection H as <- <-. by eexists.
  - destruct (_ && _); [|done]. intros H. injection H as <- <-. by eexists.
Qed.
Lemma split_run cf a x b : forall ls s0 s, hrun cf s0 ls = Some (s, a ++ x :: b) ->
  exists ls1 l ls2 s1 s2, ls = ls1 ++ l :: ls2 /\ hrun cf s0 ls1 = Some (s1, a) /\ hstep cf s1 l = Some (s2, [x]) /\ hrun cf s2 ls2 = Some (s, b).
Proof.
  induction a as [|y a IH]; intros ls s0 s Hr; (destruct ls as [|l ls]; [discriminate Hr|]); cbn [run] in Hr; (destruct (hstep cf s0 l) as [[s1 e1]|] eqn:Es; [|discriminate Hr]);
    destruct (one_event _ _ _ _ _ Es) as [z ->]; (destruct (hrun cf s1 ls) as [[s2 e2]|] eqn:Er; [|discriminate Hr]); injection Hr as -> -> ->.
  - exists [], l, ls, s0, s1. done.
  - destruct (IH _ _ _ Er) as (ls1 & l' & ls2 & s3 & s4 & -> & Hr1 & Hs & Hr2). exists (l :: ls1), l', ls2, s3, s4. split; [done|]. split; [|done].
    cbn [run]. by rewrite Es, Hr1.
Qed.
Lemma ask_step cf s l s' t u e o : hstep cf s l = Some (s', [HAsk t u e o]) -> l = HCall t u e o.
Proof.
  destruct l as [t'|t' u' e' o']; cbn [hstep].
  - destruct (back s t'); [|done]. by destruct (cstep cf (h_c s) t') as [[l c']|].
  - destruct (_ && _); [|done]. intros H. by injection H as _ -> -> -> ->.
Qed.

(** Where a handler is when it makes a call. *)
Record asking (t u : nat) (a : list hev) (id : nat) (e0 : env) (o0 : op) : Prop := {
  as_inv : HE (LInv id t e0 o0) ∈ a;
  as_lin : HE (LLin id e0 o0) ∈ a;
  as_ev : exists ev, HE (LEv id ev) ∈ a;
  as_open : forall r, HE (LRes id r) ∉ a;
  as_fresh : forall i e o, HE (LInv i u e o) ∉ a;
}.

Lemma asking_at cf s0 progs s1 a t u e o s2 : hinv cf s0 progs s1 a -> hstep cf s1 (HCall t u e o) = Some (s2, [HAsk t u e o]) ->
  exists id e0 o0 evs r todo, asking t u a id e0 o0 /\ c_threads (h_c s2) !! t = Some (TOut id evs r todo) /\ h_sub s2 !! t = Some u.
Proof.
  intros Hi Hs. cbn [hstep] in Hs. destruct (bool_decide (t ∈ h_in s1)) eqn:E1; [|done]. destruct (back s1 t) eqn:Eb; [|done]. cbn [andb] in Hs. case_bool_decide as E2; [|done]. injection Hs as <-.
  apply bool_decide_eq_true in E1. pose proof (fresh_above _ _ E2) as Hu. destruct (hi_handler _ _ _ _ _ Hi _ E1) as (id & evs & r & todo & ev & HT & Hev).
  destruct (hinv_cinv _ _ _ _ _ Hi) as (progs' & _ & Hc & _). pose proof (ci_threads _ _ _ _ _ Hc t) as H. rewrite HT in H. destruct (progs' !! t) as [p|]; [|done].
  destruct H as (_ & _ & e0 & o0 & evd & Hseen & _). exists id, e0, o0, evs, r, todo. split; [|split; [|cbn [h_sub]; apply lookup_insert]].
  - split.
    + apply flat_in, (seen_in id). rewrite Hseen. by left.
    + apply flat_in, (seen_in id). rewrite Hseen. right. by left.
    + exists ev. by apply flat_in.
    + intros r' Hr'. apply flat_in in Hr'. pose proof (in_seen _ _ Hr' I) as Hin. cbn [label_id] in Hin. rewrite Hseen in Hin.
      apply elem_of_cons in Hin as [Hin|Hin]; [done|]. apply elem_of_cons in Hin as [Hin|Hin]; [done|]. apply elem_of_list_fmap in Hin as (? & ? & _). done.
    + intros i e' o' Hin. apply flat_in in Hin. apply in_made in Hin. pose proof (ci_threads _ _ _ _ _ Hc u) as H. rewrite Hu in H. destruct (progs' !! u); [done|].
      rewrite H in Hin. by apply elem_of_nil in Hin.
  - unfold set_thread. cbn [h_c c_threads]. rewrite lookup_insert_ne; [done|]. intros ->. by rewrite Hu in HT.
Qed.

(** A return comes from the thread that has the call. *)
Lemma res_thread cf c k id r c' : cstep cf c k = Some (LRes id r, c') -> exists todo, c_threads c !! k = Some (TOut id [] r todo).
Proof.
  unfold cstep. destruct (c_threads c !! k) as [[[|[e' o'] todo]|i e' o' todo|i w p todo|i evs r' todo]|]; try done.
  - destruct (plan_of cf e' o') as [[r' ev]|[] p]; [done|destruct (bool_decide _); done ..].
  - by destruct p as [[r' ev]|upd next].
  - destruct evs as [|ev evs]; [|done]. intros H. injection H as <- <- <-. eauto.
Qed.

(** The call [e], [o] of the handler has returned, by what follows [a]. *)
Definition returned (u : nat) (e : env) (o : op) (id : nat) (b : list hev) : Prop :=
  exists id' r' b1 b2, b = b1 ++ b2 /\ HE (LInv id' u e o) ∈ b1 /\ HE (LRes id' r') ∈ b1 /\ (forall r, HE (LRes id r) ∉ b1).

Lemma returned_app u e o id b b' : returned u e o id b -> returned u e o id (b ++ b').
Proof. intros (id' & r' & b1 & b2 & -> & H). exists id', r', b1, (b2 ++ b'). split; [by rewrite app_assoc|done]. Qed.

Lemma until_back cf s0 progs s s' a b t u e o id evs r todo e0 o0 l ev : hinv cf s0 progs s (a ++ HAsk t u e o :: b) -> asking t u a id e0 o0 ->
  hstep cf s l = Some (s', ev) ->
  (c_threads (h_c s) !! t = Some (TOut id evs r todo) /\ h_sub s !! t = Some u /\ (forall r, HE (LRes id r) ∉ b)) ->
  (c_threads (h_c s') !! t = Some (TOut id evs r todo) /\ h_sub s' !! t = Some u /\ (forall r, HE (LRes id r) ∉ b ++ ev)) \/ returned u e o id b.
Proof.
  intros Hi Ha Hs (HT & Hsub & Hno). destruct (hinv_cinv _ _ _ _ _ Hi) as (progs' & _ & Hc & Hask).
  assert (back s t = true -> returned u e o id b) as Hback.
  { intros Hb. unfold back in Hb. rewrite Hsub in Hb. destruct (c_threads (h_c s) !! u) as [U|] eqn:EU; [|done]. assert (U = TIdle []) as -> by (by destruct U as [[]| | |]).
    pose proof (ci_threads _ _ _ _ _ Hc u) as H. rewrite EU, (Hask t u e o) in H by set_solver. destruct H as [Hmade _]. cbn [todo_of] in Hmade. rewrite app_nil_r in Hmade.
    destruct (made_in u (flat (a ++ HAsk t u e o :: b)) e o) as [id' Hinv]; [rewrite Hmade; by left|].
    destruct (finished_calls _ _ _ _ _ _ _ _ _ Hc EU Hinv) as [r' Hres].
    assert (seen id' (flat a) = []) as Hseen.
    { destruct (ci_done _ _ _ _ _ Hc id') as [(t' & T & HT' & Hid)|(t' & e' & o' & r'' & ev' & Hlife & _)].
      - destruct (decide (c_next (h_c s) <= id')) as [Hge|Hlt]; [|lia]. pose proof (ci_fresh _ _ _ _ _ Hc id' Hge) as H0. pose proof (in_seen _ _ Hinv I) as H1. cbn [label_id] in H1. rewrite H0 in H1. by apply elem_of_nil in H1.
      - exfalso. pose proof (ci_threads _ _ _ _ _ Hc t') as H. rewrite HT' in H. destruct (progs' !! t') as [p|]; [|done]. destruct H as [_ H].
        pose proof (in_seen _ _ Hres I) as H1. cbn [label_id] in H1.
        destruct T as [?|i ? ? ?|i ? ? ?|i ? ? ?]; cbn [id_in] in Hid; try done; injection Hid as ->; cbn [shown] in H.
        + destruct H as (_ & H & _). rewrite H in H1. not_in H1.
        + destruct H as (_ & ? & ? & ? & ? & H & _). rewrite H in H1. not_in H1.
        + destruct H as (_ & ? & ? & ? & H & _). rewrite H in H1. apply elem_of_cons in H1 as [H1|H1]; [done|]. apply elem_of_cons in H1 as [H1|H1]; [done|]. apply elem_of_list_fmap in H1 as (? & ? & _). done.
      - rewrite flat_app, seen_app in Hlife. destruct (seen id' (flat a)) as [|x rest] eqn:Es; [done|]. exfalso. injection Hlife as -> Hrest.
        assert (LInv id' t' e' o' ∈ flat a) as Hina by (apply (seen_in id'); rewrite Es; by left).
        assert (t' = u) as ->.
        { pose proof (in_seen _ _ Hinv I) as H1. cbn [label_id] in H1. rewrite flat_app, seen_app, Es in H1. change (flat (HAsk t u e o :: b)) with (flat b) in H1. cbn [app] in H1. apply elem_of_cons in H1 as [H1|H1]; [by injection H1 as -> _ _|].
          rewrite Hrest in H1. apply elem_of_cons in H1 as [H1|H1]; [done|]. apply elem_of_app in H1 as [H1|H1]; [apply elem_of_list_fmap in H1 as (? & ? & _); done|]. by apply elem_of_list_singleton in H1. }
        apply flat_in in Hina. by apply (as_fresh _ _ _ _ _ _ Ha) in Hina. }
    assert (forall l, label_id l = id' -> match l with LStep _ | LRel _ => False | _ => True end -> l ∈ flat (a ++ HAsk t u e o :: b) -> HE l ∈ b) as Hinb.
    { intros l0 Hid Hl0 Hin. rewrite flat_app in Hin. apply elem_of_app in Hin as [Hin|Hin]; [pose proof (in_seen _ _ Hin Hl0) as H1; rewrite Hid, Hseen in H1; by apply elem_of_nil in H1|].
      cbn in Hin. by apply flat_in in Hin. }
    exists id', r', b, []. split; [by rewrite app_nil_r|]. split; [by apply Hinb|]. split; [by apply Hinb|]. done. }
  destruct l as [k|k v e' o']; cbn [hstep] in Hs.
  - destruct (back s k) eqn:Eb; [|done]. destruct (cstep cf (h_c s) k) as [[l c']|] eqn:Ec; [|done]. injection Hs as <- <-.
    destruct (decide (k = t)) as [->|Hne]; [right; by apply Hback|]. left. cbn [h_c h_sub]. split; [by rewrite (cstep_threads _ _ _ _ _ _ Ec)|]. split; [by rewrite lookup_delete_ne|].
    intros r' Hin. apply elem_of_app in Hin as [Hin|Hin]; [by eapply Hno|]. apply elem_of_list_singleton in Hin. injection Hin as <-.
    destruct (res_thread _ _ _ _ _ _ Ec) as [todo' HT']. apply Hne. eapply (ci_ids _ _ _ _ _ Hc); [exact HT'|exact HT|done|done].
  - destruct (bool_decide (k ∈ h_in s)) eqn:E1; [|done]. destruct (back s k) eqn:Eb; [|done]. cbn [andb] in Hs. case_bool_decide as E2; [|done]. injection Hs as <- <-.
    destruct (decide (k = t)) as [->|Hne]; [right; by apply Hback|]. left. cbn [h_c h_sub set_thread c_threads]. split; [|split; [by rewrite lookup_insert_ne|]].
    + rewrite lookup_insert_ne; [done|]. intros ->. by rewrite (fresh_above _ _ E2) in HT.
    + intros r' Hin. apply elem_of_app in Hin as [Hin|Hin]; [by eapply Hno|]. by apply elem_of_list_singleton in Hin.
Qed.

(** The open call of a thread is the one it is in. *)
Lemma open_call cf s0 progs s a t id e0 o0 T : hinv cf s0 progs s a -> HE (LInv id t e0 o0) ∈ a -> (forall r, HE (LRes id r) ∉ a) ->
  c_threads (h_c s) !! t = Some T -> id_in T = Some id.
Proof.
  intros Hi Hinv Hno HT. destruct (hinv_cinv _ _ _ _ _ Hi) as (progs' & _ & Hc & _). apply flat_in in Hinv. pose proof (in_seen _ _ Hinv I) as Hs. cbn [label_id] in Hs.
  assert (id < c_next (h_c s)) as Hlt.
  { destruct (decide (c_next (h_c s) <= id)) as [H|H]; [|lia]. rewrite (ci_fresh _ _ _ _ _ Hc id H) in Hs. by apply elem_of_nil in Hs. }
  destruct (ci_done _ _ _ _ _ Hc id Hlt) as [(t' & T' & HT' & Hid)|(t' & e' & o' & r & ev & Hlife & _)].
  - assert (t' = t) as ->; [|congruence]. pose proof (ci_threads _ _ _ _ _ Hc t') as H. rewrite HT' in H. destruct (progs' !! t') as [p|]; [|done]. destruct H as [_ H].
    destruct T' as [?|i ? ? ?|i ? ? ?|i ? ? ?]; cbn [id_in] in Hid; try done; injection Hid as ->; cbn [shown] in H.
    + destruct H as (_ & H & _). rewrite H in Hs. apply elem_of_cons in Hs as [Hs|Hs]; [by injection Hs as -> _ _|not_in Hs].
    + destruct H as (_ & ? & ? & ? & ? & H & _). rewrite H in Hs. apply elem_of_cons in Hs as [Hs|Hs]; [by injection Hs as -> _ _|not_in Hs].
    + destruct H as (_ & ? & ? & ? & H & _). rewrite H in Hs. apply elem_of_cons in Hs as [Hs|Hs]; [by injection Hs as -> _ _|].
      apply elem_of_cons in Hs as [Hs|Hs]; [done|]. apply elem_of_list_fmap in Hs as (? & ? & _). done.
  - exfalso. apply (Hno r), flat_in, (seen_in id). rewrite Hlife. unfold life. right. right. apply elem_of_app. right. by left.
Qed.

Lemma nested cf s0 progs ls s a t u e o b : progs_ok progs -> calls_ok ls -> hrun cf (hinit s0 progs) ls = Some (s, a ++ HAsk t u e o :: b) ->
  (exists id e0 o0, asking t u a id e0 o0) /\
  (forall i e' o', HE (LInv i u e' o') ∈ b -> e' = e /\ o' = o) /\
  (forall id e0 o0 r, asking t u a id e0 o0 -> HE (LRes id r) ∈ b -> returned u e o id b).
Proof.
  intros Hok Hl Hr. pose proof (hinv_run _ _ _ _ _ _ Hok Hl Hr) as Hi. destruct (split_run _ _ _ _ _ _ _ Hr) as (ls1 & l & ls2 & s1 & s2 & -> & Hr1 & Hs & Hr2).
  pose proof (ask_step _ _ _ _ _ _ _ _ Hs) as ->. apply Forall_app in Hl as [Hl1 Hl2]. pose proof (Forall_cons_1 _ _ _ Hl2) as [Hle Hl3].
  pose proof (hinv_run _ _ _ _ _ _ Hok Hl1 Hr1) as Hi1. destruct (asking_at _ _ _ _ _ _ _ _ _ _ Hi1 Hs) as (id & e0 & o0 & evs & r & todo & Ha & HT & Hsub).
  split; [by exists id, e0, o0|]. split.
  - intros i e' o' Hin. destruct (hinv_cinv _ _ _ _ _ Hi) as (progs' & _ & Hc & Hask).
    assert ((e', o') ∈ made u (flat (a ++ HAsk t u e o :: b))) as Hm. { apply (in_made _ _ i). apply flat_in. set_solver. }
    pose proof (ci_threads _ _ _ _ _ Hc u) as H. rewrite (Hask t u e o) in H by set_solver. destruct (c_threads (h_c s) !! u); [|done]. destruct H as [H _].
    assert ((e', o') ∈ [(e, o)]) as Hin' by (rewrite <- H; apply elem_of_app; by left). apply elem_of_list_singleton in Hin'. by injection Hin' as -> ->.
  - intros id1 e1 o1 r1 Ha1 Hres.
    assert (id1 = id) as ->.
    { assert (exists T1, c_threads (h_c s1) !! t = Some T1 /\ id_in T1 = Some id) as (T1 & HT1 & Hid1).
      { destruct (hinv_cinv _ _ _ _ _ Hi1) as (progs1 & _ & Hc1 & _). pose proof (ci_threads _ _ _ _ _ Hc1 t) as H. pose proof (as_inv _ _ _ _ _ _ Ha) as Hin. apply flat_in in Hin. apply in_made in Hin.
        destruct (c_threads (h_c s1) !! t) as [T1|] eqn:E1; [|destruct (progs1 !! t); [done|]; rewrite H in Hin; by apply elem_of_nil in Hin].
        exists T1. split; [done|]. exact (open_call _ _ _ _ _ _ _ _ _ _ Hi1 (as_inv _ _ _ _ _ _ Ha) (as_open _ _ _ _ _ _ Ha) E1). }
      pose proof (open_call _ _ _ _ _ _ _ _ _ _ Hi1 (as_inv _ _ _ _ _ _ Ha1) (as_open _ _ _ _ _ _ Ha1) HT1) as H. congruence. }
    clear Ha1. assert (Hl3' : calls_ok ls2) by exact Hl3. clear Hi Hl2 Hl3.
    assert (forall ls2 s b, calls_ok ls2 -> hrun cf s2 ls2 = Some (s, b) ->
      (c_threads (h_c s) !! t = Some (TOut id evs r todo) /\ h_sub s !! t = Some u /\ (forall r, HE (LRes id r) ∉ b)) \/ returned u e o id b) as Hmain.
    { clear Hr Hr2 Hres Hl3' ls2 s b. intros ls2. induction ls2 as [|l ls2 IH] using rev_ind; intros s b Hl Hr.
      - injection Hr as <- <-. left. split; [done|]. split; [done|]. intros ?. apply not_elem_of_nil.
      - apply Forall_app in Hl as [Hl _]. apply run_snoc in Hr as (s3 & b3 & ev & Hr & Hs3 & ->). destruct (IH _ _ Hl Hr) as [H|H]; [|right; by apply returned_app].
        assert (hinv cf s0 progs s3 (a ++ HAsk t u e o :: b3)) as Hi3.
        { apply (hinv_run cf s0 progs (ls1 ++ HCall t u e o :: ls2)); [done| |].
          - apply Forall_app. split; [done|]. constructor; done.
          - rewrite run_app, Hr1. cbn [run]. by rewrite Hs, Hr. }
        destruct (until_back _ _ _ _ _ _ _ _ _ _ _ _ _ _ _ _ _ _ _ Hi3 Ha Hs3 H) as [H'|H']; [by left|right; by apply returned_app]. }
    destruct (Hmain _ _ _ Hl3' Hr2) as [(_ & _ & Hno)|H]; [by destruct (Hno r1)|done].
Qed.

(** A handler that answers every change with another one. *)
Lemma recursion cf s0 progs ls s tr : progs_ok progs -> calls_ok ls -> hrun cf (hinit s0 progs) ls = Some (s, tr) ->
  (forall id ev r, HE (LEv id ev) ∈ tr -> HE (LRes id r) ∈ tr -> exists a t u e o b e0 o0, tr = a ++ HAsk t u e o :: b /\ asking t u a id e0 o0) ->
  (forall t u e o id r, HAsk t u e o ∈ tr -> HE (LInv id u e o) ∈ tr -> HE (LRes id r) ∈ tr -> exists ev, HE (LEv id ev) ∈ tr) ->
  forall id ev r, HE (LEv id ev) ∈ tr -> HE (LRes id r) ∉ tr.
Proof.
  intros Hok Hl Hr HA HB.
  assert (forall n p q id ev r, length p <= n -> tr = p ++ HE (LRes id r) :: q -> HE (LEv id ev) ∈ tr -> False) as H.
  { induction n as [n IH] using (well_founded_induction lt_wf). intros p q id ev r Hn E Hev.
    assert (HE (LRes id r) ∈ tr) as Hres by (rewrite E; apply elem_of_app; right; left).
    destruct (HA _ _ _ Hev Hres) as (a & t & u & e & o & b & e0 & o0 & E2 & Ha). pose proof Hr as Hr0. rewrite E2 in Hr0. destruct (nested _ _ _ _ _ _ _ _ _ _ _ Hok Hl Hr0) as (_ & _ & Hret).
    assert (HE (LRes id r) ∈ b) as Hb. { rewrite E2 in Hres. apply elem_of_app in Hres as [Hres|Hres]; [by apply (as_open _ _ _ _ _ _ Ha) in Hres|]. apply elem_of_cons in Hres as [?|?]; done. }
    destruct (Hret _ _ _ _ Ha Hb) as (id' & r' & b1 & b2 & -> & Hinv & Hres' & Hno).
    (* the inner return comes before the outer one *)
    assert (HE (LRes id r) ∉ a ++ HAsk t u e o :: b1) as Hnot.
    { intros H. apply elem_of_app in H as [H|H]; [by apply (as_open _ _ _ _ _ _ Ha) in H|]. apply elem_of_cons in H as [H|H]; [done|]. by apply Hno in H. }
    assert (exists p2, p = (a ++ HAsk t u e o :: b1) ++ p2) as [p2 Ep].
    { assert (p ++ HE (LRes id r) :: q = (a ++ HAsk t u e o :: b1) ++ b2) as E3 by (rewrite <- E, E2, <- app_assoc; done).
      apply app_eq_app in E3 as [k [[-> E4]|[E4 E5]]]; [by exists k|]. destruct k as [|x k].
      - exists []. by rewrite app_nil_r in *.
      - exfalso. cbn in E5. injection E5 as <- _. apply Hnot. rewrite E4. set_solver. }
    destruct (elem_of_list_split _ _ Hres') as (c1 & c2 & Ec).
    assert (exists ev', HE (LEv id' ev') ∈ tr) as [ev' Hev']. { apply (HB t u e o id' r'); rewrite E2; apply elem_of_app; right; [left|right; apply elem_of_app; left; done ..]. }
    apply (IH (length (a ++ HAsk t u e o :: c1))) with (p := a ++ HAsk t u e o :: c1) (q := c2 ++ b2) (id := id') (ev := ev') (r := r'); [|done| |done].
    - rewrite Ep, Ec in Hn. rewrite !app_length in *. cbn [length] in *. rewrite !app_length in *. cbn [length] in *. lia.
    - rewrite E2, Ec, <- !app_assoc. done. }
  intros id ev r Hev Hres. apply elem_of_list_split in Hres as (p & q & E). by eapply (H (length p)).
Qed.

(** A handler may call. *)
Lemma may_call cf s t id ev s' u e o : hstep cf s (HStep t) = Some (s', [HE (LEv id ev)]) ->
  (forall k, is_Some (c_threads (h_c s') !! k) -> k < u) -> exists s2, hstep cf s' (HCall t u e o) = Some (s2, [HAsk t u e o]).
Proof.
  intros Hs Hu. cbn [hstep] in Hs. destruct (back s t); [|done]. destruct (cstep cf (h_c s) t) as [[l c']|]; [|done]. injection Hs as <- ->.
  cbn [hstep]. rewrite bool_decide_eq_true_2 by set_solver. unfold back. cbn [h_sub]. rewrite lookup_delete. cbn [andb]. rewrite bool_decide_eq_true_2; [by eexists|].
  intros k T HT. apply Hu. by eexists.
Qed.

(** ** Calls end *)

(** How a thread may change by its own step. *)
Definition tmove (T' T : tstate) : Prop :=
  exists cf c t l c', c_threads c !! t = Some T /\ cstep cf c t = Some (l, c') /\ c_threads c' !! t = Some T'.

Lemma tmove_acc T : Acc tmove T.
Proof.
  assert (forall id r todo, Acc tmove (TIdle todo) -> forall evs, Acc tmove (TOut id evs r todo)) as Hout.
  { intros id r todo Hi evs. induction evs as [|ev evs IH]; constructor; intros T' (cf & c & t & l & c' & Ht & Hs & HT'); unfold cstep in Hs; rewrite Ht in Hs; injection Hs as <- <-;
      cbn in HT'; rewrite lookup_insert in HT'; injection HT' as <-; done. }
  assert (forall id w todo, Acc tmove (TIdle todo) -> forall p, Acc tmove (TIn id w p todo)) as Hin.
  { intros id w todo Hi p. induction p as [[r ev]|upd next IH]; constructor; intros T' (cf & c & t & l & c' & Ht & Hs & HT'); unfold cstep in Hs; rewrite Ht in Hs; injection Hs as <- <-;
      cbn in HT'; rewrite lookup_insert in HT'; injection HT' as <-; [by apply Hout|done]. }
  assert (forall id e o todo, Acc tmove (TIdle todo) -> Acc tmove (TWait id e o todo)) as Hwait.
  { intros id e o todo Hi. constructor. intros T' (cf & c & t & l & c' & Ht & Hs & HT'). unfold cstep in Hs. rewrite Ht in Hs.
    destruct (plan_of cf e o) as [[r ev]|[] p].
    - injection Hs as <- <-. cbn in HT'. rewrite lookup_insert in HT'. injection HT' as <-. by apply Hout.
    - destruct (bool_decide _); [|done]. injection Hs as <- <-. cbn in HT'. rewrite lookup_insert in HT'. injection HT' as <-. by apply Hin.
    - destruct (bool_decide _); [|done]. injection Hs as <- <-. cbn in HT'. rewrite lookup_insert in HT'. injection HT' as <-. by apply Hin. }
  assert (forall todo, Acc tmove (TIdle todo)) as Hidle.
  { intros todo. induction todo as [|[e o] todo IH]; constructor; intros T' (cf & c & t & l & c' & Ht & Hs & HT'); unfold cstep in Hs; rewrite Ht in Hs; [done|].
    injection Hs as <- <-. cbn in HT'. rewrite lookup_insert in HT'. injection HT' as <-. by apply Hwait. }
  destruct T; [apply Hidle|apply Hwait, Hidle|apply Hin, Hidle|apply Hout, Hidle].
Qed.

Definition smove (m' m : gmap nat tstate) : Prop := exists t T T', m !! t = Some T /\ tmove T' T /\ m' = <[t := T']> m.

Lemma smove_acc m : Acc smove m.
Proof.
  induction m as [|t T m Hm IH] using map_ind.
  - constructor. intros m' (t & T & T' & Ht & _). by rewrite lookup_empty in Ht.
  - revert m IH Hm. induction (tmove_acc T) as [T _ IHT]. intros m IH. induction IH as [m Hacc IHm]. intros Hm.
    constructor. intros m' (k & K & K' & Hk & Hmv & ->). destruct (decide (k = t)) as [->|Hne].
    + rewrite lookup_insert in Hk. injection Hk as <-. rewrite insert_insert. apply IHT; [done| |done]. by constructor.
    + rewrite lookup_insert_ne in Hk by done. rewrite insert_commute by done. apply IHm; [by exists k, K, K'|]. by rewrite lookup_insert_ne.
Qed.

Lemma cstep_insert cf c t l c' : cstep cf c t = Some (l, c') -> exists T T', c_threads c !! t = Some T /\ c_threads c' = <[t := T']> (c_threads c).
Proof.
  unfold cstep. destruct (c_threads c !! t) as [[[|[e o] todo]|id e o todo|id w p todo|id evs r todo]|]; try done.
  - intros Hs. injection Hs as <- <-. eauto.
  - destruct (plan_of cf e o) as [[r ev]|[] p]; [|destruct (bool_decide _); [|done] ..]; intros Hs; injection Hs as <- <-; eauto.
  - destruct p as [[r ev]|upd next]; intros Hs; injection Hs as <- <-; eauto.
  - destruct evs as [|ev evs]; intros Hs; injection Hs as <- <-; eauto.
Qed.
Lemma cstep_smove cf c t l c' : cstep cf c t = Some (l, c') -> smove (c_threads c') (c_threads c).
Proof.
  intros Hs. destruct (cstep_insert _ _ _ _ _ Hs) as (T & T' & HT & E). exists t, T, T'. split; [done|]. split; [|done].
  exists cf, c, t, l, c'. split; [done|]. split; [done|]. rewrite E. apply lookup_insert.
Qed.

Definition all_done (s : hstate) : Prop := forall t T, c_threads (h_c s) !! t = Some T -> T = TIdle [].

Lemma not_done (m : gmap nat tstate) : (forall t T, m !! t = Some T -> T = TIdle []) \/ exists t T, m !! t = Some T /\ T <> TIdle [].
Proof.
  induction m as [|t T m Hm IH] using map_ind; [left; intros t T H; by rewrite lookup_empty in H|].
  destruct IH as [IH|(k & K & Hk & HK)].
  - assert (T = TIdle [] \/ T <> TIdle []) as [->|HT] by (destruct T as [[]| | |]; by (left + right)).
    + left. intros k K Hk. apply lookup_insert_Some in Hk as [[_ <-]|[_ Hk]]; [done|by eapply IH].
    + right. exists t, T. split; [apply lookup_insert|done].
  - right. exists k, K. split; [|done]. rewrite lookup_insert_ne; [done|]. intros ->. by rewrite Hm in Hk.
Qed.

Lemma can_finish cf s0 progs : forall s tr, hinv cf s0 progs s tr -> exists sched s' tr', hrun cf s (HStep <$> sched) = Some (s', tr') /\ all_done s'.
Proof.
  intros s. remember (c_threads (h_c s)) as m eqn:Em. revert s Em. induction (smove_acc m) as [m _ IH]. intros s -> tr Hi.
  destruct (not_done (c_threads (h_c s))) as [H|(t & T & Ht & HT)]; [by exists [], s, []|].
  destruct (some_steps _ _ _ _ _ _ _ Hi Ht HT) as [t' [[s1 e1] Hs]].
  assert (smove (c_threads (h_c s1)) (c_threads (h_c s))) as Hmv.
  { cbn [hstep] in Hs. destruct (back s t'); [|done]. destruct (cstep cf (h_c s) t') as [[l c']|] eqn:Ec; [|done]. injection Hs as <- <-. by eapply cstep_smove. }
  destruct (IH _ Hmv s1 eq_refl _ (hinv_step _ _ _ _ _ _ _ _ Hi Hs I)) as (sched & s' & tr' & Hr & Hd).
  exists (t' :: sched), s', (e1 ++ tr'). split; [|done]. cbn [fmap list_fmap run]. by rewrite Hs, Hr.
Qed.

(** Nothing of a call that a handler makes happens before it makes it. *)
Lemma only_after cf s0 progs ls s a t u e o b i : progs_ok progs -> calls_ok ls -> hrun cf (hinit s0 progs) ls = Some (s, a ++ HAsk t u e o :: b) ->
  HE (LInv i u e o) ∈ b -> forall e' o', HE (LLin i e' o') ∉ a.
Proof.
  intros Hok Hl Hr Hb e' o' Ha. destruct (nested _ _ _ _ _ _ _ _ _ _ _ Hok Hl Hr) as ((id & e0 & o0 & Hask) & _).
  destruct (hinv_run _ _ _ _ _ _ Hok Hl Hr) as [(progs' & sched & Hc & _ & Hok' & _) _ _].
  assert (flat (a ++ HAsk t u e o :: b) = flat a ++ flat b) as Ef by (rewrite flat_app; done). rewrite Ef in Hc.
  apply flat_in in Hb, Ha. apply in_seen in Hb; [|done]. apply in_seen in Ha; [|done]. cbn [label_id] in Hb, Ha.
  assert (exists x k y, seen i (flat a ++ flat b) = LInv i x k y :: tail (seen i (flat a ++ flat b)) /\ forall v, v ∈ tail (seen i (flat a ++ flat b)) -> forall x' k' y', v <> LInv i x' k' y') as (x & k & y & Eh & Ht).
  { destruct (linearizable _ _ _ _ _ _ i Hok' Hc) as [E|[(x & k & y & E)|(x & k & y & r & ev & _ & _ & Hin & Hp)]].
    - rewrite seen_app in E. apply app_nil in E as [E _]. rewrite E in Ha. by apply elem_of_nil in Ha.
    - exists x, k, y. rewrite E. split; [done|]. intros v Hv. by apply elem_of_nil in Hv.
    - exists x, k, y. destruct (seen i (flat a ++ flat b)) as [|v rest]; [by apply elem_of_nil in Hin|]. unfold life in Hp.
      pose proof (prefix_cons_inv_1 _ _ _ _ Hp) as ->. apply prefix_cons_inv_2 in Hp. split; [done|]. cbn [tail]. intros v Hv x' k' y' ->. destruct Hp as [q Hq].
      assert (LInv i x' k' y' ∈ LLin i k y :: (LEv i <$> ev) ++ [LRes i r]) as H by (rewrite Hq; apply elem_of_app; by left).
      apply elem_of_cons in H as [H|H]; [done|]. apply elem_of_app in H as [H|H]; [apply elem_of_list_fmap in H as (? & ? & _); done|].
      apply elem_of_list_singleton in H. done. }
  rewrite seen_app in Eh, Ht. destruct (seen i (flat a)) as [|v rest] eqn:Es; [by apply elem_of_nil in Ha|]. cbn [app tail] in Eh, Ht. injection Eh as ->.
  eapply (Ht (LInv i u e o)); [apply elem_of_app; by right|reflexivity].
Qed.

(** Without calls of handlers every run ends. *)
Lemma hsteps_end cf s : Acc (fun s' s => exists t ev, hstep cf s (HStep t) = Some (s', ev)) s.
Proof.
  remember (c_threads (h_c s)) as m eqn:Em. revert s Em. induction (smove_acc m) as [m _ IH]. intros s ->. constructor. intros s1 (t & ev & Hs).
  eapply IH; [|reflexivity]. cbn [hstep] in Hs. destruct (back s t); [|done]. destruct (cstep cf (h_c s) t) as [[l c']|] eqn:Ec; [|done]. injection Hs as <- <-. by eapply cstep_smove.
Qed.
Lemma all_returned cf s0 progs s tr : hinv cf s0 progs s tr -> (forall t, hstep cf s (HStep t) = None) ->
  all_done s /\ forall id u e o, HE (LInv id u e o) ∈ tr -> exists r, HE (LRes id r) ∈ tr.
Proof.
  intros Hi Hn. assert (all_done s) as Hd.
  { destruct (not_done (c_threads (h_c s))) as [H|(t & T & Ht & HT)]; [exact H|]. destruct (some_steps _ _ _ _ _ _ _ Hi Ht HT) as [t' [y Hs]]. by rewrite Hn in Hs. }
  split; [done|]. intros id u e o Hin. apply flat_in in Hin. apply in_seen in Hin; [|done]. cbn [label_id] in Hin.
  destruct (hinv_cinv _ _ _ _ _ Hi) as (progs' & _ & Hc & _). destruct (decide (id < c_next (h_c s))) as [Hlt|Hge].
  - destruct (ci_done _ _ _ _ _ Hc id Hlt) as [(t & T & Ht & HT)|(t & e' & o' & r & ev & H1 & _)]; [by rewrite (Hd _ _ Ht) in HT|].
    exists r. apply flat_in, (seen_in id). rewrite H1. unfold life. right. right. apply elem_of_app. right. by left.
  - rewrite (ci_fresh _ _ _ _ _ Hc) in Hin by lia. by apply elem_of_nil in Hin.
Qed.
