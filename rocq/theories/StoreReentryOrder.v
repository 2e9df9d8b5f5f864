(** One writer whose handlers write too (StoreReentry.v): handlers are called in
    the order of the changes. *)
From Coq Require Import ZArith NArith Ascii String Lia.
From stdpp Require Import base gmap strings list fin_maps.
From Verif Require Import GoBase Encoding Records Env SyncMap Tokens Cache SpecStore StoreFacts StoreConc ConcFacts ConcLemmas Run StoreReentry StoreReentryFacts.

Local Open Scope list_scope.

(** ** Each call brings about at most one event *)

Lemma one_at_most cf e s o s' r ev : run_op cf e s o = (s', r, ev) -> length ev <= 1.
Proof.
  assert (forall b x, length (emit b x) <= 1) as He by (intros [] ?; cbn; lia).
  assert (forall p n, length (delta_events cf p n) <= 1) as Hd by (intros p n; unfold delta_events; destruct p; apply He).
  destruct o; cbn [run_op]; try (intros H; injection H as _ _ <-; cbn; lia).
  - unfold add. intros H. repeat match type of H with context [match ?x with _ => _ end] => destruct x end; injection H as _ _ <-; cbn; try lia; auto.
  - unfold update. intros H. repeat match type of H with context [match ?x with _ => _ end] => destruct x end; injection H as _ _ <-; cbn; try lia; auto.
  - unfold remove. intros H. repeat match type of H with context [match ?x with _ => _ end] => destruct x end; injection H as _ _ <-; cbn; try lia; auto.
  - unfold replace. intros H. repeat match type of H with context [match ?x with _ => _ end] => destruct x end; injection H as _ _ <-; cbn; try lia; auto.
  - unfold accumulate. intros H. repeat match type of H with context [match ?x with _ => _ end] => destruct x end; injection H as _ _ <-; cbn; try lia; auto.
Qed.

(** ** Events still due *)

Definition pends (cf : config) (s0 : items) (w : nat) (tr : list label) (c : cstate) : Prop :=
  exists pend, heard tr ++ pend = due cf s0 tr /\
     match c_threads c !! w with
     | Some (TOut _ evs _ _) => pend = evs
     | Some (TIn id _ _ _) => exists r, (id, (r, pend)) ∈ answers cf s0 (lins tr)
     | _ => pend = []
     end.

Lemma pends_step cf s0 progs w tr c t l c' : cinv cf s0 progs tr c -> NoDup (fst <$> lins (tr ++ [l])) -> pends cf s0 w tr c -> cstep cf c t = Some (l, c') ->
  (t <> w -> (forall id e o s s' r ev, l = LLin id e o -> run_op cf e s o = (s', r, ev) -> ev = []) /\ forall id ev, l <> LEv id ev) ->
  pends cf s0 w (tr ++ [l]) c'.
Proof.
  intros Hi Hnd (pend & Hpend & HT) Hstep Hsil.
  assert (lins [l] = [] -> notices [l] = [] -> heard (tr ++ [l]) = heard tr /\ due cf s0 (tr ++ [l]) = due cf s0 tr /\ lins (tr ++ [l]) = lins tr) as Hquiet.
  { intros E1 E2. unfold due. rewrite heard_app, lins_app, E1, app_nil_r. unfold heard at 2. rewrite E2, app_nil_r. done. }
  unfold pends. unfold cstep in Hstep. destruct (c_threads c !! t) as [T|] eqn:Ht; [|discriminate].
  pose proof (ci_threads _ _ _ _ _ Hi t) as Hc. rewrite Ht in Hc. destruct (progs !! t) as [p|] eqn:Hp; [|done]. destruct Hc as [_ Hc].
  destruct T as [[|[e o] todo]|i e o todo|i w' [[r ev]|upd next] todo|i [|ev evs] r todo]; [discriminate|..].
  - injection Hstep as <- <-. destruct (Hquiet eq_refl eq_refl) as (-> & -> & ->). exists pend. split; [done|]. cbn [c_threads].
    destruct (decide (t = w)) as [->|Hne]; [rewrite lookup_insert; by rewrite Ht in HT|by rewrite lookup_insert_ne].
  - set (A := after cf s0 (lins tr)).
    destruct (run_op cf e A o) as [[s' r] ev] eqn:E.
    assert (l = LLin i e o) as ->.
    { destruct (plan_of cf e o) as [[]|[] ?]; try case_bool_decide; try discriminate; by injection Hstep as <- _. }
    assert (heard (tr ++ [LLin i e o]) = heard tr) as Hh by (rewrite heard_app; by rewrite app_nil_r).
    assert (due cf s0 (tr ++ [LLin i e o]) = due cf s0 tr ++ ev) as Hd.
    { unfold due. rewrite lins_app, answers_app, fmap_app, concat_app. f_equal. cbn. fold A. rewrite E. cbn. by rewrite app_nil_r. }
    assert ((i, (r, ev)) ∈ answers cf s0 (lins (tr ++ [LLin i e o]))) as Hans.
    { rewrite lins_app, answers_app. apply elem_of_app. right. cbn. fold A. rewrite E. apply elem_of_list_here. }
    rewrite Hh, Hd. destruct (decide (t = w)) as [->|Hne].
    + rewrite Ht in HT. subst pend. rewrite app_nil_r in Hpend. exists ev. split; [by rewrite Hpend|].
      destruct Hc as (_ & _ & He). pose proof (plan_of_ok cf e o He) as Hplan.
      destruct (plan_of cf e o) as [[r1 ev1]|[] q].
      * injection Hstep as <-. cbn. rewrite lookup_insert. cbn in Hplan. specialize (Hplan A). congruence.
      * case_bool_decide; [|discriminate]. injection Hstep as <-. cbn [c_threads]. rewrite lookup_insert. eauto.
      * case_bool_decide; [|discriminate]. injection Hstep as <-. cbn [c_threads]. rewrite lookup_insert. eauto.
    + assert (ev = []) as -> by (eapply (proj1 (Hsil Hne)); [reflexivity|exact E]).
      rewrite app_nil_r. exists pend. split; [done|].
      assert (c_threads c' !! w = c_threads c !! w) as ->.
      { destruct (plan_of cf e o) as [[r1 ev1]|[] q]; try case_bool_decide; try discriminate; injection Hstep as <-;
          cbn [set_thread c_threads]; by rewrite lookup_insert_ne. }
      destruct (c_threads c !! w) as [[| | |]|]; try done. destruct HT as [r0 HT]. exists r0. by apply answers_mono.
  - injection Hstep as <- <-. destruct (Hquiet eq_refl eq_refl) as (-> & -> & ->). exists pend. split; [done|]. cbn [c_threads].
    destruct (decide (t = w)) as [->|Hne]; [|by rewrite lookup_insert_ne]. rewrite lookup_insert. rewrite Ht in HT.
    destruct HT as [r0 HT]. destruct Hc as (_ & e & o & r1 & ev1 & _ & _ & Hans & Hw').
    assert (NoDup (fst <$> lins tr)) as Hnd0.
    { rewrite lins_app, fmap_app in Hnd. by apply NoDup_app in Hnd as [? _]. }
    assert ((r0, pend) = (r1, ev1)) as [= -> ->] by (by eapply answers_fun).
    destruct w'; cbn in Hw'; [destruct Hw' as [_ Hw']|destruct Hw' as (_ & _ & Hw')]; congruence.
  - injection Hstep as <- <-. destruct (Hquiet eq_refl eq_refl) as (-> & -> & ->). exists pend. split; [done|]. cbn [c_threads].
    destruct (decide (t = w)) as [->|Hne]; [|by rewrite lookup_insert_ne]. rewrite lookup_insert. by rewrite Ht in HT.
  - injection Hstep as <- <-. destruct (Hquiet eq_refl eq_refl) as (-> & -> & ->). exists pend. split; [done|]. cbn [set_thread c_threads].
    destruct (decide (t = w)) as [->|Hne]; [|by rewrite lookup_insert_ne]. rewrite lookup_insert. by rewrite Ht in HT.
  - injection Hstep as <- <-.
    assert (due cf s0 (tr ++ [LEv i ev]) = due cf s0 tr) as Hd by (unfold due; by rewrite lins_app, app_nil_r).
    destruct (decide (t = w)) as [->|Hne].
    + rewrite Ht in HT. subst pend. exists evs. rewrite heard_app, Hd, <- app_assoc. split; [done|].
      cbn [set_thread c_threads]. by rewrite lookup_insert.
    + exfalso. by destruct (proj2 (Hsil Hne) i ev).
Qed.

(** ** One thread at a time *)

Definition reader (progs : gmap nat (list call)) (w t : nat) : Prop := is_Some (progs !! t) /\ t <> w.

Record sinv (cf : config) (s0 : items) (progs : gmap nat (list call)) (w : nat) (s : hstate) (tr : list hev) : Prop := {
  si_reader : forall t, reader progs w t -> t ∉ h_in s;
  si_sub : forall t u, h_sub s !! t = Some u -> progs !! u = None;
  si_inj : forall t t' u, h_sub s !! t = Some u -> h_sub s !! t' = Some u -> t = t';
  si_tip : exists tip, pends cf s0 tip (flat tr) (h_c s) /\ ~ reader progs w tip /\
    forall t T, c_threads (h_c s) !! t = Some T -> ~ reader progs w t -> t <> tip -> T = TIdle [] \/ back s t = false;
}.

Lemma reader_dec progs w t : reader progs w t \/ ~ reader progs w t.
Proof.
  unfold reader. destruct (decide (t = w)) as [->|Hne]; [right; by intros [_ []]|]. destruct (progs !! t) as [p|]; [left; split; [by eexists|done]|right; intros [[? ?] _]; done].
Qed.

(** A thread in a handler has no events left. *)
Lemma in_handler cf s0 progs s tr t : hinv cf s0 progs s tr -> t ∈ h_in s -> exists id r todo, c_threads (h_c s) !! t = Some (TOut id [] r todo).
Proof.
  intros Hi Hin. destruct (hi_handler _ _ _ _ _ Hi _ Hin) as (id & evs & r & todo & ev & HT & Hev). exists id, r, todo. rewrite HT. do 2 f_equal.
  destruct (hinv_cinv _ _ _ _ _ Hi) as (progs' & _ & Hc & _). pose proof (ci_threads _ _ _ _ _ Hc t) as H. rewrite HT in H. destruct (progs' !! t) as [p|]; [|done].
  destruct H as (_ & _ & e & o & evd & Hs & _ & Ha). destruct (answers_call _ _ _ _ _ Ha) as (e1 & o1 & s1 & s2 & _ & Er). apply one_at_most in Er. cbn [snd] in Er.
  apply in_seen in Hev; [|done]. cbn [label_id] in Hev. rewrite Hs in Hev. destruct evd as [|x evd].
  - exfalso. apply elem_of_cons in Hev as [?|Hev]; [done|]. apply elem_of_cons in Hev as [?|Hev]; [done|]. by apply elem_of_nil in Hev.
  - rewrite app_length in Er. cbn [length] in Er. destruct evs; [done|]. cbn [length] in Er. lia.
Qed.

Lemma hinv_nodup cf s0 progs s tr : hinv cf s0 progs s tr -> NoDup (fst <$> lins (flat tr)).
Proof. intros [(progs' & sched & Hr & _ & Hok & _) _ _]. by eapply effects_once. Qed.

(** Reading threads bring about no events. *)
Lemma readers_silent cf s0 progs w s tr t l c' :
  (forall t p, progs !! t = Some p -> t <> w -> Forall (fun x => reading x.2) p) -> hinv cf s0 progs s tr -> reader progs w t -> cstep cf (h_c s) t = Some (l, c') ->
  (forall id e o x s' r ev, l = LLin id e o -> run_op cf e x o = (s', r, ev) -> ev = []) /\ forall id ev, l <> LEv id ev.
Proof.
  intros Hrd Hi [[p Hp] Hne] Hs. pose proof (hinv_nodup _ _ _ _ _ Hi) as Hnd. destruct (hinv_cinv _ _ _ _ _ Hi) as (progs' & Hsub & Hc & _). pose proof (ci_threads _ _ _ _ _ Hc t) as H.
  pose proof (lookup_weaken _ _ _ _ Hp Hsub) as Hp'. rewrite Hp' in H. destruct (c_threads (h_c s) !! t) as [T|] eqn:HT; [|done]. destruct H as [Hmade Hsh].
  assert (forall id e o, LInv id t e o ∈ flat tr -> reading o) as Hr.
  { intros id e o Hin. apply in_made in Hin. specialize (Hrd _ _ Hp Hne). rewrite <- Hmade in Hrd. apply Forall_app in Hrd as [Hrd _]. rewrite Forall_forall in Hrd. exact (Hrd _ Hin). }
  unfold cstep in Hs. rewrite HT in Hs. destruct T as [[|[e o] todo]|i e o todo|i w' p' todo|i evs r todo]; [done|..].
  - injection Hs as <- <-. split; [done|]. done.
  - destruct Hsh as (_ & Hseen & _). assert (reading o) as Ho by (apply (Hr i e), (ConcLemmas.seen_in i); rewrite Hseen; by left).
    assert (l = LLin i e o) as ->. { destruct (plan_of cf e o) as [[]|[] ?]; try case_bool_decide; try discriminate; by injection Hs as <- _. }
    split; [|done]. intros id e' o' x s' r ev E. injection E as <- <- <-. by apply reading_silent.
  - destruct p' as [[r ev]|upd next]; injection Hs as <- <-; done.
  - destruct evs as [|ev evs]; [by injection Hs as <- <-|]. exfalso. destruct Hsh as (_ & e & o & evd & Hseen & Hl & Ha).
    destruct (answers_call _ _ _ _ _ Ha) as (e1 & o1 & s1 & s2 & Hl1 & E1). cbn [fst snd] in E1.
    assert ((e, o) = (e1, o1)) as E.
    { apply elem_of_list_lookup in Hl as [n Hn]. apply elem_of_list_lookup in Hl1 as [m Hm].
      assert (n = m) as ->.
      { eapply (NoDup_lookup (fst <$> lins (flat tr)) n m i); [done|..]; rewrite list_lookup_fmap; [by rewrite Hn|by rewrite Hm]. }
      congruence. }
    injection E as <- <-. apply reading_silent in E1; [by destruct evd|]. apply (Hr i e), (ConcLemmas.seen_in i). rewrite Hseen. by left.
Qed.

Lemma flat_one tr l : flat (tr ++ [HE l]) = flat tr ++ [l].
Proof. by rewrite flat_app. Qed.

Lemma sinv_step cf s0 progs w s tr l s' ev :
  (forall t p, progs !! t = Some p -> t <> w -> Forall (fun x => reading x.2) p) ->
  hinv cf s0 progs s tr -> hinv cf s0 progs s' (tr ++ ev) -> sinv cf s0 progs w s tr -> hstep cf s l = Some (s', ev) -> sinv cf s0 progs w s' (tr ++ ev).
Proof.
  intros Hrd Hi Hi' [Hre Hsu Hin (tip & Hpe & Hnt & Htip)] Hs. destruct (hinv_cinv _ _ _ _ _ Hi) as (progs' & Hsub & Hc & _).
  destruct l as [t|t u e o]; cbn [hstep] in Hs.
  - destruct (back s t) eqn:Eb; [|done]. destruct (cstep cf (h_c s) t) as [[l c']|] eqn:Ec; [|done]. injection Hs as <- <-.
    pose proof (hinv_nodup _ _ _ _ _ Hi') as Hnd. rewrite flat_one in Hnd.
    assert (reader progs w t -> (forall id e o x s' r ev, l = LLin id e o -> run_op cf e x o = (s', r, ev) -> ev = []) /\ forall id ev, l <> LEv id ev) as Hsil by (intros Hr; exact (readers_silent _ _ _ _ _ _ _ _ _ Hrd Hi Hr Ec)).
    split; cbn [h_c h_in h_sub].
    + intros k Hk. destruct (decide (k = t)) as [->|Hne].
      * destruct l as [| | | |i ev|]; try (intros [_ []]%elem_of_difference; by apply elem_of_singleton). by destruct (proj2 (Hsil Hk) i ev).
      * specialize (Hre _ Hk). destruct l; try (intros [? _]%elem_of_difference; done). intros [?%elem_of_singleton|?]%elem_of_union; done.
    + intros k v Hk. apply lookup_delete_Some in Hk as [_ Hk]. by eapply Hsu.
    + intros k k' v Hk Hk'. apply lookup_delete_Some in Hk as [_ Hk]. apply lookup_delete_Some in Hk' as [_ Hk']. by eapply Hin.
    + rewrite flat_one. destruct (reader_dec progs w t) as [Hr|Hr].
      * (* one that reads *)
        exists tip. split; [eapply pends_step; [exact Hc|done|done|exact Ec|by intros _; apply Hsil]|]. split; [done|]. intros k K Hk Hnk Hne.
        assert (k <> t) as Hkt by (by intros ->). rewrite (cstep_threads _ _ _ _ _ _ Ec Hkt) in Hk. destruct (Htip _ _ Hk Hnk Hne) as [->|Hb]; [by left|right].
        unfold back in Hb |- *. cbn [h_sub h_c]. rewrite lookup_delete_ne by done. destruct (h_sub s !! k) as [v|] eqn:Ev; [|done].
        assert (v <> t) as Hvt. { intros ->. apply Hsu in Ev. destruct Hr as [[q Hq] _]. by rewrite Hq in Ev. } by rewrite (cstep_threads _ _ _ _ _ _ Ec Hvt).
      * (* the one whose turn it is *)
        assert (t = tip) as ->.
        { destruct (decide (t = tip)) as [->|Hne]; [done|]. destruct (cstep_self _ _ _ _ _ Ec) as [[T HT] _]. destruct (Htip _ _ HT Hr Hne) as [->|Hb]; [|congruence].
          unfold cstep in Ec. by rewrite HT in Ec. }
        assert (pends cf s0 tip (flat tr ++ [l]) c') as Hp' by (eapply pends_step; [exact Hc|done|done|exact Ec|done]).
        destruct (cstep_self _ _ _ _ _ Ec) as [_ [T' HT']].
        assert (T' = TIdle [] \/ T' <> TIdle []) as [->|HTne] by (destruct T' as [[]| | |]; by (left + right)).
        -- assert ((exists p, h_sub s !! p = Some tip) \/ (forall p, h_sub s !! p <> Some tip)) as [[p Hp]|Hno].
           { destruct (decide (map_Forall (fun _ v => v <> tip) (h_sub s))) as [H|H]; [right; intros p Hp; by apply (H _ _ Hp)|].
             left. apply map_not_Forall in H as (p & v & Hv & Hn); [|solve_decision]. exists p. destruct (decide (v = tip)) as [->|]; [done|by destruct Hn]. }
           ++ (* its caller goes on *)
              destruct (hi_waits _ _ _ _ _ Hi _ _ Hp) as (Hpin & Hlt & _). destruct (in_handler _ _ _ _ _ _ Hi Hpin) as (id & r & todo & HP).
              exists p. split; [|split].
              ** destruct Hp' as (pend & E & HT). rewrite HT' in HT. subst pend. exists []. split; [done|]. rewrite (cstep_threads _ _ _ _ _ _ Ec) by lia. by rewrite HP.
              ** intros Hrp. by apply (Hre _ Hrp).
              ** intros k K Hk Hnk Hne. destruct (decide (k = tip)) as [->|Hkt]; [left; rewrite HT' in Hk; by injection Hk as <-|].
                 rewrite (cstep_threads _ _ _ _ _ _ Ec Hkt) in Hk. destruct (Htip _ _ Hk Hnk Hkt) as [->|Hb]; [by left|right].
                 unfold back in Hb |- *. cbn [h_sub h_c]. rewrite lookup_delete_ne by done. destruct (h_sub s !! k) as [v|] eqn:Ev; [|done].
                 assert (v <> tip) as Hvt by (intros ->; apply Hne; by eapply Hin). by rewrite (cstep_threads _ _ _ _ _ _ Ec Hvt).
           ++ exists tip. split; [done|]. split; [done|]. intros k K Hk Hnk Hkt. rewrite (cstep_threads _ _ _ _ _ _ Ec Hkt) in Hk. destruct (Htip _ _ Hk Hnk Hkt) as [->|Hb]; [by left|right].
              unfold back in Hb |- *. cbn [h_sub h_c]. rewrite lookup_delete_ne by done. destruct (h_sub s !! k) as [v|] eqn:Ev; [|done].
              assert (v <> tip) as Hvt by (intros ->; by apply (Hno k)). by rewrite (cstep_threads _ _ _ _ _ _ Ec Hvt).
        -- exists tip. split; [done|]. split; [done|]. intros k K Hk Hnk Hkt. rewrite (cstep_threads _ _ _ _ _ _ Ec Hkt) in Hk. destruct (Htip _ _ Hk Hnk Hkt) as [->|Hb]; [by left|right].
           unfold back in Hb |- *. cbn [h_sub h_c]. rewrite lookup_delete_ne by done. destruct (h_sub s !! k) as [v|] eqn:Ev; [|done].
           destruct (decide (v = tip)) as [->|Hvt]; [|by rewrite (cstep_threads _ _ _ _ _ _ Ec Hvt)]. rewrite HT'. destruct T' as [[]| | |]; done.
  - destruct (bool_decide (t ∈ h_in s)) eqn:E1; [|done]. destruct (back s t) eqn:Eb; [|done]. cbn [andb] in Hs. case_bool_decide as E2; [|done]. injection Hs as <- <-.
    apply bool_decide_eq_true in E1. pose proof (fresh_above _ _ E2) as Hu.
    assert (progs !! u = None) as Hpu.
    { pose proof (ci_threads _ _ _ _ _ Hc u) as H. rewrite Hu in H. destruct (progs' !! u) eqn:E; [done|]. by eapply lookup_weaken_None. }
    assert (forall k v, h_sub s !! k = Some v -> v <> u) as Hold. { intros k v Hk ->. destruct (hi_waits _ _ _ _ _ Hi _ _ Hk) as (_ & _ & [? ?]). congruence. }
    destruct (in_handler _ _ _ _ _ _ Hi E1) as (id & r & todo & HT).
    assert (~ reader progs w t) as Hnr by (intros Hr; by apply (Hre _ Hr)).
    assert (t = tip) as ->. { destruct (decide (t = tip)) as [->|Hne]; [done|]. destruct (Htip _ _ HT Hnr Hne) as [?|?]; congruence. }
    split; cbn [h_c h_in h_sub].
    + done.
    + intros k v Hk. apply lookup_insert_Some in Hk as [[_ <-]|[_ Hk]]; [done|by eapply Hsu].
    + intros k k' v Hk Hk'. apply lookup_insert_Some in Hk as [[<- <-]|[_ Hk]]; apply lookup_insert_Some in Hk' as [[<- E]|[_ Hk']]; [done| | |by eapply Hin].
      * by apply Hold in Hk'.
      * subst v. by apply Hold in Hk.
    + exists u. rewrite flat_app. cbn [flat omap list_omap]. rewrite app_nil_r. split; [|split].
      * destruct Hpe as (pend & E & HP). rewrite HT in HP. subst pend. exists []. split; [done|]. unfold set_thread. cbn [c_threads]. by rewrite lookup_insert.
      * intros [[? ?] _]. congruence.
      * unfold set_thread. cbn [c_threads]. intros k K Hk Hnk Hku. rewrite lookup_insert_ne in Hk by done. destruct (decide (k = tip)) as [->|Hkt].
        -- right. unfold back. cbn [h_sub h_c]. rewrite lookup_insert. unfold set_thread. cbn [c_threads]. by rewrite lookup_insert.
        -- destruct (Htip _ _ Hk Hnk Hkt) as [->|Hb]; [by left|right]. unfold back in Hb |- *. cbn [h_sub h_c]. rewrite lookup_insert_ne by done. destruct (h_sub s !! k) as [v|] eqn:Ev; [|done].
           unfold set_thread. cbn [c_threads]. rewrite lookup_insert_ne; [done|]. intros <-. by apply (Hold _ _ Ev).
Qed.

Lemma heard_in_order cf s0 progs w ls s tr : progs_ok progs -> calls_ok ls ->
  (forall t p, progs !! t = Some p -> t <> w -> Forall (fun x => reading x.2) p) ->
  hrun cf (hinit s0 progs) ls = Some (s, tr) -> heard (flat tr) `prefix_of` due cf s0 (flat tr).
Proof.
  intros Hok Hl Hrd Hr. assert (sinv cf s0 progs w s tr) as H.
  { revert s tr Hl Hr. induction ls as [|l ls IH] using rev_ind; intros s tr Hl Hr.
    - injection Hr as <- <-. split; cbn; [set_solver|done|done|]. exists w. split; [|split].
      + exists []. split; [done|]. cbn. rewrite lookup_fmap. by destruct (progs !! w).
      + by intros [_ []].
      + intros t T Ht Hnr Hne. exfalso. rewrite lookup_fmap in Ht. destruct (progs !! t) eqn:E; [|done]. apply Hnr. split; [by eexists|done].
    - pose proof (hinv_run _ _ _ _ _ _ Hok Hl Hr) as Hi'. apply Forall_app in Hl as [Hl _]. apply run_snoc in Hr as (s1 & e1 & e2 & Hr & Hs & ->).
      eapply sinv_step; [exact Hrd|by eapply hinv_run|exact Hi'|by apply IH|exact Hs]. }
  destruct H as [_ _ _ (tip & (pend & E & _) & _)]. exists pend. by symmetry.
Qed.
