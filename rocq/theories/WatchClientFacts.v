(** Facts about watches and the clients they watch. *)
From Coq Require Import ZArith NArith String Lia.
From stdpp Require Import base gmap strings list.
From Verif Require Import GoBase Encoding Records Messages Run Keepalive Client Discovery WatchClient.
From Verif Require ClientFacts ClientClose.

Local Open Scope list_scope.

(** * The kinds of step *)

(** Steps of the discovery that have no part in a client. *)
Definition apart (s : jstate) (l : dlabel) : Prop :=
  match l with
  | LWatch _ | LActNow _ | LActStore _ _ => False
  | LWStart w => j_reg s !! w = None
  | LWEnd w => j_close s !! w = Some true
  | _ => True
  end.

(** Steps of a client that have no part in a watch, or call no handler of
    one. *)
Definition plain (s : jstate) (j : nat) (l : clabel) (ev : list cev) : Prop :=
  match l with
  | LReg _ n => Nat.odd n = true
  | LLRun i => j_in s !! (j, i) = None /\ watch_called ev = None
  | _ => True
  end.

Inductive jmove (infos : nat -> info) (s : jstate) : jlabel -> jstate -> list jev -> Prop :=
  | m_d l d ev : apart s l -> dstep (j_d s) l = Some (d, ev) ->
      jmove infos s (JD l) (js_d d s) (JED <$> ev)
  | m_none j c d ev : j < length (j_cl s) -> dstep (j_d s) (LWatch c) = Some (d, ev) -> length (d_watches d) = length (d_watches (j_d s)) ->
      jmove infos s (JNew j c) (js_d d s) (JED <$> ev)
  | m_new j c d ev : j < length (j_cl s) -> dstep (j_d s) (LWatch c) = Some (d, ev) -> length (d_watches d) <> length (d_watches (j_d s)) ->
      jmove infos s (JNew j c)
        (JState d (j_cl s) (j_of s ++ [j]) (<[length (d_watches (j_d s)) := 1]> (j_reg s)) (j_in s) (j_by s) (j_close s)) (JED <$> ev)
  | m_reg w n j c c' ev : j_reg s !! w = Some n -> j_of s !! w = Some j -> j_cl s !! j = Some c ->
      cstep (infos j) c (LReg (match n with O => OnRec | S _ => OnHb end) (2 * w)) = Some (c', ev) ->
      jmove infos s (JReg w)
        (JState (j_d s) (<[j := c']> (j_cl s)) (j_of s) (match n with O => delete w (j_reg s) | S n' => <[w := n']> (j_reg s) end)
           (j_in s) (j_by s) (j_close s)) (JEC j <$> ev)
  | m_c j l c c' ev : plain s j l ev -> j_cl s !! j = Some c -> cstep (infos j) c l = Some (c', ev) ->
      jmove infos s (JC j l) (after_c s j c' ev) (JEC j <$> ev)
  | m_call j i c c' h x w d ev : j_in s !! (j, i) = None -> j_cl s !! j = Some c -> cstep (infos j) c (LLRun i) = Some (c', [CCall h (User (2 * w)) x]) ->
      dstep (j_d s) (LActNow w) = Some (d, ev) ->
      jmove infos s (JC j (LLRun i))
        (JState d (<[j := c']> (j_cl s)) (j_of s) (j_reg s) (<[(j, i) := (w, d_now d)]> (j_in s)) (j_by s) (j_close s))
        [JEC j (CCall h (User (2 * w)) x); JNow w j i (d_now d) x]
  | m_store j i w ts y k d ev : j_in s !! (j, i) = Some (w, ts) -> d_watches (j_d s) !! w = Some y -> wt_pend y !! k = Some ts ->
      dstep (j_d s) (LActStore w k) = Some (d, ev) ->
      jmove infos s (JStore j i) (JState d (j_cl s) (j_of s) (j_reg s) (delete (j, i) (j_in s)) (j_by s) (j_close s)) (JED <$> ev)
  | m_close w y j c c' ev : d_watches (j_d s) !! w = Some y -> j_close s !! w = None -> j_of s !! w = Some j -> wt_pc y = WClosing ->
      j_cl s !! j = Some c -> cstep (infos j) c LCloseBegin = Some (c', ev) ->
      jmove infos s (JClose w)
        (JState (j_d s) (<[j := c']> (j_cl s)) (j_of s) (j_reg s) (j_in s) (<[j := w]> (j_by s)) (<[w := false]> (j_close s))) (JEC j <$> ev).

Lemma reg_events c s k n s' ev : cstep c s (LReg k n) = Some (s', ev) -> ev = [CReg k (User n)] /\ s' = register k (User n) s.
Proof. unfold cstep. destruct (c_crashed s); [done|]. destruct (unlocked s); [|done]. intros [= <- <-]. done. Qed.
Lemma begin_events c s s' ev : cstep c s LCloseBegin = Some (s', ev) -> c_close s = ClNone /\
  (ev = [CCloseCall] /\ c_done s = false /\ c_close s' = ClBegun /\ c_crashed s' = false \/ ev = [CCloseCall; CPanic] /\ c_done s = true /\ c_crashed s' = true).
Proof.
  unfold cstep. destruct (c_crashed s); [done|]. unfold unlocked. destruct (c_close s); try done.
  destruct (c_done s); intros [= <- <-]; (split; [done|]); [right|left]; done.
Qed.
Lemma run_events c s i s' ev : cstep c s (LLRun i) = Some (s', ev) -> existsb is_closed ev = false /\
  (ev = [] \/ exists h x, ev = [CCall i h x]).
Proof.
  unfold cstep. destruct (c_crashed s); [done|]. destruct (c_listeners s !! i) as [l|]; [|done].
  unfold listener_step. destruct (l_pc l) as [|m|x|x [|h hs]| |]; try done; intros [= <- <-]; (split; [done|]); [by left|right; eauto].
Qed.

Lemma watch_called_some ev w x : watch_called ev = Some (w, x) -> exists h, ev = [CCall h (User (2 * w)) x].
Proof.
  unfold watch_called. destruct ev as [|[| | | | |h [n|f] y| | | | | | |] [|]]; try done.
  destruct (Nat.even n) eqn:E; [|done]. intros [= <- <-]. exists h. do 3 f_equal.
  apply Nat.even_spec in E as [m ->]. rewrite Nat.div2_double. done.
Qed.

Lemma jstep_moves infos s lb s' ev : jstep infos s lb = Some (s', ev) -> j_crashed s = false /\ jmove infos s lb s' ev.
Proof.
  unfold jstep. destruct (j_crashed s) eqn:Ec; [done|]. intros Hs. split; [done|]. destruct lb as [l|j l|j c|w|j i|w].
  - assert (apart s l /\ lift_d s l = Some (s', ev)) as [Ha Hl].
    { destruct l; try done; cbn [apart]; [|by destruct (j_close s !! w) as [[]|]]. by destruct (j_reg s !! w). }
    unfold lift_d in Hl. destruct (dstep (j_d s) l) as [[d ev0]|] eqn:Ed; [|done]. injection Hl as <- <-. by constructor.
  - assert ((exists i, l = LLRun i) \/ (forall e, plain s j l e) /\ lift_c infos s j l = Some (s', ev)) as [[i ->]|[Hp Hl]].
    { destruct l; try (right; done); [|left; eauto]. right. cbn [plain]. by destruct (Nat.odd n). }
    + destruct (j_in s !! (j, i)) eqn:Ei; [done|]. destruct (j_cl s !! j) as [c|] eqn:Ej; [|done].
      destruct (cstep (infos j) c (LLRun i)) as [[c' ev0]|] eqn:Es; [|done].
      unfold lift_c in Hs. rewrite Ej, Es in Hs. destruct (watch_called ev0) as [[w x]|] eqn:Ew.
      * destruct (watch_called_some _ _ _ Ew) as [h ->]. cbn [after_c j_d existsb is_closed orb] in Hs.
        destruct (dstep (j_d s) (LActNow w)) as [[d ev1]|] eqn:Ed; [|done]. injection Hs as <- <-. by eapply m_call.
      * injection Hs as <- <-. apply (m_c infos s j (LLRun i) c); try done.
    + unfold lift_c in Hl. destruct (j_cl s !! j) as [c|] eqn:Ej; [|done]. destruct (cstep (infos j) c l) as [[c' ev0]|] eqn:Es; [|done].
      injection Hl as <- <-. apply (m_c infos s j l c); done.
  - destruct (decide (j < length (j_cl s))); [|done]. destruct (dstep (j_d s) (LWatch c)) as [[d ev0]|] eqn:Ed; [|done].
    injection Hs as <- <-. destruct (decide (length (d_watches d) = length (d_watches (j_d s)))); [by eapply m_none|by eapply m_new].
  - destruct (j_reg s !! w) as [n|] eqn:Er; [|done]. destruct (j_of s !! w) as [j|] eqn:Eo; [|done]. unfold lift_c in Hs.
    destruct (j_cl s !! j) as [c|] eqn:Ej; [|done].
    destruct (cstep (infos j) c _) as [[c' ev0]|] eqn:Es; [|done]. destruct (reg_events _ _ _ _ _ _ Es) as [E _].
    injection Hs as <- <-. rewrite E. unfold after_c. cbn [existsb is_closed orb j_d j_cl j_of j_reg j_in j_by j_close].
    rewrite <- E. by eapply m_reg.
  - destruct (j_in s !! (j, i)) as [[w ts]|] eqn:Ei; [|done]. destruct (d_watches (j_d s) !! w) as [y|] eqn:Ey; [|done].
    destruct (list_find _ (wt_pend y)) as [[k t]|] eqn:Ef; [|done]. apply list_find_Some in Ef as (Hk & -> & _).
    destruct (dstep (j_d s) (LActStore w k)) as [[d ev0]|] eqn:Ed; [|done]. injection Hs as <- <-. by eapply m_store.
  - destruct (d_watches (j_d s) !! w) as [y|] eqn:Ey; [|done]. destruct (j_close s !! w) eqn:Ecl; [done|].
    destruct (j_of s !! w) as [j|] eqn:Eo; [|done]. destruct (wt_pc y) eqn:Ep; try done. unfold lift_c in Hs.
    destruct (j_cl s !! j) as [c|] eqn:Ej; [|done]. destruct (cstep (infos j) c LCloseBegin) as [[c' ev0]|] eqn:Es; [|done].
    destruct (begin_events _ _ _ _ Es) as [_ Hev]. injection Hs as <- <-.
    assert (existsb is_closed ev0 = false) as Eb by (destruct Hev as [[-> _]|[-> _]]; done).
    unfold after_c. rewrite Eb. cbn [j_d j_cl j_of j_reg j_in j_by j_close]. by eapply m_close.
Qed.

(** * Projections *)

Lemma devs_app a b : devs (a ++ b) = devs a ++ devs b.
Proof. apply omap_app. Qed.
Lemma cevs_app j a b : cevs j (a ++ b) = cevs j a ++ cevs j b.
Proof. apply omap_app. Qed.
Lemma devs_d ev : devs (JED <$> ev) = ev.
Proof. induction ev as [|e ev IH]; [done|]. cbn. by f_equal. Qed.
Lemma devs_c j ev : devs (JEC j <$> ev) = [].
Proof. induction ev as [|e ev IH]; [done|]. cbn. exact IH. Qed.
Lemma cevs_d j ev : cevs j (JED <$> ev) = [].
Proof. induction ev as [|e ev IH]; [done|]. cbn. exact IH. Qed.
Lemma cevs_c j k ev : cevs j (JEC k <$> ev) = if decide (k = j) then ev else [].
Proof.
  induction ev as [|e ev IH]; [by destruct (decide _)|]. cbn. unfold cevs in IH. rewrite IH.
  destruct (decide (k = j)); [by rewrite bool_decide_eq_true_2|by rewrite bool_decide_eq_false_2].
Qed.

(** The step as a step of the discovery or nothing, and of one client or
    nothing. *)
Definition d_sub (d d' : dstate) (ev : list dev) : Prop := (d' = d /\ ev = []) \/ exists l, dstep d l = Some (d', ev).
Definition c_sub (i : info) (c c' : cstate) (ev : list cev) : Prop := (c' = c /\ ev = []) \/ exists l, cstep i c l = Some (c', ev).

Lemma actnow_ev d w d' ev : dstep d (LActNow w) = Some (d', ev) -> ev = [].
Proof.
  unfold dstep. destruct (d_crashed d); [done|]. destruct (d_watches d !! w) as [x|]; [|done]. unfold watch_step.
  destruct (wt_pc x); intros [= <- <-]; done.
Qed.

Lemma insert_sub (infos : nat -> info) (cl : list cstate) j c c' l ev k ck : cl !! j = Some c -> cstep (infos j) c l = Some (c', ev) -> cl !! k = Some ck ->
  exists ck', <[j := c']> cl !! k = Some ck' /\ c_sub (infos k) ck ck' (if decide (j = k) then ev else []).
Proof.
  intros Hj Hs Hk. destruct (decide (j = k)) as [->|Hne].
  - rewrite Hj in Hk. injection Hk as <-. exists c'. split; [apply list_lookup_insert; by eapply lookup_lt_Some|]. right. eauto.
  - exists ck. split; [by rewrite list_lookup_insert_ne|]. by left.
Qed.

Lemma sub_step infos s lb s' ev : jstep infos s lb = Some (s', ev) ->
  d_sub (j_d s) (j_d s') (devs ev) /\ length (j_cl s') = length (j_cl s) /\
  forall k c, j_cl s !! k = Some c -> exists c', j_cl s' !! k = Some c' /\ c_sub (infos k) c c' (cevs k ev).
Proof.
  intros Hs. destruct (jstep_moves _ _ _ _ _ Hs) as [_ Hm]. destruct Hm.
  all: unfold js_d, after_c; cbn [j_d j_cl].
  all: rewrite ?devs_d, ?devs_c, ?insert_length.
  1-3,7: (split; [right; eauto|split; [done|]]; intros k0 ck Hk; exists ck; split; [done|left; split; [done|]; apply cevs_d]).
  - split; [by left|]. split; [done|]. intros k0 ck Hk. rewrite cevs_c. by eapply insert_sub.
  - split; [by left|]. split; [done|]. intros k0 ck Hk. rewrite cevs_c. by eapply insert_sub.
  - pose proof (actnow_ev _ _ _ _ H2) as ->. split; [right; eauto|]. split; [done|]. intros k0 ck Hk.
    destruct (insert_sub infos (j_cl s) j c c' _ _ k0 ck H0 H1 Hk) as (ck' & H3 & H4). exists ck'. split; [done|].
    replace (cevs k0 _) with (if decide (j = k0) then [CCall h (User (2 * w)) x] else []); [exact H4|].
    unfold cevs. cbn. destruct (decide (j = k0)); [by rewrite bool_decide_eq_true_2|by rewrite bool_decide_eq_false_2].
  - split; [by left|]. split; [done|]. intros k0 ck Hk. rewrite cevs_c. by eapply insert_sub.
Qed.

Lemma project_from infos s ls s' tr : jrun infos s ls = Some (s', tr) ->
  (exists lsd, drun (j_d s) lsd = Some (j_d s', devs tr)) /\ length (j_cl s') = length (j_cl s) /\
  forall k c, j_cl s !! k = Some c -> exists c' lsc, j_cl s' !! k = Some c' /\ crun (infos k) c lsc = Some (c', cevs k tr).
Proof.
  revert s tr. induction ls as [|l ls IH]; intros s tr Hr; cbn [run] in Hr.
  - injection Hr as <- <-. split; [by exists []|]. split; [done|]. intros k c Hk. exists c, []. done.
  - destruct (jstep infos s l) as [[s1 ev1]|] eqn:Es; [|done]. destruct (run (jstep infos) s1 ls) as [[s2 ev2]|] eqn:Er; [|done].
    injection Hr as <- <-. destruct (sub_step _ _ _ _ _ Es) as (Hd & Hlen & Hc). destruct (IH _ _ Er) as ((lsd & Hd2) & Hlen2 & Hc2).
    split; [|split; [congruence|]].
    + rewrite devs_app. destruct Hd as [[E1 E2]|[l0 Hl0]].
      * exists lsd. rewrite E2. by rewrite <- E1.
      * exists (l0 :: lsd). cbn [run]. by rewrite Hl0, Hd2.
    + intros k c Hk. destruct (Hc k c Hk) as (c1 & Hk1 & Hsub). destruct (Hc2 k c1 Hk1) as (c2 & lsc & Hk2 & Hrc). exists c2.
      rewrite cevs_app. destruct Hsub as [[E1 E2]|[l0 Hl0]].
      * exists lsc. rewrite E2. split; [done|]. by rewrite <- E1.
      * exists (l0 :: lsc). split; [done|]. cbn [run]. by rewrite Hl0, Hrc.
Qed.

Lemma project infos n now ls s tr : jrun infos (j_init n now) ls = Some (s, tr) ->
  (exists lsd, drun (d_init now) lsd = Some (j_d s, devs tr)) /\ length (j_cl s) = n /\
  forall k c, j_cl s !! k = Some c -> exists lsc, crun (infos k) c_init lsc = Some (c, cevs k tr).
Proof.
  intros Hr. destruct (project_from _ _ _ _ _ Hr) as (Hd & Hlen & Hc). cbn [j_init j_d j_cl] in *. rewrite replicate_length in Hlen.
  split; [exact Hd|]. split; [done|]. intros k c Hk. assert (k < n) as Hlt by (rewrite <- Hlen; by eapply lookup_lt_Some).
  destruct (Hc k c_init) as (c' & lsc & Hk' & Hrc); [by apply lookup_replicate_2|]. rewrite Hk in Hk'. injection Hk' as <-. eauto.
Qed.
