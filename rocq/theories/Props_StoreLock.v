(** Index functions that call the store that called them: C119.  The vocabulary is
    at the top of StoreLockFacts.v. *)
From Coq Require Import ZArith NArith Ascii String Lia.
From stdpp Require Import base gmap strings list.
From Verif Require Import GoBase Encoding Records Env SyncMap Tokens Cache Run RegistryConcFacts StoreLock StoreLockFacts.

Local Open Scope list_scope.

(** ** C119 *)

Lemma two_calls n ls s ev g o o' os : krun (k_start n) ls = Some (s, ev) -> g < n -> within g ev (o :: o' :: os) ->
  kinv s /\ exists f r rest, k_g s !! g = Some (f :: r :: rest) /\ o = frame_op f /\ o' = frame_op r /\ os = frame_op <$> rest.
Proof.
  intros Hr Hg Hw. split; [eapply kinv_run; [apply (kinv_start n)|exact Hr]|]. destruct (within_stack _ _ _ _ _ _ Hr Hg Hw) as (fs & Hs & E).
  destruct fs as [|f [|r rest]]; try done. injection E as -> -> ->. by exists f, r, rest.
Qed.

(** The outer call is one that changes, the inner one anything. *)
Lemma above_write s g f r rest : kinv s -> k_g s !! g = Some (f :: r :: rest) -> locks_writing (frame_op r) = true -> (exists o, r = KWrite o) /\ holds_lock f = false.
Proof.
  intros HI Hg Hw. destruct (kstack s g _ HI Hg) as (A & B & _). cbn [tail] in B. apply Forall_cons in A as [_ A]. apply Forall_cons in A as [A _]. apply Forall_cons in B as [B _].
  destruct r as [o|o|o|o|o]; try done; [cbn in A, Hw; by rewrite Hw in A|]. split; [by exists o|].
  destruct HI as (_ & HB & HC & HD). pose proof (total_le reads s g _ Hg) as Lr. pose proof (total_le writes s g _ Hg) as Lw. pose proof (total_le turns s g _ Hg) as Lt. rewrite !total_cons in *.
  destruct f; try done; cbn [reads writes turns] in *; [assert (k_readers s = 0) by (apply HD; lia); lia|destruct (k_busy s); lia].
Qed.

Lemma write_above s g f r rest : kinv s -> k_g s !! g = Some (f :: r :: rest) -> locks_writing (frame_op f) = true -> holds_lock f = false.
Proof.
  intros HI Hg Hw. destruct (kstack s g _ HI Hg) as (A & _). apply Forall_cons in A as [A _]. destruct f as [o|o|o|o|o]; try done; [cbn in A, Hw; by rewrite Hw in A|].
  destruct (inside_holds _ _ _ _ _ HI Hg) as [H1 H2]. destruct HI as (_ & HB & HC & HD). pose proof (total_le reads s g _ Hg) as Lr. pose proof (total_le writes s g _ Hg) as Lw. pose proof (total_le turns s g _ Hg) as Lt.
  rewrite !total_cons in *. cbn [reads writes turns] in *. assert (k_readers s = 0) by (apply HD; lia). destruct (k_busy s); lia.
Qed.

(** An index function called by Add, Update, Delete, Replace or Accumulate that
    calls its store, whatever the call: from then on no call on the store returns
    to anyone. *)
Theorem C119_in_change n ls s ev g o o' os : krun (k_start n) ls = Some (s, ev) -> g < n -> within g ev (o :: o' :: os) -> changes o' ->
  never_returns s (fun _ _ => True).
Proof.
  intros Hr Hg Hw Hc ls2 s2 ev2 g2 o2 H2 _. destruct (two_calls _ _ _ _ _ _ _ _ Hr Hg Hw) as (HI & f & r & rest & Hs & -> & -> & ->). apply changes_writing in Hc.
  destruct (above_write _ _ _ _ _ HI Hs Hc) as [Hk Hf]. by apply (dead_krun _ _ _ _ _ _ _ _ HI Hs Hf H2).
Qed.

(** One called by Index that changes its store: neither it nor Index returns, nor
    does any call that changes the store; and it can be that no call at all made
    from then on returns. *)
Theorem C119_change_in n ls s ev g o o' os : krun (k_start n) ls = Some (s, ev) -> g < n -> within g ev (o :: o' :: os) -> changes o ->
  never_returns s (fun g' o2 => g' = g \/ changes o2) /\
  exists ls' s', krun s ls' = Some (s', []) /\ forall g', g' < n -> within g' ev [] -> never_returns s' (fun g2 _ => g2 = g').
Proof.
  intros Hr Hg Hw Hc. destruct (two_calls _ _ _ _ _ _ _ _ Hr Hg Hw) as (HI & f & r & rest & Hs & -> & -> & ->). apply changes_writing in Hc. pose proof (write_above _ _ _ _ _ HI Hs Hc) as Hf. split.
  - intros ls2 s2 ev2 g2 o2 H2 HP Hin. destruct (dead_krun _ _ _ _ _ _ _ _ HI Hs Hf H2) as (_ & _ & A & B & _). destruct HP as [->|HP]; [by apply (A o2)|].
    apply B in Hin. apply changes_writing in HP. by rewrite HP in Hin.
  - assert (exists ls' s', krun s ls' = Some (s', []) /\ k_busy s' = true /\ forall g', k_g s !! g' = Some [] -> k_g s' !! g' = Some []) as (ls' & s' & H' & Hb & Hsame).
    { destruct (k_busy s) eqn:Eb; [by exists [], s|]. destruct (kstack s g _ HI Hs) as (A & _ & C). apply Forall_cons in A as [A _]. destruct f as [o|o|o|o|o]; try done; [congruence|..].
      - exists [KTake g], (KState true (k_readers s) (<[g := KDrain o :: r :: rest]> (k_g s))). split; [|split; [done|]].
        + unfold krun. rewrite run_one. unfold kstep. by rewrite Hs, Eb.
        + intros g' Hg'. cbn [k_g]. rewrite list_lookup_insert_ne; [done|]. intros ->. by rewrite Hs in Hg'.
      - destruct HI as (_ & _ & HC & _). pose proof (total_le turns s g _ Hs) as Lt. rewrite total_cons in Lt. cbn [turns] in Lt. rewrite Eb in HC. lia. }
    exists ls', s'. split; [done|]. intros g' Hg' Hw' ls2 s2 ev2 g2 o2 H2 ->. destruct (dead_krun _ _ _ _ _ _ _ _ HI Hs Hf H') as ((f' & Hs' & Hf') & _).
    destruct (within_stack _ _ _ _ _ _ Hr Hg' Hw') as (fs & Hfs & E). destruct fs; [|done].
    eapply (late_calls s' ls2 s2 ev2 g f' r rest g'); [by eapply kinv_run|done|done|done|by apply Hsame|done].
Qed.

(** One called by Index that reads its store: the call returns at once or never,
    and it returns if no call that changes the store is under way. *)
Theorem C119_read_in n ls s ev g o o' os : krun (k_start n) ls = Some (s, ev) -> g < n -> within g ev (o :: o' :: os) -> ~ changes o -> ~ changes o' ->
  ((exists s', krun s [KEnd g] = Some (s', [KReturned g o])) \/ never_returns s (fun g' o2 => g' = g \/ changes o2)) /\
  ((forall g' os', g' < n -> within g' ev os' -> Forall (fun o => ~ changes o) os') -> exists s', krun s [KEnd g] = Some (s', [KReturned g o])).
Proof.
  intros Hr Hg Hw Hc Hc'. destruct (two_calls _ _ _ _ _ _ _ _ Hr Hg Hw) as (HI & f & r & rest & Hs & -> & -> & ->). apply changes_not in Hc.
  assert (never_returns s (fun g' o2 => g' = g \/ changes o2) \/ exists o, f = KRead o) as Hor.
  { destruct (holds_lock f) eqn:Hf.
    - right. destruct (kstack s g _ HI Hs) as (A & _). apply Forall_cons in A as [A _]. destruct f as [o|o|o|o|o]; try done; [by exists o|]. cbn in A, Hc. by rewrite Hc in A.
    - left. intros ls2 s2 ev2 g2 o2 H2 HP Hin. destruct (dead_krun _ _ _ _ _ _ _ _ HI Hs Hf H2) as (_ & _ & A & B & _). destruct HP as [->|HP]; [by apply (A o2)|].
      apply B in Hin. apply changes_writing in HP. by rewrite HP in Hin. }
  assert (forall o, f = KRead o -> exists s', krun s [KEnd g] = Some (s', [KReturned g (frame_op f)])) as Hend.
  { intros o ->. eexists. unfold krun. rewrite run_one. unfold kstep. rewrite Hs. reflexivity. }
  split; [destruct Hor as [H|[o H]]; [by right|left; by eapply Hend]|].
  intros Hall. destruct (kstack s g _ HI Hs) as (A & _ & C). apply Forall_cons in A as [A _]. destruct f as [o|o|o|o|o]; try (cbn in A, Hc; congruence); [|by eapply Hend].
  exfalso. destruct HI as (HA & _ & HC & _). rewrite C in HC. assert (0 < sum_list (total turns <$> k_g s)) as Hp by lia. apply sum_positive in Hp as (q & Hq & Hcq).
  apply elem_of_list_lookup in Hq as [g1 H1]. pose proof (Forall_lookup_1 _ _ _ _ HA H1) as (A1 & _).
  assert (g1 < n) as Hlt by (rewrite <- (klength _ _ _ _ Hr); by eapply lookup_lt_Some).
  specialize (Hall g1 _ Hlt (knested _ _ _ _ _ _ Hr H1)).
  clear -Hcq Hall A1. induction q as [|f q IH]; [cbn in Hcq; lia|]. rewrite total_cons in Hcq. rewrite fmap_cons in Hall. apply Forall_cons in Hall as [Ha Hall]. apply Forall_cons in A1 as [Af A1].
  apply changes_not in Ha. destruct f as [o|o|o|o|o]; cbn [turns frame_op] in *; cbn in Af; try congruence; apply IH; first [lia|done].
Qed.

(** When nothing goes on although someone is in a call, an index function is in a
    call on its store. *)
Theorem C119_stuck_only n ls s ev g o os : krun (k_start n) ls = Some (s, ev) -> g < n -> within g ev (o :: os) ->
  (forall l, goes_on l = true -> kstep s l = None) ->
  exists g' o1 o2 os', g' < n /\ within g' ev (o1 :: o2 :: os').
Proof.
  intros Hr Hg Hw Hst. destruct (within_stack _ _ _ _ _ _ Hr Hg Hw) as (fs & Hs & E). destruct fs as [|f fs]; [done|].
  destruct (kstuck s) as (g' & f1 & r & rest & H1 & _); [eapply kinv_run; [apply (kinv_start n)|exact Hr]|done|by exists g, f, fs|].
  exists g', (frame_op f1), (frame_op r), (frame_op <$> rest). split; [rewrite <- (klength _ _ _ _ Hr); by eapply lookup_lt_Some|].
  exact (knested _ _ _ _ _ _ Hr H1).
Qed.

(** Otherwise all calls return: at most four steps each are left. *)
Theorem C119_returns n ls s ev : krun (k_start n) ls = Some (s, ev) -> (forall g os, g < n -> within g ev os -> length os <= 1) ->
  forall ls' s' ev', Forall (fun l => goes_on l = true) ls' -> krun s ls' = Some (s', ev') ->
    length ls' <= 4 * n /\ ((forall l, goes_on l = true -> kstep s' l = None) -> forall g, g < n -> within g (ev ++ ev') []).
Proof.
  intros Hr Hall ls' s' ev' HF Hr'. assert (kinv s) as HI by (eapply kinv_run; [apply (kinv_start n)|exact Hr]).
  assert (shallow s) as Hsh.
  { intros g fs Hg. specialize (Hall g (frame_op <$> fs)). rewrite fmap_length in Hall. apply Hall; [rewrite <- (klength _ _ _ _ Hr); by eapply lookup_lt_Some|by eapply knested]. }
  destruct (kreturns _ _ _ _ HI Hsh HF Hr') as [Hle Hsh']. split.
  - assert (sum_list (total kcost <$> k_g s) <= 4 * length (k_g s)) as Hb; [|rewrite (klength _ _ _ _ Hr) in Hb; lia].
    assert (Forall (fun fs => total kcost fs <= 4) (k_g s)) as HFs.
    { apply Forall_lookup. intros g fs Hg. pose proof (Hsh _ _ Hg). destruct fs as [|f [|f2 fs]]; [cbn; lia| |cbn in *; lia]. destruct f; cbn; lia. }
    clear -HFs. induction HFs as [|fs l H HF IH]; [cbn; lia|]. rewrite fmap_cons. cbn [sum_list length] in *. cbn. unfold sum_list in *. lia.
  - intros Hst g Hg. assert (krun (k_start n) (ls ++ ls') = Some (s', ev ++ ev')) as Hra by (unfold krun in *; by rewrite run_app, Hr, Hr').
    destruct (k_g s' !! g) as [fs|] eqn:Es; [|apply lookup_ge_None in Es; rewrite (klength _ _ _ _ Hra) in Es; lia].
    pose proof (knested _ _ _ _ _ _ Hra Es) as Hn. destruct fs as [|f fs]; [done|]. exfalso.
    destruct (kstuck s') as (g' & f1 & r & rest & H1 & _); [by eapply kinv_run|done|by exists g, f, fs|]. specialize (Hsh' _ _ H1). cbn in Hsh'. lia.
Qed.

(** That index functions may call their store is false: *)
Definition ex_store_get (o : op) : list klabel := [KCall 0 (OReplace []); KTake 0; KEnter 0; KCall 0 o].
Theorem C119_refuted_change o : exists s ev, krun (k_start 2) (ex_store_get o) = Some (s, ev) /\ within 0 ev [o; OReplace []].
Proof.
  eexists (KState true 0 [[if locks_writing o then KMutex o else KWait o; KWrite (OReplace [])]; []]), [KCalled 0 (OReplace []); KCalled 0 o].
  split; [unfold krun, ex_store_get; cbn; by destruct (locks_writing o)|]. apply (in_call 0 [KCalled 0 (OReplace [])]). apply (in_call 0 []). constructor.
Qed.

(** One that only reads, called by Index, while another goroutine calls Replace. *)
Definition ex_index : op := OIndex "by source" zero_entry None.
Theorem C119_refuted_read : exists ls s ev, krun (k_start 2) ls = Some (s, ev) /\ within 0 ev [OList None; ex_index] /\ within 1 ev [OReplace []] /\
  never_returns s (fun _ _ => True).
Proof.
  exists [KCall 0 ex_index; KCall 1 (OReplace []); KTake 1; KCall 0 (OList None)].
  eexists (KState true 1 [[KWait (OList None); KRead ex_index]; [KDrain (OReplace [])]]), [KCalled 0 ex_index; KCalled 1 (OReplace []); KCalled 0 (OList None)].
  assert (krun (k_start 2) [KCall 0 ex_index; KCall 1 (OReplace []); KTake 1; KCall 0 (OList None)] =
    Some (KState true 1 [[KWait (OList None); KRead ex_index]; [KDrain (OReplace [])]], [KCalled 0 ex_index; KCalled 1 (OReplace []); KCalled 0 (OList None)])) as Hr by reflexivity.
  assert (within 0 [KCalled 0 ex_index; KCalled 1 (OReplace []); KCalled 0 (OList None)] [OList None; ex_index]) as Hw.
  { apply (in_call 0 [_; _]), (in_other 0 [_]); [apply (in_call 0 []); constructor|done]. }
  split; [exact Hr|]. split; [exact Hw|]. split.
  { apply (in_other 1 [_; _]); [|done]. apply (in_call 1 [_]), (in_other 1 []); [constructor|done]. }
  intros ls2 s2 ev2 g o H2 _ Hin. set (s := KState _ _ _) in *.
  assert (kinv s) as HI by (eapply kinv_run; [apply (kinv_start 2)|exact Hr]).
  destruct (dead_krun s ls2 s2 ev2 0 (KWait (OList None)) (KRead ex_index) [] HI eq_refl eq_refl H2) as (_ & _ & A & B & _).
  assert (forall ls s2 ev2, krun s ls = Some (s2, ev2) -> k_g s2 !! 1 = Some [KDrain (OReplace [])] /\ length (k_g s2) = 2 /\ forall o, KReturned 1 o ∉ ev2) as Hone.
  { clear -HI. intros ls. induction ls as [|l ls IH] using rev_ind; intros s2 ev2 Hr.
    { injection Hr as <- <-. split; [done|]. split; [done|]. intros o. apply not_elem_of_nil. }
    apply run_snoc in Hr as (s1 & ev1 & ev3 & H1 & H2 & ->). destruct (IH _ _ H1) as (Hg1 & Hl & Hno).
    destruct (dead_krun s ls s1 ev1 0 _ _ [] HI eq_refl eq_refl H1) as ((f & Hg0 & Hf) & _). pose proof (kinv_run _ _ _ _ HI H1) as HI1.
    destruct (no_writer _ _ _ _ _ HI1 Hg0 Hf) as [Hnw _].
    assert (k_readers s1 <> 0) as Hrd. { destruct HI1 as (_ & HB & _). pose proof (total_le reads s1 0 _ Hg0) as L. rewrite !total_cons in L. cbn [reads] in L. lia. }
    unfold kstep in H2. destruct l as [g0 o|g0|g0|g0].
    - destruct (k_g s1 !! g0) as [old|] eqn:Eg; [|done]. destruct (match old with [] => true | _ => in_index_function old end) eqn:Ein; [|done].
      assert (g0 <> 1) as Hne. { intros ->. rewrite Hg1 in Eg. by injection Eg as <-. }
      destruct (locks_writing o); [|destruct (k_busy s1)]; injection H2 as <- <-; cbn [k_g]; rewrite list_lookup_insert_ne, insert_length by done;
        (split; [done|split; [done|]]); intros o' [H|H]%elem_of_app; first [by apply (Hno o')|by apply elem_of_list_singleton in H].
    - destruct (k_g s1 !! g0) as [[|[o|o|o|o|o] old]|] eqn:Eg; try done. destruct (k_busy s1); [done|]. injection H2 as <- <-. cbn [k_g]. assert (g0 <> 1) as Hne. { intros ->. by rewrite Hg1 in Eg. }
      rewrite list_lookup_insert_ne, insert_length, app_nil_r by done. done.
    - destruct (k_g s1 !! g0) as [[|[o|o|o|o|o] old]|] eqn:Eg; try done. by destruct (k_readers s1).
    - destruct (k_g s1 !! g0) as [[|[o|o|o|o|o] old]|] eqn:Eg; try done; [|by destruct (Hnw g0 o old)]. injection H2 as <- <-. cbn [k_g]. assert (g0 <> 1) as Hne. { intros ->. by rewrite Hg1 in Eg. }
      rewrite list_lookup_insert_ne, insert_length by done. split; [done|split; [done|]]. intros o' [H|H]%elem_of_app; [by apply (Hno o')|]. apply elem_of_list_singleton in H. by injection H as <- _. }
  destruct (Hone _ _ _ H2) as (_ & _ & H1). destruct g as [|[|g]]; [by apply (A o)|by apply (H1 o)|].
  (* there are two goroutines *)
  assert (forall ls s2 ev2, krun s ls = Some (s2, ev2) -> KReturned (S (S g)) o ∉ ev2) as Hnone; [|by apply (Hnone _ _ _ H2)].
  clear -HI Hone. intros ls. induction ls as [|l ls IH] using rev_ind; intros s2 ev2 Hr; [injection Hr as <- <-; apply not_elem_of_nil|].
  apply run_snoc in Hr as (s1 & ev1 & ev3 & H1 & H2 & ->). intros [H|H]%elem_of_app; [by apply (IH _ _ H1)|]. destruct (Hone _ _ _ H1) as (_ & Hl & _).
  unfold kstep in H2. destruct l as [g0 o0|g0|g0|g0]; destruct (k_g s1 !! g0) as [fs|] eqn:Eg; try done; apply lookup_lt_Some in Eg;
    repeat (match type of H2 with context [match ?x with _ => _ end] => destruct x; try discriminate H2 end); injection H2 as <- <-;
    first [by apply elem_of_nil in H|apply elem_of_list_singleton in H; first [discriminate H|injection H as E _; lia]].
Qed.

(** An index function that reads its store undisturbed, and calls of two goroutines
    half way: the hypotheses of [C119_read_in], [C119_change_in] and [C119_returns]. *)
Example C119_example : exists s ev, krun (k_start 2) [KCall 0 ex_index; KCall 0 (OList None)] = Some (s, ev) /\ within 0 ev [OList None; ex_index] /\
  exists s', krun s [KEnd 0; KEnd 0] = Some (s', [KReturned 0 (OList None); KReturned 0 ex_index]).
Proof. do 2 eexists. split; [reflexivity|]. split; [apply (in_call 0 [_]), (in_call 0 []); constructor|]. eexists. reflexivity. Qed.
Example C119_example_change : exists s ev, krun (k_start 2) [KCall 0 ex_index; KCall 0 (OReplace [])] = Some (s, ev) /\ within 0 ev [OReplace []; ex_index] /\ within 1 ev [].
Proof. do 2 eexists. split; [reflexivity|]. split; [apply (in_call 0 [_]), (in_call 0 []); constructor|]. apply (in_other 1 [_]); [|done]. apply (in_other 1 []); [constructor|done]. Qed.
Example C119_example_returns : exists s ev, krun (k_start 2) [KCall 0 ex_index; KCall 1 (OReplace []); KTake 1] = Some (s, ev) /\ (forall g os, g < 2 -> within g ev os -> length os <= 1) /\
  exists s', krun s [KEnd 0; KEnter 1; KEnd 1] = Some (s', [KReturned 0 ex_index; KReturned 1 (OReplace [])]).
Proof.
  do 2 eexists. split; [reflexivity|]. split; [|by eexists]. intros g os Hg Hw.
  assert (krun (k_start 2) [KCall 0 ex_index; KCall 1 (OReplace []); KTake 1] = Some (KState true 1 [[KRead ex_index]; [KDrain (OReplace [])]], [KCalled 0 ex_index; KCalled 1 (OReplace [])])) as Hr by reflexivity.
  destruct (within_stack _ _ _ _ _ _ Hr Hg Hw) as (fs & Hfs & ->). rewrite fmap_length. destruct g as [|[|g]]; [by injection Hfs as <-..|lia].
Qed.

Print Assumptions C119_in_change.
Print Assumptions C119_change_in.
Print Assumptions C119_read_in.
Print Assumptions C119_stuck_only.
Print Assumptions C119_returns.
Print Assumptions C119_refuted_change.
Print Assumptions C119_refuted_read.
