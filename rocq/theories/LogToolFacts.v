(** Proofs about the log command (C104). *)
From Coq Require Import ZArith NArith Ascii String Lia.
From stdpp Require Import base gmap strings list.
From Verif Require Import GoBase Encoding Records Messages Env SyncMap Tokens Cache Tool Http Run LogTool.

Local Open Scope list_scope.

(** ** Specification *)

(** The messages listener [i] was given, and what its handler was called with and
    queued. *)
Definition given (i : nat) (ls : list olabel) : list message := omap (fun l => match l with OHandle j m => if decide (j = i) then Some m else None | _ => None end) ls.
Definition queued_by (i : nat) (evs : list oev) : list line := omap (fun e => match e with OQueued j o => if decide (j = i) then Some o else None | _ => None end) evs.
(** What was queued at all, what the loop is done with, and what was printed. *)
Definition queued (evs : list oev) : list line := omap (fun e => match e with OQueued _ o => Some o | _ => None end) evs.
Definition handled (evs : list oev) : list line := omap (fun e => match e with OPrinted o | OSkipped o => Some o | _ => None end) evs.
Definition printed (evs : list oev) : list line := omap (fun e => match e with OPrinted o => Some o | _ => None end) evs.

(** The steps the command takes by itself while stdout takes what is written. *)
Definition flowing (l : olabel) : Prop := match l with OSend _ | OTake | OWrite true => True | _ => False end.

(** What an event needs in the history before it. *)
Definition ojust zone (a : list oev) (e : oev) : Prop :=
  match e with
  | OPrinted o => line_json_ok zone o = true /\ OFailed ∉ a
  | OSkipped o => line_json_ok zone o = false \/ OFailed ∈ a
  | _ => True
  end.

(** ** Proofs *)
Section facts.
Context (zone : gotime -> Z) (hb rc : bool).
Notation orun := (run (ostep zone hb rc)).
Notation lines := (omap (render hb rc)).

Lemma orun_labels (I : list olabel -> ostate -> list oev -> Prop) : I [] o_init [] ->
  (forall ls s evs l s2 ev, I ls s evs -> ostep zone hb rc s l = Some (s2, ev) -> I (ls ++ [l]) s2 (evs ++ ev)) ->
  forall ls s evs, orun o_init ls = Some (s, evs) -> I ls s evs.
Proof.
  intros H0 Hs ls. induction ls as [|l ls IH] using rev_ind; intros s evs Hr; [by injection Hr as <- <-|].
  apply run_snoc in Hr as (s1 & ev1 & ev2 & H1 & H2 & ->). eapply Hs; [by apply IH|exact H2].
Qed.

Definition hand (s : ostate) : list line := match o_pc s with OHas o => [o] | _ => [] end.

Record oinv (ls : list olabel) (s : ostate) (evs : list oev) : Prop := OInv {
  oi_chan : queued evs = handled evs ++ hand s ++ o_chan s;
  oi_busy i : lines (given i ls) = queued_by i evs ++ option_list (o_busy s !! i);
  oi_cap : length (o_chan s) <= out_cap;
  oi_broken : o_broken s = true <-> OFailed ∈ evs;
  oi_just : forall a e b, evs = a ++ e :: b -> ojust zone a e;
  oi_end : o_pc s = OEnd <-> OReturned ∈ evs;
  oi_cancel : o_cancelled s = true <-> OCancel ∈ ls;
  oi_ended : o_pc s = OEnd -> o_cancelled s = true;
}.

Lemma just_one (evs : list oev) (x : oev) :
  (forall a e b, evs = a ++ e :: b -> ojust zone a e) -> ojust zone evs x -> forall a e b, evs ++ [x] = a ++ e :: b -> ojust zone a e.
Proof.
  intros H Hx a e b E. destruct b as [|y b] using rev_ind.
  - apply app_inj_tail in E as [<- <-]. done.
  - rewrite app_comm_cons, app_assoc in E. apply app_inj_tail in E as [-> <-]. by eapply H.
Qed.

Lemma oinv_step ls s evs l s2 ev : oinv ls s evs -> ostep zone hb rc s l = Some (s2, ev) -> oinv (ls ++ [l]) s2 (evs ++ ev).
Proof.
  intros [H1 H2 H3 H4 H5 H6 H7 H8] Hs.
  assert (Hp : o_pc s <> OEnd) by (intros E; unfold ostep in Hs; by rewrite E in Hs).
  assert (Hr : OReturned ∉ evs) by (rewrite <- H6; done).
  destruct s as [pc q bz c br]. cbn [o_pc o_chan o_busy o_cancelled o_broken hand] in *.
  assert (Hg : forall i l', given i (ls ++ [l']) = given i ls ++ given i [l']) by (intros; apply omap_app).
  destruct l as [i m|i| |ok| |].
  - assert (o_chan s2 = q /\ o_pc s2 = pc /\ o_cancelled s2 = c /\ o_broken s2 = br /\ bz !! i = None /\
      match render hb rc m with Some o => ev = [OCalled i o] /\ o_busy s2 = <[i := o]> bz | None => ev = [] /\ o_busy s2 = bz end) as (E1 & E2 & E3 & E4 & E5 & E6).
    { unfold ostep in Hs. cbn [o_pc o_chan o_busy o_cancelled o_broken] in Hs. destruct pc as [|o0|]; [| |done].
      all: destruct (bz !! i) eqn:Ei; [done|]; destruct (render hb rc m) eqn:Er; injection Hs as <- <-; done. }
    assert (Hev : forall x, x ∈ ev -> exists o, x = OCalled i o).
    { intros x Hx. destruct (render hb rc m); destruct E6 as [-> _]; [|by apply elem_of_nil in Hx]. apply elem_of_list_singleton in Hx as ->. eauto. }
    assert (queued ev = [] /\ handled ev = [] /\ forall j, queued_by j ev = []) as (Q1 & Q2 & Q3).
    { destruct (render hb rc m); destruct E6 as [-> _]; done. }
    constructor.
    + unfold queued, handled in *. rewrite !omap_app, Q1, Q2, !app_nil_r. unfold hand. by rewrite E1, E2.
    + intros j. rewrite Hg, omap_app, H2. unfold queued_by in *. rewrite omap_app, Q3, app_nil_r. rewrite <- app_assoc. f_equal.
      unfold given. cbn [omap list_omap]. destruct (decide (i = j)) as [<-|Hn].
      * rewrite E5. cbn [option_list app omap list_omap]. destruct (render hb rc m); destruct E6 as [_ ->]; [by rewrite lookup_insert|by rewrite E5].
      * cbn [omap list_omap]. rewrite app_nil_r. destruct (render hb rc m); destruct E6 as [_ ->]; [by rewrite lookup_insert_ne|done].
    + by rewrite E1.
    + rewrite E4, H4, elem_of_app. split; [by left|]. intros [?|Hx]; [done|]. apply Hev in Hx as [? [=]].
    + destruct (render hb rc m); destruct E6 as [-> _]; [by apply just_one|by rewrite app_nil_r].
    + rewrite E2. split; [done|]. rewrite elem_of_app. intros [?|Hx]; [done|]. apply Hev in Hx as [? [=]].
    + rewrite E3, H7, elem_of_app, elem_of_list_singleton. naive_solver.
    + by rewrite E2.
  - assert (exists o, bz !! i = Some o /\ length q < out_cap /\ s2 = OState pc (q ++ [o]) (delete i bz) c br /\ ev = [OQueued i o]) as (o & Ei & Hlt & -> & ->).
    { unfold ostep in Hs. cbn [o_pc o_chan o_busy o_cancelled o_broken] in Hs. destruct pc as [|o0|]; [| |done].
      all: destruct (bz !! i) as [o|] eqn:Ei; [|done]; destruct (length q <? out_cap) eqn:El; [|done]; apply Nat.ltb_lt in El; injection Hs as <- <-; eauto. }
    constructor; cbn [o_pc o_chan o_busy o_cancelled o_broken hand].
    + unfold queued, handled in *. rewrite !omap_app, H1. cbn [omap list_omap]. unfold hand. cbn [o_pc]. by rewrite app_nil_r, <- !app_assoc.
    + intros j. rewrite Hg, omap_app, H2. unfold queued_by in *. rewrite omap_app. cbn [omap list_omap given]. rewrite app_nil_r.
      destruct (decide (i = j)) as [<-|Hn].
      * rewrite Ei, lookup_delete. cbn. by rewrite app_nil_r.
      * rewrite lookup_delete_ne by done. by rewrite app_nil_r.
    + rewrite app_length. cbn. lia.
    + rewrite H4, elem_of_app, elem_of_list_singleton. naive_solver.
    + by apply just_one.
    + split; [done|]. rewrite elem_of_app, elem_of_list_singleton. naive_solver.
    + rewrite H7, elem_of_app, elem_of_list_singleton. naive_solver.
    + done.
  - assert (exists o q', pc = OLoop /\ q = o :: q' /\ s2 = OState (OHas o) q' bz c br /\ ev = []) as (o & q' & -> & -> & -> & ->).
    { unfold ostep in Hs. cbn [o_pc o_chan o_busy o_cancelled o_broken] in Hs. destruct pc; [|done..]. destruct q as [|o q']; [done|]. injection Hs as <- <-. eauto 10. }
    rewrite app_nil_r. constructor; cbn [o_pc o_chan o_busy o_cancelled o_broken hand] in *; try done.
    + intros j. rewrite Hg, omap_app, H2. cbn. by rewrite app_nil_r.
    + cbn in H3. lia.
    + rewrite H7, elem_of_app, elem_of_list_singleton. naive_solver.
  - assert (exists o br', pc = OHas o /\ s2 = OState OLoop q bz c br' /\
      (ev = [OPrinted o] /\ br = false /\ br' = false /\ line_json_ok zone o = true \/
       ev = [OSkipped o] /\ br' = br /\ (br = true \/ line_json_ok zone o = false) \/
       ev = [OFailed; OSkipped o] /\ br' = true)) as (o & br' & -> & -> & He).
    { unfold ostep in Hs. cbn [o_pc o_chan o_busy o_cancelled o_broken] in Hs. destruct pc as [|o|]; [done| |done].
      destruct br; [|destruct (line_json_ok zone o) eqn:Ej; [destruct ok|]]; injection Hs as <- <-; exists o; eexists; (split; [done|]; split; [done|]); auto 10. }
    assert (queued ev = [] /\ handled ev = [o] /\ (forall j, queued_by j ev = []) /\ OReturned ∉ ev) as (Q1 & Q2 & Q3 & Q4).
    { destruct He as [(-> & _)|[(-> & _)|(-> & _)]]; (split; [done|]; split; [done|]; split; [done|]); rewrite !elem_of_cons, elem_of_nil; naive_solver. }
    constructor; cbn [o_pc o_chan o_busy o_cancelled o_broken hand] in *.
    + unfold queued, handled in *. rewrite !omap_app, Q1, Q2, app_nil_r, H1. unfold hand. cbn [o_pc]. by rewrite <- app_assoc.
    + intros j. rewrite Hg, omap_app, H2. unfold queued_by in *. rewrite omap_app, Q3. cbn. by rewrite !app_nil_r.
    + done.
    + rewrite elem_of_app. destruct He as [(-> & -> & -> & _)|[(-> & -> & _)|(-> & ->)]].
      * rewrite elem_of_list_singleton, <- H4. naive_solver.
      * rewrite elem_of_list_singleton, <- H4. naive_solver.
      * split; [intros _; right; left|done].
    + destruct He as [(-> & -> & -> & Ej)|[(-> & -> & Ej)|(-> & ->)]].
      * apply just_one; [done|]. split; [done|]. intros Hx. by apply H4 in Hx.
      * apply just_one; [done|]. cbn. rewrite <- H4. naive_solver.
      * change (evs ++ [OFailed; OSkipped o]) with (evs ++ [OFailed] ++ [OSkipped o]). rewrite app_assoc. apply just_one; [by apply just_one|].
        right. apply elem_of_app. right. left.
    + split; [done|]. rewrite elem_of_app. naive_solver.
    + rewrite H7, elem_of_app, elem_of_list_singleton. naive_solver.
    + done.
  - assert (s2 = OState pc q bz true br /\ ev = []) as [-> ->] by (unfold ostep in Hs; cbn [o_pc o_chan o_busy o_cancelled o_broken] in Hs; destruct pc; [| |done]; injection Hs as <- <-; done).
    rewrite app_nil_r. constructor; cbn [o_pc o_chan o_busy o_cancelled o_broken hand] in *; try done.
    + intros j. rewrite Hg, omap_app, H2. cbn. by rewrite app_nil_r.
    + split; [|done]. intros _. apply elem_of_app. right. left.
  - assert (pc = OLoop /\ c = true /\ s2 = OState OEnd q bz true br /\ ev = [OReturned]) as (-> & -> & -> & ->).
    { unfold ostep in Hs; cbn [o_pc o_chan o_busy o_cancelled o_broken] in Hs; destruct pc; [|done..]. destruct c; [|done]. injection Hs as <- <-. done. }
    constructor; cbn [o_pc o_chan o_busy o_cancelled o_broken hand] in *.
    + unfold queued, handled in *. rewrite !omap_app, H1. cbn. by rewrite !app_nil_r.
    + intros j. rewrite Hg, omap_app, H2. unfold queued_by in *. rewrite omap_app. cbn. by rewrite !app_nil_r.
    + done.
    + rewrite H4, elem_of_app, elem_of_list_singleton. naive_solver.
    + by apply just_one.
    + split; [|done]. intros _. apply elem_of_app. right. left.
    + rewrite elem_of_app, <- H7. naive_solver.
    + done.
Qed.

Lemma oinv_run ls s evs : orun o_init ls = Some (s, evs) -> oinv ls s evs.
Proof.
  revert ls s evs. apply orun_labels; [|intros; by eapply oinv_step].
  constructor; try done.
  - cbn. unfold out_cap. lia.
  - cbn. rewrite elem_of_nil. done.
  - intros a e b E. by destruct a.
  - cbn. rewrite elem_of_nil. done.
  - cbn. rewrite elem_of_nil. done.
Qed.

(** Every listener's messages are queued in their order, each once, and what was
    queued is dealt with in order, each once. *)
Lemma in_order ls s evs : orun o_init ls = Some (s, evs) ->
  (forall i, exists w, lines (given i ls) = queued_by i evs ++ w /\ length w <= 1) /\
  exists w, queued evs = handled evs ++ w /\ length w <= 65.
Proof.
  intros Hr. destruct (oinv_run _ _ _ Hr) as [H1 H2 H3 _ _ _ _ _]. split.
  - intros i. exists (option_list (o_busy s !! i)). split; [done|]. destruct (o_busy s !! i); cbn; lia.
  - eexists. split; [exact H1|]. unfold out_cap in H3. rewrite app_length. unfold hand. destruct (o_pc s); cbn [length]; lia.
Qed.

Lemma printed_iff ls s evs a e b : orun o_init ls = Some (s, evs) -> evs = a ++ e :: b -> ojust zone a e.
Proof. intros Hr. exact (oi_just _ _ _ (oinv_run _ _ _ Hr) a e b). Qed.

(** Everything given so far can be printed. *)
Definition owork (s : ostate) : nat := 3 * size (o_busy s) + 2 * length (o_chan s) + length (hand s).

Lemma one_step s : o_pc s <> OEnd -> length (o_chan s) <= out_cap -> 0 < owork s ->
  exists l s' ev, flowing l /\ ostep zone hb rc s l = Some (s', ev) /\ owork s' < owork s /\ o_pc s' <> OEnd /\ length (o_chan s') <= out_cap /\ o_cancelled s' = o_cancelled s /\ o_broken s' = o_broken s /\ OFailed ∉ ev.
Proof.
  intros Hp Hc Hw. destruct s as [pc q bz c br]. unfold owork, hand, ostep in *. cbn [o_pc o_chan o_busy o_cancelled o_broken] in *. destruct pc as [|o|]; [| |done].
  - destruct q as [|o q].
    + destruct (decide (bz = ∅)) as [->|Hb]; [rewrite map_size_empty in Hw; cbn in Hw; lia|].
      apply map_choose in Hb as (i & o & Ei). exists (OSend i). eexists _, _. split; [done|]. rewrite Ei. cbn [length Nat.ltb Nat.leb]. split; [reflexivity|].
      cbn [o_pc o_chan o_busy o_cancelled o_broken]. rewrite map_size_delete_Some by eauto.
      assert (size bz <> 0) by (intros E; apply map_size_empty_inv in E; subst; by rewrite lookup_empty in Ei).
      cbn [length app]. unfold out_cap. split; [lia|]. split; [done|]. split; [lia|]. split; [done|]. split; [done|]. rewrite elem_of_list_singleton. done.
    + exists OTake. eexists _, _. split; [done|]. split; [reflexivity|]. cbn [o_pc o_chan o_busy o_cancelled o_broken length] in *. split; [lia|]. split; [done|]. split; [lia|]. split; [done|]. split; [done|]. apply not_elem_of_nil.
  - exists (OWrite true). cbn [length] in *.
    destruct br; [|destruct (line_json_ok zone o)]; eexists _, _; (split; [done|]; split; [reflexivity|]); cbn [o_pc o_chan o_busy o_cancelled o_broken length].
    all: split; [lia|]; split; [done|]; split; [done|]; split; [done|]; split; [done|]; rewrite elem_of_list_singleton; done.
Qed.

Lemma all_steps s : o_pc s <> OEnd -> length (o_chan s) <= out_cap ->
  exists ls s' ev, Forall flowing ls /\ orun s ls = Some (s', ev) /\ owork s' = 0 /\ o_pc s' <> OEnd /\ o_broken s' = o_broken s /\ OFailed ∉ ev.
Proof.
  remember (owork s) as n eqn:En. revert s En. induction n as [n IH] using lt_wf_ind. intros s En Hp Hc.
  destruct (decide (n = 0)) as [->|Hn].
  { exists [], s, []. split; [done|]. split; [reflexivity|]. split; [done|]. split; [done|]. split; [done|]. apply not_elem_of_nil. }
  destruct (one_step s Hp Hc) as (l & s1 & ev1 & F1 & S1 & W1 & P1 & C1 & _ & B1 & E1); [lia|].
  destruct (IH (owork s1)) with (s := s1) as (ls & s2 & ev2 & F2 & R2 & W2 & P2 & B2 & E2); [lia|done|done|done|].
  exists (l :: ls), s2, (ev1 ++ ev2). split; [by constructor|]. split; [cbn [run]; by rewrite S1, R2|]. split; [done|]. split; [done|]. split; [congruence|]. rewrite elem_of_app. naive_solver.
Qed.

Lemma handled_printed evs : (forall a e b, evs = a ++ e :: b -> ojust zone a e) -> OFailed ∉ evs -> printed evs = filter (fun o => line_json_ok zone o = true) (handled evs).
Proof.
  induction evs as [|e evs IH] using rev_ind; [done|]. intros Hj Hf. unfold printed, handled in *. rewrite !omap_app, filter_app.
  rewrite elem_of_app in Hf. rewrite <- IH; [|intros a x b ->; eapply Hj; by rewrite <- app_assoc|naive_solver]. f_equal.
  pose proof (Hj evs e [] eq_refl) as He. destruct e; try done; cbn [omap list_omap ojust] in *.
  - destruct He as [He _]. rewrite filter_cons. by rewrite decide_True.
  - destruct He as [He|He]; [|naive_solver]. rewrite filter_cons, decide_False; [done|]. congruence.
Qed.

Lemma all_printed ls s evs : orun o_init ls = Some (s, evs) -> OReturned ∉ evs ->
  exists ls' s' evs', Forall flowing ls' /\ orun o_init (ls ++ ls') = Some (s', evs ++ evs') /\
    (forall i, lines (given i ls) = queued_by i (evs ++ evs')) /\ queued (evs ++ evs') = handled (evs ++ evs') /\ OFailed ∉ evs'.
Proof.
  intros Hr Hn. pose proof (oinv_run _ _ _ Hr) as Hi.
  destruct (all_steps s) as (ls' & s' & evs' & F & R & W & P & _ & E).
  { intros H. apply (oi_end _ _ _ Hi) in H. done. }
  { exact (oi_cap _ _ _ Hi). }
  assert (Hr2 : orun o_init (ls ++ ls') = Some (s', evs ++ evs')) by (by rewrite run_app, Hr, R).
  exists ls', s', evs'. split; [done|]. split; [done|]. pose proof (oinv_run _ _ _ Hr2) as [H1 H2 _ _ _ _ _ _].
  assert (o_busy s' = ∅ /\ o_chan s' = [] /\ hand s' = []) as (Z1 & Z2 & Z3).
  { unfold owork in W. split; [apply map_size_empty_inv; lia|]. split; apply nil_length_inv; lia. }
  split; [|split; [by rewrite H1, Z2, Z3, !app_nil_r|done]].
  intros i. specialize (H2 i). rewrite Z1, lookup_empty in H2. cbn [option_list] in H2. rewrite app_nil_r in H2. rewrite <- H2. unfold given. rewrite omap_app.
  assert (forall l, Forall flowing l -> given i l = []) as Hg.
  { clear. induction 1 as [|l ls Hl _ IH]; [done|]. unfold given in *. cbn [omap list_omap]. destruct l; done. }
  unfold given in Hg. by rewrite (Hg ls' F), app_nil_r.
Qed.

Lemma printed_filter ls s evs : orun o_init ls = Some (s, evs) -> OFailed ∉ evs -> printed evs = filter (fun o => line_json_ok zone o = true) (handled evs).
Proof. intros Hr. apply handled_printed. exact (oi_just _ _ _ (oinv_run _ _ _ Hr)). Qed.

(** It returns only when told to, and then can at once, or after the line in hand. *)
Lemma returned ls s evs : orun o_init ls = Some (s, evs) ->
  (OReturned ∈ evs -> OCancel ∈ ls) /\
  (OCancel ∈ ls -> OReturned ∉ evs -> forall ok, exists ls', (ls' = [OStop] \/ ls' = [OWrite ok; OStop]) /\ exists s' evs', orun s ls' = Some (s', evs') /\ OReturned ∈ evs') /\
  (OReturned ∈ evs -> forall ls' s' evs', orun s ls' = Some (s', evs') -> ls' = []).
Proof.
  intros Hr. destruct (oinv_run _ _ _ Hr) as [_ _ _ _ _ H6 H7 H8]. split; [|split].
  - intros H. apply H7, H8, H6, H.
  - intros Hc Hn ok. apply H7 in Hc. rewrite <- H6 in Hn. destruct s as [pc q bz c br]. cbn in Hc, Hn. subst c. destruct pc as [|o|]; [| |done].
    + exists [OStop]. split; [by left|]. eexists _, _. split; [reflexivity|]. by left.
    + exists [OWrite ok; OStop]. split; [by right|].
      destruct br; [|destruct (line_json_ok zone o) eqn:Ej; [destruct ok|]].
      all: cbn [run ostep o_pc o_broken]; rewrite ?Ej; cbn; eexists _, _; (split; [reflexivity|]); cbn [app]; rewrite ?elem_of_cons; eauto 10.
  - intros H ls' s' evs' H'. apply H6 in H. destruct ls' as [|l ls']; [done|]. cbn [run] in H'. unfold ostep in H'. by rewrite H in H'.
Qed.

(** A line that is queued or waits may be lost: with any number of lines up to the
    capacity, and any number of waiting listeners. *)
Lemma lost n m o : render hb rc m = Some o -> n <= out_cap ->
  exists s evs, orun o_init (List.concat (replicate n [OHandle 0 m; OSend 0]) ++ [OCancel; OStop]) = Some (s, evs) /\
    length (queued evs) = n /\ handled evs = [].
Proof.
  intros Hm Hn.
  assert (H : forall k, k <= out_cap -> exists s evs, orun o_init (List.concat (replicate k [OHandle 0 m; OSend 0])) = Some (s, evs) /\
    s = OState OLoop (replicate k o) ∅ false false /\ length (queued evs) = k /\ handled evs = []).
  { induction k as [|k IH]; intros Hk; [eexists _, _; split; [reflexivity|]; done|].
    destruct IH as (s & evs & Hr & -> & Hq & Hh); [lia|].
    replace (List.concat (replicate (S k) [OHandle 0 m; OSend 0])) with (List.concat (replicate k [OHandle 0 m; OSend 0]) ++ [OHandle 0 m; OSend 0])
      by (rewrite replicate_S_end, concat_app; done).
    eexists _, (evs ++ [OCalled 0 o; OQueued 0 o]). rewrite run_app, Hr.
    assert (Hlt : length (replicate k o) <? out_cap = true) by (apply Nat.ltb_lt; rewrite replicate_length; lia).
    assert (S1 : ostep zone hb rc (OState OLoop (replicate k o) ∅ false false) (OHandle 0 m) = Some (OState OLoop (replicate k o) {[0 := o]} false false, [OCalled 0 o])).
    { unfold ostep. cbn [o_pc o_busy o_chan o_cancelled o_broken]. by rewrite lookup_empty, Hm. }
    assert (S2 : ostep zone hb rc (OState OLoop (replicate k o) {[0 := o]} false false) (OSend 0) = Some (OState OLoop (replicate k o ++ [o]) (delete 0 {[0 := o]}) false false, [OQueued 0 o])).
    { unfold ostep. cbn [o_pc o_busy o_chan o_cancelled o_broken]. by rewrite lookup_singleton, Hlt. }
    cbn [run]. rewrite S1, S2. split; [reflexivity|].
    split; [rewrite replicate_S_end; f_equal; by rewrite delete_singleton|].
    unfold queued, handled in *. rewrite !omap_app, Hh, app_length, Hq. cbn. split; [lia|done]. }
  destruct (H n Hn) as (s & evs & Hr & -> & Hq & Hh). eexists _, (evs ++ [OReturned]). rewrite run_app, Hr. split; [reflexivity|].
  unfold queued, handled in *. rewrite !omap_app, app_length, Hq, Hh. cbn. split; [lia|done].
Qed.
End facts.
