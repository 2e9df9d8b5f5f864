(** Facts about the container's goroutine: why sessions end, what is closed. *)
From Coq Require Import ZArith NArith Ascii String Lia.
From stdpp Require Import base gmap strings list.
From Verif Require Import GoBase Run Session SessionFacts.

Local Open Scope list_scope.

(** ** Specification *)

(** The generation of the session established last, 0 if there is none. *)
Definition latest (evs : list cev) : nat := length (ests evs).
Definition sess_errs (evs : list cev) : list nat := omap (fun e => match e with EvSessErr sid => Some sid | _ => None end) evs.

(** Why the session of generation [g] ended, after history [a]. *)
Definition reason (a : list cev) (g : nat) (r : option nat) : Prop :=
  match r with
  | Some h => h = g /\ exists i l, EvReport i l g ∈ a
  | None => EvCancel ∈ a
  end.

(** What the container does after history [a]. *)
Definition lawful (a : list cev) (e : cev) : Prop :=
  match e with
  | EvEst g sid => g = S (latest a) /\ (1 < g -> exists r, EvEnd (g - 1) r ∈ a)
  | EvEnd g r => 1 <= g /\ g = latest a /\ reason a g r
  | EvIgnored g h => g = latest a /\ h < g /\ exists i l, EvReport i l h ∈ a
  | EvTear sid => exists g r, EvEst g sid ∈ a /\ EvEnd g r ∈ a
  | EvReset g => g = latest a /\ exists i l k o, EvUse i l o g ∈ a /\ EvRet i l k ROk ∈ a
  | _ => True
  end.

(** ** Proof *)

Lemma latest_gen s evs : GInv s evs -> latest evs = c_gen s.
Proof. intros HI. unfold latest. rewrite <-(fmap_length fst), (gi_gens _ _ HI). apply seq_length. Qed.

Definition busy (p : cpc) : bool := match p with CTear _ | CLoop => true | _ => false end.

Record KInv (s : cstate) (evs : list cev) : Prop := {
  ki_g : GInv s evs;
  ki_lock : c_lock s = match c_pc s with CNotify | CFinal | CStuck => true | _ => false end;
  ki_cancel : c_ctx s <> None -> EvCancel ∈ evs;
  ki_busy : busy (c_pc s) = true -> 1 <= c_gen s;
  ki_end : forall g, 1 <= g <= c_gen s -> (g = c_gen s -> busy (c_pc s) = false) -> exists r, EvEnd g r ∈ evs;
  ki_use : forall i o ob g, c_ops s !! i = Some o -> o_pc o = PUse ob g -> EvUse i (o_link o) ob g ∈ evs;
  ki_oks : forall g, g ∈ c_oks s -> exists i l k o, EvUse i l o g ∈ evs /\ EvRet i l k ROk ∈ evs;
  ki_law : each lawful evs;
  ki_prev : match c_pc s with
    | CTear sid => last (ests evs) = Some (c_gen s, sid) /\ tears evs = take (c_gen s - 2) (snd <$> ests evs) /\
                   c_prev s = (if c_gen s <=? 1 then None else (snd <$> ests evs) !! (c_gen s - 2))
    | CDone => tears evs = snd <$> ests evs
    | CIdle => ests evs = [] /\ tears evs = [] /\ c_prev s = None
    | _ => tears evs = take (c_gen s - 1) (snd <$> ests evs) /\ c_prev s = snd <$> last (ests evs)
    end;
  ki_conn : length (conns evs) = length (ests evs) + length (sess_errs evs) + match c_pc s with CPublish _ => 1 | _ => 0 end;
  ki_stop : EvStopped ∈ evs -> c_pc s = CDone;
}.

Lemma KInv_init : KInv c_init [].
Proof.
  split; cbn; try done; try (intros; lia).
  - exact GInv_init.
  - intros; by apply elem_of_nil in H.
  - apply each_nil.
  - intros; by apply elem_of_nil in H.
Qed.

Lemma ot_events s i o l p l' er ok ev : ot s i o l p l' er ok ev ->
  ev = [] \/ exists e, ev = [e] /\ ((exists ob g, e = EvUse i (o_link o) ob g /\ p = PUse ob g) \/ (exists a b, e = EvNew i (o_link o) a b) \/
    (exists r, e = EvRet i (o_link o) (o_kind o) r) \/ (exists g, e = EvNetErr i (o_link o) g) \/ (exists g, e = EvReport i (o_link o) g)).
Proof. intros H. destruct H; first [by left|right; eexists; split; [reflexivity|]; naive_solver]. Qed.

Lemma ot_use s i o l p l' er ok ev : ot s i o l p l' er ok ev -> forall ob g, p = PUse ob g -> ev = [EvUse i (o_link o) ob g].
Proof. intros H. destruct H; intros; simplify_eq; done. Qed.
Lemma ot_oks s i o l p l' er ok ev : ot s i o l p l' er ok ev -> forall g, g ∈ ok -> g ∈ c_oks s \/
  exists ob k, o_pc o = PUse ob g /\ ev = [EvRet i (o_link o) k ROk].
Proof.
  intros H. destruct H; intros g' Hg; try (by left). destruct H1 as [-> | ->]; [by left|].
  apply elem_of_app in Hg as [Hg|Hg]; [by left|]. apply elem_of_list_singleton in Hg as ->. right. eauto.
Qed.

(** A step that touches neither the container's goroutine nor the lock. *)
Lemma KInv_frame s evs s2 ev : KInv s evs -> GInv s2 (evs ++ ev) -> c_lock s2 = c_lock s -> c_pc s2 = c_pc s -> c_prev s2 = c_prev s ->
  c_gen s2 = c_gen s -> (c_ctx s2 = c_ctx s \/ EvCancel ∈ ev) -> ests ev = [] -> tears ev = [] -> conns ev = [] -> sess_errs ev = [] -> EvStopped ∉ ev ->
  each lawful (evs ++ ev) ->
  (forall i o ob g, c_ops s2 !! i = Some o -> o_pc o = PUse ob g -> EvUse i (o_link o) ob g ∈ evs ++ ev) ->
  (forall g, g ∈ c_oks s2 -> exists i l k o, EvUse i l o g ∈ evs ++ ev /\ EvRet i l k ROk ∈ evs ++ ev) -> KInv s2 (evs ++ ev).
Proof.
  intros [H1 H2 H3 H4 H5 H6 H7 H8 H9 H10 H11] HG El Ep Ev Eg Ec E1 E2 E3 E4 E5 Hlaw Hu Ho.
  split; try done; rewrite ?ests_app, ?tears_app, ?conns_app, ?E1, ?E2, ?E3, ?app_nil_r, ?Ep, ?El, ?Ev, ?Eg; try done.
  - intros Hc. apply elem_of_app. destruct Ec as [Ec|]; [|by right]. rewrite Ec in Hc. left. by apply H3.
  - intros g Hg Hb. destruct (H5 g Hg Hb) as [r Hr]. exists r. apply elem_of_app. by left.
  - unfold sess_errs in *. by rewrite omap_app, E4, app_nil_r.
  - rewrite elem_of_app. intros [Hs|Hs]; [by apply H11|done].
Qed.

Lemma each_one P evs e : each P evs -> P evs e -> each P (evs ++ [e]).
Proof. apply each_snoc. Qed.

Lemma KInv_step s evs lb s2 ev : KInv s evs -> sstep s lb = Some (s2, ev) -> KInv s2 (evs ++ ev).
Proof.
  intros HK H. pose proof (GInv_step _ _ _ _ _ (ki_g _ _ HK) H) as HG. pose proof (ki_law _ _ HK) as Hlaw.
  destruct (sstep_sc _ _ _ _ (gi_linked _ _ (ki_g _ _ HK)) H) as [Hc _].
  assert (HU : forall i o ob g, c_ops s !! i = Some o -> o_pc o = PUse ob g -> EvUse i (o_link o) ob g ∈ evs ++ ev).
  { intros. apply elem_of_app. left. by eapply (ki_use _ _ HK). }
  assert (HO : forall g, g ∈ c_oks s -> exists i l k o, EvUse i l o g ∈ evs ++ ev /\ EvRet i l k ROk ∈ evs ++ ev).
  { intros g Hg. destruct (ki_oks _ _ HK g Hg) as (i & l & k & o & H1 & H2). exists i, l, k, o. split; apply elem_of_app; by left. }
  destruct Hc as [c ? ? -> ->|? ? -> ->|j k l ? Hl -> ->|i0 o0 c ? Ho ? -> ->|i0 ? Ho|Hc].
  - eapply KInv_frame; try done. right. left. by rewrite elem_of_list_singleton. by apply each_snoc.
  - eapply KInv_frame; try done. by left. by rewrite elem_of_list_singleton. by apply each_snoc.
  - eapply KInv_frame; try done. by left. by rewrite elem_of_list_singleton. by apply each_snoc.
    intros i o ob g Hi Hp. cbn in Hi. apply lookup_app_Some in Hi as [Hi|[_ Hi]]; [by eapply HU|]. apply list_lookup_singleton_Some in Hi as [_ <-]. done.
  - eapply KInv_frame; try done. by left. by apply not_elem_of_nil. by rewrite app_nil_r.
    intros i o ob g Hi Hp. cbn in Hi. apply list_lookup_insert_Some in Hi as [(-> & <- & _)|[_ Hi]]; [|by eapply HU]. by apply (HU i o0).
  - destruct Ho as [?|o l p l' er ok ev' Ho Hl Ht].
    + eapply KInv_frame; try done. by left. by rewrite elem_of_list_singleton. by apply each_snoc.
    + pose proof (ot_events _ _ _ _ _ _ _ _ _ Ht) as Hev.
      eapply KInv_frame; try done; [by left|..].
      * destruct Hev as [->|(e & -> & He)]; [done|]. destruct_or! He; naive_solver.
      * destruct Hev as [->|(e & -> & He)]; [done|]. destruct_or! He; naive_solver.
      * destruct Hev as [->|(e & -> & He)]; [done|]. destruct_or! He; naive_solver.
      * destruct Hev as [->|(e & -> & He)]; [done|]. destruct_or! He; naive_solver.
      * destruct Hev as [->|(e & -> & He)]; [by apply not_elem_of_nil|]. rewrite elem_of_list_singleton. destruct_or! He; naive_solver.
      * destruct Hev as [->|(e & -> & He)]; [by rewrite app_nil_r|]. apply each_snoc; [done|]. destruct_or! He; naive_solver.
      * intros i o1 ob g Hi Hp. unfold upd in Hi; cbn in Hi. apply list_lookup_insert_Some in Hi as [(-> & <- & _)|[_ Hi]]; [|by eapply HU].
        cbn in *. rewrite (ot_use _ _ _ _ _ _ _ _ _ Ht _ _ Hp). apply elem_of_app. right. left.
      * intros g Hg. unfold upd in Hg; cbn in Hg. destruct (ot_oks _ _ _ _ _ _ _ _ _ Ht g Hg) as [Hin|(ob & k & Hp & ->)]; [by apply HO|].
        exists i0, (o_link o), k, ob. split; [by eapply HU|]. apply elem_of_app. right. left.
  - assert (Hn : linked s) by apply HK.
    destruct HK as [H1 H2 H3 H4 H5 H6 H7 _ H9 H10 H11]. pose proof (gi_local _ _ H1) as Hlo. pose proof (gi_errs _ _ H1) as Her.
    pose proof (latest_gen _ _ H1) as Hla.
    unfold cont_step in Hc. destruct lb, (c_pc s) eqn:Epc; try discriminate Hc; open_step Hc; injection Hc as <- <-; cbn in Hlo.
    all: assert (Hkeep : forall g r ev', EvEnd g r ∈ evs -> EvEnd g r ∈ evs ++ ev') by (intros; apply elem_of_app; by left).
    all: try (split; rewrite ?ests_app, ?tears_app, ?conns_app; cbn [c_pc c_lock c_ctx c_gen c_ops c_oks c_prev cs_pc cs_lock cs_oks cs_errs];
      unfold sess_errs; rewrite ?omap_app; cbn [ests tears conns omap list_omap app]; rewrite ?app_nil_r; rewrite ?Epc in *;
      try done; try (by rewrite app_nil_r in HG); try (apply each_snoc; done);
      try (intros Hx; apply elem_of_app; left; by apply H3);
      try (by rewrite H2);
      try (intros g Hg Hb; destruct (H5 g Hg ltac:(done)) as [r Hr]; exists r; by apply Hkeep);
      try (rewrite app_length; cbn; lia);
      try (rewrite ?elem_of_app, ?elem_of_list_singleton; intros [Hx|Hx]; [by apply H11 in Hx|discriminate Hx]);
      try (intros Hx; by apply H11 in Hx)).
    all: unfold latest in *; fold (sess_errs evs).
    all: assert (HlS : length (snd <$> ests evs) = c_gen s) by (by rewrite fmap_length).
    + destruct H9 as (E & E2 & E3). rewrite E, E2, E3. split; [|done]. cbn. by rewrite take_nil.
    + replace (evs ++ [EvConn sid; EvSessErr sid]) with ((evs ++ [EvConn sid]) ++ [EvSessErr sid]) by (by rewrite <-app_assoc). by do 2 (apply each_snoc; [|done]).
    + rewrite !app_length. cbn. lia.
    + rewrite elem_of_app, !elem_of_cons, elem_of_nil. intros [Hx|[Hx|[Hx|Hx]]]; try done. by apply H11 in Hx.
    + rewrite app_length. cbn. lia.
    + lia.
    + intros g Hg Hb. destruct (decide (g = c_local s)) as [->|Hne]; [by specialize (Hb eq_refl)|]. destruct (H5 g ltac:(lia) ltac:(done)) as [r Hr]. exists r. by apply Hkeep.
    + apply each_snoc; [done|]. cbn. unfold latest. rewrite Hla, Hlo. split; [done|]. intros Hg. apply H5; [lia|done].
    + rewrite last_snoc. split; [done|]. rewrite Hlo, fmap_app. destruct H9 as [-> ->]. rewrite last_lookup, <-list_lookup_fmap, Hla. split.
      * rewrite take_app_le by lia. f_equal; lia.
      * destruct (Nat.leb_spec (S (c_gen s)) 1).
        -- assert (snd <$> ests evs = []) as -> by (apply nil_length_inv; lia). done.
        -- rewrite lookup_app_l by lia. f_equal; lia.
    + rewrite app_length. cbn. lia.
    + apply each_snoc; [done|]. cbn. destruct H9 as (_ & _ & E). destruct (Nat.leb_spec (c_gen s) 1); [done|]. symmetry in E.
      rewrite list_lookup_fmap in E. apply fmap_Some in E as ([g sd] & E & ->). pose proof (elem_of_list_lookup_2 _ _ _ E) as Hin.
      pose proof (gens_in _ _ _ _ H1 Hin). assert (Hg : (fst <$> ests evs) !! (c_gen s - 2) = Some g) by (by rewrite list_lookup_fmap, E).
      rewrite (gi_gens _ _ H1) in Hg. apply lookup_seq in Hg as [Hg _].
      destruct (H5 g ltac:(lia)) as [r Hr]; [lia|]. exists g, r. split; [|done]. by apply elem_of_ests.
    + destruct H9 as (El & -> & E). rewrite El. split; [|done]. destruct (Nat.leb_spec (c_gen s) 1); [done|].
      replace (c_gen s - 1) with (S (c_gen s - 2)) by lia. symmetry. by apply take_S_r.
    + destruct H9 as (El & -> & E). rewrite El. split; [|done]. destruct (Nat.leb_spec (c_gen s) 1).
      * assert (c_gen s = 1) as -> by (specialize (H4 eq_refl); lia). done.
      * symmetry in E. apply lookup_ge_None in E. lia.
    + intros g Hg. apply HO. by right.
    + apply each_snoc; [done|]. cbn. unfold latest. split; [congruence|]. apply H7. apply Nat.eqb_eq in Heqb. subst. left.
    + intros g Hg. apply H7. by right.
    + intros g Hg Hb. destruct (decide (g = c_local s)) as [->|Hne]; [exists (Some n); apply elem_of_app; right; left|].
      destruct (H5 g ltac:(lia)) as [r Hr]; [lia|]. exists r. by apply Hkeep.
    + apply Nat.eqb_eq in Heqb. subst n. apply each_snoc; [done|]. cbn. unfold latest. apply Forall_cons in Her as [[_ He] _]. specialize (H4 eq_refl).
      split; [lia|]. split; [congruence|]. by split.
    + apply Nat.eqb_neq in Heqb. apply each_snoc; [done|]. cbn. unfold latest. apply Forall_cons in Her as [[Hle He] _]. split; [congruence|]. split; [lia|done].
    + intros g Hg Hb. destruct (decide (g = c_local s)) as [->|Hne]; [exists None; apply elem_of_app; right; left|].
      destruct (H5 g ltac:(lia)) as [r Hr]; [lia|]. exists r. by apply Hkeep.
    + apply each_snoc; [done|]. cbn. unfold latest. specialize (H4 eq_refl). split; [lia|]. split; [congruence|]. apply H3. congruence.
    + intros _. by apply H3.
    + intros _. by apply H3.
    + replace (evs ++ [EvTear n; EvStopped]) with ((evs ++ [EvTear n]) ++ [EvStopped]) by (by rewrite <-app_assoc). apply each_snoc; [|done].
      apply each_snoc; [done|]. cbn. destruct H9 as [_ E]. symmetry in E. apply fmap_Some in E as ([g sd] & E & ->).
      rewrite last_lookup in E. pose proof (elem_of_list_lookup_2 _ _ _ E) as Hin. pose proof (gens_in _ _ _ _ H1 Hin).
      destruct (H5 g ltac:(lia) ltac:(done)) as [r Hr]. exists g, r. split; [|done]. by apply elem_of_ests.
    + destruct H9 as [-> E]. symmetry in E. rewrite last_lookup, <-list_lookup_fmap, Hla in E.
      replace (pred (c_gen s)) with (c_gen s - 1) in E by lia. rewrite <-(take_S_r _ _ _ E). apply take_ge.
      rewrite HlS. lia.
    + destruct H9 as [-> E]. destruct (ests evs) as [|x q] eqn:Ex; [cbn; by rewrite take_nil|].
      destruct (last (x :: q)) eqn:El; [done|]. by apply last_None in El.
Qed.

Lemma kinv ls s evs : srun c_init ls = Some (s, evs) -> KInv s evs.
Proof.
  intros Hr. eapply (run_inv sstep KInv (fun _ => True) c_init []) with (4 := Hr).
  - exact KInv_init.
  - intros. by eapply KInv_step.
  - by apply Forall_true.
Qed.

(** ** Theorems *)

Lemma generations_count ls s evs : srun c_init ls = Some (s, evs) -> fst <$> ests evs = seq 1 (length (ests evs)).
Proof. intros Hr. pose proof (ginv _ _ _ Hr) as HI. rewrite (gi_gens _ _ HI) at 1. f_equal. symmetry. exact (latest_gen _ _ HI). Qed.

Lemma lawful_container ls s evs a e b : srun c_init ls = Some (s, evs) -> evs = a ++ e :: b -> lawful a e.
Proof. intros Hr. apply (ki_law _ _ (kinv _ _ _ Hr)). Qed.

(** A session is closed only after it ended for an error reported for it, or the
    container's context. *)
Lemma torn_reason ls s evs a sid b : srun c_init ls = Some (s, evs) -> evs = a ++ EvTear sid :: b ->
  exists g r c d, EvEst g sid ∈ a /\ a = c ++ EvEnd g r :: d /\ reason c g r.
Proof.
  intros Hr E. destruct (lawful_container _ _ _ _ _ _ Hr E) as (g & r & He & Hn). apply elem_of_list_split in Hn as (c & d & ->).
  exists g, r, c, d. split; [done|]. split; [done|]. rewrite <-app_assoc in E. by destruct (lawful_container _ _ _ _ _ _ Hr E) as (_ & _ & ?).
Qed.

Lemma all_closed ls s evs : srun c_init ls = Some (s, evs) -> EvStopped ∈ evs ->
  tears evs = snd <$> ests evs /\ length (conns evs) = length (tears evs) + length (sess_errs evs).
Proof.
  intros Hr Hs. pose proof (kinv _ _ _ Hr) as HK. pose proof (ki_stop _ _ HK Hs) as Hp. pose proof (ki_prev _ _ HK) as H1. pose proof (ki_conn _ _ HK) as H2.
  rewrite Hp in H1, H2. split; [done|]. rewrite H1, fmap_length. lia.
Qed.

(** While it runs, all but the last one or two are closed, in order. *)
Lemma older_closed ls s evs : srun c_init ls = Some (s, evs) ->
  exists n, tears evs = take n (snd <$> ests evs) /\ length (ests evs) <= n + 2.
Proof.
  intros Hr. pose proof (kinv _ _ _ Hr) as HK. pose proof (ki_prev _ _ HK) as H1. pose proof (latest_gen _ _ (ki_g _ _ HK)) as Hl. unfold latest in Hl. rewrite <-Hl in H1.
  destruct (c_pc s); try (exists (length (ests evs) - 1); split; [by apply H1|lia]).
  - destruct H1 as (-> & -> & _). exists 0. split; [done|cbn; lia].
  - destruct H1 as (_ & -> & _). exists (length (ests evs) - 2). split; [done|lia].
  - exists (length (ests evs)). split; [|lia]. rewrite H1. symmetry. apply take_ge. by rewrite fmap_length.
Qed.

(** ** A handler that uses the container *)

Definition of_container (e : cev) : bool :=
  match e with EvConn _ | EvEst _ _ | EvTear _ | EvEnd _ _ | EvIgnored _ _ | EvReset _ | EvNotify | EvStopped | EvLink _ => true | _ => false end.

Lemma stuck_step s lb s2 ev : linked s -> c_pc s = CStuck -> c_lock s = true -> sstep s lb = Some (s2, ev) ->
  c_pc s2 = CStuck /\ c_lock s2 = true /\ Forall (fun e => of_container e = false) ev.
Proof.
  intros HL Hp Hl H. destruct (sstep_sc _ _ _ _ HL H) as [Hc _].
  destruct Hc as [c ? ? -> ->|? ? -> ->|j k l ? Hlk -> ->|i0 o0 c ? Ho ? -> ->|i0 ? Ho|Hc]; try (split_and!; [done|done|by repeat constructor]).
  - congruence.
  - destruct Ho as [?|o l p l' er ok ev' Ho Hlk Ht]; (split; [done|]; split; [done|]); [by repeat constructor|].
    destruct (ot_events _ _ _ _ _ _ _ _ _ Ht) as [->|(e & -> & He)]; [done|]. constructor; [|done]. destruct_or! He; naive_solver.
  - exfalso. unfold cont_step in Hc. rewrite Hp in Hc. destruct lb; discriminate Hc.
Qed.

Lemma handler_deadlock ls1 ls2 s evs : srun c_init (ls1 ++ LHandlerCalls :: ls2) = Some (s, evs) ->
  exists s1 ev1 ev2, srun c_init ls1 = Some (s1, ev1) /\ evs = ev1 ++ ev2 /\ Forall (fun e => of_container e = false) ev2.
Proof.
  intros Hr. apply run_app_inv in Hr as (s1 & ev1 & ev2 & H1 & H2 & ->). exists s1, ev1, ev2. split; [done|]. split; [done|].
  cbn [run] in H2. destruct (sstep s1 LHandlerCalls) as [[s3 ev3]|] eqn:E; [|done].
  destruct (srun s3 ls2) as [[s4 ev4]|] eqn:E2; [|done]. injection H2 as <- <-. pose proof (kinv _ _ _ H1) as HK.
  assert (c_pc s3 = CStuck /\ c_lock s3 = true /\ ev3 = []) as (Hp & Hl & ->).
  { unfold sstep in E. destruct (c_panic s1); [done|]. unfold cont_step in E. pose proof (ki_lock _ _ HK) as Hk.
    destruct (c_pc s1); try discriminate E; injection E as <- <-; done. }
  assert (HL : linked s3) by (eapply linked_step; [apply HK|exact E]).
  cbn [app].
  assert (linked s4 /\ c_pc s4 = CStuck /\ c_lock s4 = true /\ Forall (fun e => of_container e = false) ([] ++ ev4)) as (_ & _ & _ & HF); [|exact HF].
  eapply (run_inv sstep (fun s e => linked s /\ c_pc s = CStuck /\ c_lock s = true /\ Forall (fun e => of_container e = false) e) (fun _ => True) s3 []) with (4 := E2).
  - by split_and!.
  - intros s5 evs5 l s6 ev6 (Ha & Hb & Hc & Hd) _ Hs. destruct (stuck_step _ _ _ _ Ha Hb Hc Hs) as (? & ? & ?).
    split; [by eapply linked_step|]. split_and!; try done. by apply Forall_app.
  - by apply Forall_true.
Qed.
