(** FlushOnFirstMessage. *)
From Coq Require Import ZArith NArith Ascii String Lia.
From stdpp Require Import base gmap strings list.
From Verif Require Import GoBase Encoding SpecEncoding Records Messages SpecMessages MessageFacts Run Keepalive Client ClientFacts ClientClose.

Local Open Scope list_scope.
Local Opaque decode_msg encode_flush.

(** ** Specification *)

(** The flushes sent by call [f] of FlushOnFirstMessage. *)
Definition flushes (f : nat) (evs : list cev) : list (string * amqp_msg) :=
  omap (fun e => match e with CFlush (Some g) ad m => if bool_decide (g = f) then Some (ad, m) else None | _ => None end) evs.
(** A record or a heartbeat. *)
Definition is_update (x : message) : Prop := match x with MsgRecord _ | MsgHeartbeat _ => True | _ => False end.

(** ** Steps *)

Definition about (f : nat) (e : cev) : Prop :=
  match e with
  | CCall _ (Awaiter g) _ | CFlush (Some g) _ _ | CFlushStart g | CFlushRet g _ | CReg _ (Awaiter g) => g = f
  | _ => False
  end.
Definition stage (x : fcall) : fpc * bool := (f_pc x, f_closed x).
Definition stage_of (s : cstate) (f : nat) : option (fpc * bool) := stage <$> c_flushes s !! f.

Inductive fmove (c : info) (f : nat) : fpc * bool -> fpc * bool -> list cev -> Prop :=
  | fm_rec b : fmove c f (FRec, b) (FHb, b) [CReg OnRec (Awaiter f)]
  | fm_hb b : fmove c f (FHb, b) (FSelect, b) [CReg OnHb (Awaiter f)]
  | fm_take : fmove c f (FSelect, true) (FSend, true) [CFlush (Some f) (i_direct c) (flush_message c)]
  | fm_ctx b : fmove c f (FSelect, b) (FDone, b) [CFlushRet f true]
  | fm_sent b : fmove c f (FSend, b) (FDone, b) [CFlushRet f false].

Lemma stage_alter s f g (h : fcall -> fcall) : stage <$> alter h g (c_flushes s) !! f =
  if bool_decide (f = g) then stage ∘ h <$> c_flushes s !! f else stage_of s f.
Proof.
  case_bool_decide as E; [subst g|unfold stage_of; by rewrite list_lookup_alter_ne by congruence]. rewrite list_lookup_alter.
  by destruct (c_flushes s !! f).
Qed.

Ltac nab := repeat (apply Forall_cons; split; [cbn; first [congruence|tauto]|]); apply Forall_nil_2.

Lemma flush_cases c s lb s' ev f : cstep c s lb = Some (s', ev) -> once_ok s ->
  (Forall (fun e => ~ about f e) ev /\ stage_of s' f = stage_of s f) \/
  (ev = [CFlushStart f] /\ stage_of s f = None /\ stage_of s' f = Some (FRec, false)) \/
  (exists a b, stage_of s f = Some a /\ stage_of s' f = Some b /\ fmove c f a b ev) \/
  (exists i x hs, pc_of s i = Some (LRun x (Awaiter f :: hs)) /\ ev = [CCall i (Awaiter f) x] /\
     stage_of s' f = (fun p => (fst p, true)) <$> stage_of s f).
Proof.
  intros Hs Ho. pose proof (crashed_false _ _ _ _ _ Hs) as Hc. unfold cstep in Hs. rewrite Hc in Hs.
  assert (forall i, match c_listeners s !! i with Some l => listener_step s i l lb | None => None end = Some (s', ev) ->
    (Forall (fun e => ~ about f e) ev /\ stage_of s' f = stage_of s f) \/
    (exists i x hs, pc_of s i = Some (LRun x (Awaiter f :: hs)) /\ ev = [CCall i (Awaiter f) x] /\
     stage_of s' f = (fun p => (fst p, true)) <$> stage_of s f)) as Hlis.
  { intros i H. destruct (c_listeners s !! i) as [l|] eqn:El; [|done]. unfold listener_step in H.
    destruct lb as [| | | |? [m|x]|? [|x]| | | | | | | | | | | | |]; try done; destruct (l_pc l) as [|m'|x'|x' [|h hs]| |] eqn:Ep; try done.
    all: try (destruct (decode_msg (Some m')) as [[y|] [e|]|]).
    all: try (destruct (unlocked s); [|done]).
    all: injection H as <- <-; try (destruct (ends l x)).
    all: try (left; split; [nab|reflexivity]).
    - destruct h as [n|g]; [left; split; [nab|reflexivity]|]. cbn [invoke]. set (s1 := set_pc i (LRun x' hs) s).
      assert (stage_of (cs_flushes (alter once_do g (c_flushes s1)) s1) f = if bool_decide (f = g) then (fun p => (fst p, true)) <$> stage_of s f else stage_of s f) as Hx.
      { unfold stage_of at 1. cbn [cs_flushes c_flushes]. rewrite stage_alter. case_bool_decide; [|done].
        change (c_flushes s1) with (c_flushes s). unfold stage_of.
        destruct (c_flushes s !! f) as [y|] eqn:Ey; [|done]. cbn. f_equal. unfold once_do, stage.
        pose proof (Forall_lookup_1 _ _ _ _ Ho Ey) as E. cbn in E. destruct (f_once y) eqn:E2; cbn; congruence. }
      assert (stage_of match c_flushes s1 !! g with
        | Some x => if once_panics x then cs_crashed (cs_flushes (alter once_do g (c_flushes s1)) s1) else cs_flushes (alter once_do g (c_flushes s1)) s1
        | None => cs_flushes (alter once_do g (c_flushes s1)) s1 end f = stage_of (cs_flushes (alter once_do g (c_flushes s1)) s1) f) as Hy.
      { destruct (c_flushes s1 !! g) as [y|]; [|done]. by destruct (once_panics y). }
      rewrite Hy, Hx. case_bool_decide as E.
      + right. subst g. exists i, x', hs. split; [unfold pc_of; rewrite El; cbn; by rewrite Ep|]. done.
      + left. split; [|done]. constructor; [|constructor]. cbn. congruence.
    - left. split; [nab|]. destruct (c_close s); try done. by destruct (_ =? _)%Z. }
  assert (forall g, match c_flushes s !! g with Some x => flush_step c s g x lb | None => None end = Some (s', ev) ->
    (Forall (fun e => ~ about f e) ev /\ stage_of s' f = stage_of s f) \/
    (exists a b, stage_of s f = Some a /\ stage_of s' f = Some b /\ fmove c f a b ev)) as Hfl.
  { intros g H. destruct (c_flushes s !! g) as [x|] eqn:Ex; [|done].
    assert (forall p s1 e1, c_flushes s1 = c_flushes s -> fmove c g (stage x) (p, f_closed x) e1 -> (f <> g -> Forall (fun e => ~ about f e) e1) ->
      (s', ev) = (set_flush g p s1, e1) ->
      (Forall (fun e => ~ about f e) ev /\ stage_of s' f = stage_of s f) \/
      (exists a b, stage_of s f = Some a /\ stage_of s' f = Some b /\ fmove c f a b ev)) as Hset.
    { intros p s1 e1 E1 Hm Hne E. injection E as -> ->.
      assert (stage_of (set_flush g p s1) f = if bool_decide (f = g) then (fun q => (p, snd q)) <$> stage_of s f else stage_of s f) as Hst.
      { unfold stage_of at 1, set_flush. cbn [cs_flushes c_flushes]. rewrite stage_alter, E1. unfold stage_of. rewrite E1.
        case_bool_decide; [by destruct (c_flushes s !! f)|done]. }
      rewrite Hst. case_bool_decide as E; [|left; split; [by apply Hne|done]]. subst g. right. unfold stage_of. rewrite Ex. cbn.
      exists (stage x), (p, f_closed x). done. }
    unfold flush_step in H. destruct lb; try done.
    all: try (destruct (f_pc x) eqn:Ep; try done).
    all: try (destruct (unlocked s); [|done]). all: try (destruct (f_closed x) eqn:Ef; [|done]). all: try (destruct (f_cancelled x); [|done]).
    all: injection H as <- <-.
    - apply (Hset FHb (register OnRec (Awaiter g) s) [CReg OnRec (Awaiter g)]); [done|unfold stage; rewrite Ep; constructor|intros; nab|done].
    - apply (Hset FSelect (register OnHb (Awaiter g) s) [CReg OnHb (Awaiter g)]); [done|unfold stage; rewrite Ep; constructor|intros; nab|done].
    - left. split; [constructor|]. unfold stage_of at 1. cbn [cs_flushes c_flushes]. rewrite stage_alter. case_bool_decide; [|done]. unfold stage_of. by destruct (c_flushes s !! f).
    - left. split; [constructor|]. unfold stage_of at 1. cbn [cs_flushes c_flushes]. rewrite stage_alter. case_bool_decide; [|done]. unfold stage_of. by destruct (c_flushes s !! f).
    - left. split; [constructor|]. unfold stage_of at 1. cbn [cs_flushes c_flushes]. rewrite stage_alter. case_bool_decide; [|done]. unfold stage_of. by destruct (c_flushes s !! f).
    - left. split; [constructor|]. unfold stage_of at 1. cbn [cs_flushes c_flushes]. rewrite stage_alter. case_bool_decide; [|done]. unfold stage_of. by destruct (c_flushes s !! f).
    - left. split; [constructor|]. unfold stage_of at 1. cbn [cs_flushes c_flushes]. rewrite stage_alter. case_bool_decide; [|done]. unfold stage_of. by destruct (c_flushes s !! f).
    - apply (Hset FSend s [CFlush (Some g) (i_direct c) (flush_message c)]); [done|unfold stage; rewrite Ep, Ef; constructor|intros; nab|done].
    - apply (Hset FDone s [CFlushRet g true]); [done|unfold stage; rewrite Ep; constructor|intros; nab|done].
    - apply (Hset FDone s [CFlushRet g false]); [done|unfold stage; rewrite Ep; constructor|intros; nab|done]. }
  destruct lb; try (destruct (Hlis _ Hs) as [?|?]; [by left|by right; right; right]); try (destruct (Hfl _ Hs) as [?|?]; [by left|by right; right; left]).
  - destruct (unlocked s); [|done]. injection Hs as <- <-. left. destruct k; (split; [nab|done]).
  - injection Hs as <- <-. left. by split; [constructor|].
  - destruct (c_adding s); [done|]. destruct (unlocked s); [|done]. injection Hs as <- <-. left. by split; [nab|].
  - injection Hs as <- <-. left. by split; [constructor|].
  - destruct (unlocked s); [|done]. left. destruct (c_done s); injection Hs as <- <-; (split; [nab|done]).
  - left. destruct (c_close s); try done. destruct (_ =? _)%Z; injection Hs as <- <-; (split; [nab|done]).
  - left. destruct (c_close s); try done. destruct (_ =? _)%Z; injection Hs as <- <-; (split; [nab|done]).
  - injection Hs as <- <-. left. by split; [nab|].
  - injection Hs as <- <-. destruct (decide (f = length (c_flushes s))) as [->|Hne].
    + right. left. split; [done|]. unfold stage_of. rewrite (lookup_ge_None_2 (c_flushes s)) by lia. split; [done|].
      cbn [cs_flushes c_flushes]. by rewrite lookup_app_r, Nat.sub_diag by lia.
    + left. split; [nab|]. unfold stage_of. cbn [cs_flushes c_flushes]. f_equal.
      destruct (decide (f < length (c_flushes s))); [by apply lookup_app_l|].
      rewrite !lookup_ge_None_2; [done|lia|rewrite app_length; cbn; lia].
Qed.

(** ** The invariant *)

(** Handlers about to be called have been registered, for such a message. *)
Definition run_inv_c (s : cstate) (evs : list cev) : Prop :=
  forall i x hs h, pc_of s i = Some (LRun x hs) -> h ∈ hs -> is_update x /\ exists k, CReg k h ∈ evs.

Lemma wanted_in x evs h : h ∈ wanted x evs -> is_update x /\ exists k, CReg k h ∈ evs.
Proof.
  unfold wanted. intros H. apply elem_of_list_omap in H as (e & He & E). destruct e as [k g| | | | | | | | | | | |]; try done.
  destruct k, x; try done; injection E as ->; split; eauto; done.
Qed.

Lemma hand_step c s evs lb s' ev : reg_inv s evs -> run_inv_c s evs -> cstep c s lb = Some (s', ev) -> run_inv_c s' (evs ++ ev).
Proof.
  intros Hreg Hi Hs i x hs h Hp Hh.
  assert (forall hs, pc_of s i = Some (LRun x hs) -> h ∈ hs -> is_update x /\ exists k, CReg k h ∈ evs ++ ev) as Hold.
  { intros hs' Hp' Hh'. destruct (Hi _ _ _ _ Hp' Hh') as (H1 & k & H2). split; [done|]. exists k. apply elem_of_app. by left. }
  destruct (step_cases _ _ _ _ _ Hs) as [Hq|[(ad & -> & El)|(j & l & q & Hl & Hst & Hm & Hpc)]].
  - destruct (Hq i) as [E _]. rewrite E in Hp. by eapply Hold.
  - unfold pc_of in Hp. rewrite El in Hp. destruct (decide (i < length (c_listeners s))) as [Hlt|Hge].
    + rewrite lookup_app_l in Hp by done. by eapply Hold.
    + destruct (decide (i = length (c_listeners s))) as [->|]; [by rewrite lookup_app_r, Nat.sub_diag in Hp by lia|].
      rewrite lookup_ge_None_2 in Hp by (rewrite app_length; cbn; lia). done.
  - rewrite Hpc in Hp. case_bool_decide as E; [|by eapply Hold]. subst j. injection Hp as ->.
    assert (pc_of s i = Some (l_pc l)) as Ep by (unfold pc_of; by rewrite Hl). inversion Hm as [| | | | | | | |x1 Hu E1 E2 E3| |x1 h1 hs1 E1 E2 E3|].
    + rewrite <- E1 in *. subst. rewrite (wanted_handlers s evs x Hreg) in Hh. destruct (wanted_in _ _ _ Hh) as (H1 & k & H2).
      split; [done|]. exists k. apply elem_of_app. by left.
    + rewrite <- E1 in Ep. subst. apply (Hold _ Ep). by right.
Qed.

Definition finv (c : info) (f : nat) (s : cstate) (evs : list cev) : Prop :=
  ((forall k, CReg k (Awaiter f) ∈ evs -> CFlushStart f ∈ evs) /\
   (forall a b i x, evs = a ++ CCall i (Awaiter f) x :: b -> CFlushStart f ∈ a /\ is_update x) /\
   (forall a b ad m, evs = a ++ CFlush (Some f) ad m :: b -> exists i x, CCall i (Awaiter f) x ∈ a)) /\
  (CFlushStart f ∈ evs <-> is_Some (stage_of s f)) /\
  match stage_of s f with
  | None => flushes f evs = [] /\ (forall r, ~ CFlushRet f r ∈ evs)
  | Some (p, cl) =>
      (cl = true <-> exists i x, CCall i (Awaiter f) x ∈ evs) /\
      (CReg OnHb (Awaiter f) ∈ evs <-> match p with FRec | FHb => False | _ => True end) /\
      match p with
      | FRec | FHb | FSelect => flushes f evs = [] /\ (forall r, ~ CFlushRet f r ∈ evs)
      | FSend => flushes f evs = [(i_direct c, flush_message c)] /\ (forall r, ~ CFlushRet f r ∈ evs)
      | FDone => (flushes f evs = [] /\ CFlushRet f true ∈ evs /\ ~ CFlushRet f false ∈ evs) \/
                 (flushes f evs = [(i_direct c, flush_message c)] /\ CFlushRet f false ∈ evs /\ ~ CFlushRet f true ∈ evs)
      end
  end.

Lemma flushes_app f a b : flushes f (a ++ b) = flushes f a ++ flushes f b.
Proof. apply omap_app. Qed.
Lemma flushes_not f ev : Forall (fun e => ~ about f e) ev -> flushes f ev = [].
Proof.
  induction 1 as [|e ev He HF IH]; [done|]. unfold flushes in *. cbn [omap list_omap]. rewrite IH.
  destruct e as [| | | | | | | | |[g|]| | |]; try done. cbn in He. by rewrite bool_decide_eq_false_2.
Qed.

Lemma in_not_about f (e : cev) evs ev : Forall (fun e => ~ about f e) ev -> about f e -> e ∈ evs ++ ev <-> e ∈ evs.
Proof.
  intros HF He. rewrite elem_of_app. split; [|by left]. intros [?|Hin]; [done|]. exfalso. by apply (proj1 (Forall_forall _ _) HF) in Hin.
Qed.

(** One new event [e]: the facts about positions. *)
Lemma split_old {P : list cev -> list cev -> Prop} (x : cev) evs ev a b : evs ++ ev = a ++ x :: b -> ~ x ∈ ev ->
  (forall b1, evs = a ++ x :: b1 -> P a b) -> P a b.
Proof.
  intros E Hx HP. apply in_split_app in E as [(b1 & E & _)|(a1 & _ & E)]; [by eapply HP|]. destruct Hx. rewrite E. apply elem_of_app. right. left.
Qed.

Lemma finv_step c f s evs lb s' ev : once_ok s -> run_inv_c s evs -> finv c f s evs -> cstep c s lb = Some (s', ev) -> finv c f s' (evs ++ ev).
Proof.
  intros Ho Hrun ((P1 & P2 & P3) & Hst & Hm) Hs.
  destruct (flush_cases _ _ _ _ _ f Hs Ho) as [(HF & E)|[(-> & E & E')|[(a & b & E & E' & Hmv)|(i & x & hs & Hp & -> & E)]]].
  - (* nothing about f *)
    assert (forall e, about f e -> e ∈ evs ++ ev <-> e ∈ evs) as Hin by (intros e He; by apply (in_not_about f)).
    split; [split; [|split]|].
    + intros k Hk. rewrite Hin in * by done. by eapply P1.
    + intros a b i x Eq. assert (~ CCall i (Awaiter f) x ∈ ev) as Hn by (intros Hx; by apply (proj1 (Forall_forall _ _) HF) in Hx).
      apply (split_old (P := fun a b => CFlushStart f ∈ a /\ is_update x) _ _ _ _ _ Eq Hn). intros b1 E1. by eapply P2.
    + intros a b ad m Eq. assert (~ CFlush (Some f) ad m ∈ ev) as Hn by (intros Hx; by apply (proj1 (Forall_forall _ _) HF) in Hx).
      apply (split_old (P := fun a b => exists i x, CCall i (Awaiter f) x ∈ a) _ _ _ _ _ Eq Hn). intros b1 E1. by eapply P3.
    + rewrite Hin by done. rewrite E. split; [done|]. rewrite flushes_app, (flushes_not f ev HF), app_nil_r.
      assert (forall r, CFlushRet f r ∈ evs ++ ev <-> CFlushRet f r ∈ evs) as Hr by (intros r; by apply Hin).
      destruct (stage_of s f) as [[p cl]|].
      * destruct Hm as (M1 & M2 & M3). split; [|split].
        -- rewrite M1. split; intros (i & x & Hx); exists i, x; [by rewrite Hin|by rewrite Hin in Hx].
        -- by rewrite Hin.
        -- destruct p; try (destruct M3 as [M3 M4]; split; [done|]; intros r; by rewrite Hr).
           destruct M3 as [(A & B & C)|(A & B & C)]; [left|right]; (split; [done|]); split; by rewrite Hr.
      * destruct Hm as [M1 M2]. split; [done|]. intros r. by rewrite Hr.
  - (* it starts *)
    rewrite E in Hm, Hst. destruct Hm as [M1 M2].
    assert (~ CFlushStart f ∈ evs) as Hnot by (intros H; apply Hst in H; by destruct H).
    split; [split; [|split]|].
    + intros k _. apply elem_of_app. right. left.
    + intros a b i x Eq. apply (split_old (P := fun a b => CFlushStart f ∈ a /\ is_update x) _ _ _ _ _ Eq); [by rewrite elem_of_list_singleton|].
      intros b1 E1. by eapply P2.
    + intros a b ad m Eq. apply (split_old (P := fun a b => exists i x, CCall i (Awaiter f) x ∈ a) _ _ _ _ _ Eq); [by rewrite elem_of_list_singleton|].
      intros b1 E1. by eapply P3.
    + rewrite E'. split; [split; [eauto|]; intros _; apply elem_of_app; right; left|]. split; [|split].
      * split; [done|]. intros (i & x & Hx). apply elem_of_app in Hx as [Hx|Hx]; [|by apply elem_of_list_singleton in Hx].
        apply elem_of_list_split in Hx as (a & b & Eq). destruct (P2 a b i x Eq) as [H _]. destruct Hnot. rewrite Eq. apply elem_of_app. by left.
      * split; [|done]. intros H. apply elem_of_app in H as [H|H]; [|by apply elem_of_list_singleton in H]. by apply P1 in H.
      * rewrite flushes_app, M1. split; [done|]. intros r H. apply elem_of_app in H as [H|H]; [by apply M2 in H|by apply elem_of_list_singleton in H].
  - (* it moves *)
    rewrite E in Hst, Hm. assert (CFlushStart f ∈ evs) as Hstart by (apply Hst; eauto).
    assert (forall e, ~ e ∈ ev -> e ∈ evs ++ ev <-> e ∈ evs) as Hin.
    { intros e He. rewrite elem_of_app. split; [by intros [?|?]|by left]. }
    assert (forall i x, ~ CCall i (Awaiter f) x ∈ ev) as Hnc by (intros i x; destruct Hmv; by rewrite elem_of_list_singleton).
    split; [split; [|split]|].
    + intros k _. apply elem_of_app. by left.
    + intros a1 b1 i x Eq. apply (split_old (P := fun a b => CFlushStart f ∈ a /\ is_update x) _ _ _ _ _ Eq (Hnc i x)). intros b2 E1. by eapply P2.
    + intros a1 b1 ad m Eq. apply in_split_app in Eq as [(b2 & Eq & _)|(a2 & -> & Eq)]; [by eapply P3|].
      destruct Hmv; try (destruct a2 as [|? [|]]; discriminate Eq). destruct Hm as ((M1 & _) & _). destruct M1 as (i & x & Hx); [done|].
      exists i, x. apply elem_of_app. by left.
    + rewrite E'. split; [split; [eauto|]; intros _; apply elem_of_app; by left|]. rewrite flushes_app.
      assert ((exists i x, CCall i (Awaiter f) x ∈ evs ++ ev) <-> exists i x, CCall i (Awaiter f) x ∈ evs) as Hcalls.
      { split; intros (i & x & Hx); exists i, x; [by rewrite Hin in Hx|by rewrite Hin]. }
      destruct Hmv; destruct Hm as (M1 & M2 & M3 & M4); (split; [by rewrite Hcalls|]).
      * split; [rewrite Hin, M2; [done|by rewrite elem_of_list_singleton]|]. cbn. rewrite app_nil_r. split; [done|]. intros r.
        rewrite Hin; [done|by rewrite elem_of_list_singleton].
      * split; [split; [done|]; intros _; apply elem_of_app; right; left|]. cbn. rewrite app_nil_r. split; [done|]. intros r.
        rewrite Hin; [done|by rewrite elem_of_list_singleton].
      * split; [rewrite Hin, M2; [done|by rewrite elem_of_list_singleton]|]. rewrite M3. cbn. rewrite bool_decide_eq_true_2 by done. split; [done|].
        intros r. rewrite Hin; [done|by rewrite elem_of_list_singleton].
      * split; [rewrite Hin, M2; [done|by rewrite elem_of_list_singleton]|]. left. cbn. rewrite app_nil_r. split; [done|].
        split; [apply elem_of_app; right; left|]. rewrite Hin; [done|rewrite elem_of_list_singleton; congruence].
      * split; [rewrite Hin, M2; [done|by rewrite elem_of_list_singleton]|]. right. cbn. rewrite app_nil_r. split; [done|].
        split; [apply elem_of_app; right; left|]. rewrite Hin; [done|rewrite elem_of_list_singleton; congruence].
  - (* its handler is called *)
    destruct (Hrun _ _ _ (Awaiter f) Hp) as (Hup & k & Hk); [left|]. pose proof (P1 _ Hk) as Hstart.
    assert (forall e, e <> CCall i (Awaiter f) x -> e ∈ evs ++ [CCall i (Awaiter f) x] <-> e ∈ evs) as Hin.
    { intros e He. rewrite elem_of_app, elem_of_list_singleton. split; [by intros [?|?]|by left]. }
    split; [split; [|split]|].
    + intros k' _. apply elem_of_app. by left.
    + intros a b j y Eq. apply in_split_app in Eq as [(b2 & Eq & _)|(a2 & -> & Eq)]; [by eapply P2|].
      assert (a2 = [] /\ y = x) as [-> ->]. { destruct a2 as [|? [|]]; [|discriminate Eq|discriminate Eq]. by injection Eq as <- <-. }
      by rewrite app_nil_r.
    + intros a b ad m Eq. apply (split_old (P := fun a b => exists i x, CCall i (Awaiter f) x ∈ a) _ _ _ _ _ Eq); [by rewrite elem_of_list_singleton|].
      intros b1 E1. by eapply P3.
    + destruct Hst as [Hst1 Hst2]. destruct (Hst1 Hstart) as [[p cl] Es]. rewrite Es in Hm, E. cbn in E. rewrite E.
      split; [split; [eauto|]; intros _; apply elem_of_app; by left|]. rewrite flushes_app. cbn [flushes omap list_omap]. rewrite app_nil_r.
      destruct Hm as (M1 & M2 & M3). split; [split; [|done]; intros _; exists i, x; apply elem_of_app; right; left|].
      split; [rewrite Hin by done; done|]. 
      destruct p; try (destruct M3 as [M3 M4]; split; [done|]; intros r; by rewrite Hin).
      destruct M3 as [(A & B & C)|(A & B & C)]; [left|right]; (split; [done|]); split; by rewrite Hin.
Qed.

Lemma finv_run c f ls s evs : crun c c_init ls = Some (s, evs) -> finv c f s evs.
Proof.
  intros Hr. assert ((once_ok s /\ reg_inv s evs /\ run_inv_c s evs) /\ finv c f s ([] ++ evs)) as [_ H]; [|done].
  apply (run_inv (cstep c) (fun s evs => (once_ok s /\ reg_inv s evs /\ run_inv_c s evs) /\ finv c f s evs) (fun _ => True) c_init [] ls s evs) with (4 := Hr);
    [| |by apply Forall_true].
  - split; [split; [constructor|]; split; [done|]; by intros [|i]|]. split; [split; [|split]|].
    + intros k H. by apply elem_of_nil in H.
    + by intros [|].
    + by intros [|].
    + split; [split; [intros H; by apply elem_of_nil in H|by intros [? ?]]|]. cbn. split; [done|]. intros r H. by apply elem_of_nil in H.
  - intros s1 evs1 l s2 ev [(H1 & H2 & H3) H4] _ Hs. split; [split; [by eapply once_step|split; [by eapply reg_step|by eapply hand_step]]|by eapply finv_step].
Qed.

(** ** The claims *)

Lemma one_flush c f ls s evs : crun c c_init ls = Some (s, evs) -> length (flushes f evs) <= 1.
Proof.
  intros Hr. destruct (finv_run c f ls s evs Hr) as (_ & _ & H). destruct (stage_of s f) as [[p cl]|]; [|destruct H as [-> _]; cbn; lia].
  destruct H as (_ & _ & H). destruct p; try (destruct H as [-> _]; cbn; lia). destruct H as [[-> _]|[-> _]]; cbn; lia.
Qed.

Lemma flush_after c f ls s evs a b ad m : crun c c_init ls = Some (s, evs) -> evs = a ++ CFlush (Some f) ad m :: b ->
  exists a1 i x a2, a = a1 ++ CCall i (Awaiter f) x :: a2 /\ CFlushStart f ∈ a1 /\ is_update x.
Proof.
  intros Hr E. destruct (finv_run c f ls s evs Hr) as ((_ & P2 & P3) & _). destruct (P3 _ _ _ _ E) as (i & x & Hx).
  apply elem_of_list_split in Hx as (a1 & a2 & ->). exists a1, i, x, a2. split; [done|].
  apply (P2 a1 (a2 ++ CFlush (Some f) ad m :: b) i x). rewrite E. by rewrite <- app_assoc.
Qed.

Lemma flush_events c ls s evs o ad m : crun c c_init ls = Some (s, evs) -> CFlush o ad m ∈ evs -> ad = i_direct c /\ m = flush_message c.
Proof.
  intros Hr Hin. revert Hin.
  apply (run_inv (cstep c) (fun s evs => CFlush o ad m ∈ evs -> ad = i_direct c /\ m = flush_message c) (fun _ => True) c_init [] ls s evs) with (4 := Hr);
    [intros H; by apply elem_of_nil in H| |by apply Forall_true].
  clear. intros s evs lb s' ev Hi _ Hs Hin. apply elem_of_app in Hin as [Hin|Hin]; [by apply Hi|].
  destruct (step_cases _ _ _ _ _ Hs) as [_|[(ad' & -> & El)|(j & l & q & Hl & Hst & Hm & Hpc)]].
  2: by apply elem_of_list_singleton in Hin.
  2: destruct Hm; not_in Hin.
  assert (forall f, match c_flushes s !! f with Some x => flush_step c s f x lb | None => None end = Some (s', ev) -> ad = i_direct c /\ m = flush_message c) as Hfl.
  { intros f H. destruct (c_flushes s !! f) as [x|]; [|done]. unfold flush_step in H. destruct lb; try done; destruct (f_pc x); try done.
    all: try (destruct (unlocked s); [|done]). all: try (destruct (f_closed x); [|done]). all: try (destruct (f_cancelled x); [|done]).
    all: injection H as <- <-; try (not_in Hin). apply elem_of_list_singleton in Hin. by injection Hin as _ -> ->. }
  assert (forall i, match c_listeners s !! i with Some l => listener_step s i l lb | None => None end = Some (s', ev) -> ad = i_direct c /\ m = flush_message c) as Hlis.
  { intros i H. destruct (c_listeners s !! i) as [l|] eqn:El; [|done]. destruct (listener_moves _ _ _ _ _ _ El H) as (q & Hm & _). destruct Hm; not_in Hin. }
  unfold cstep in Hs. destruct (c_crashed s); [done|].
  destruct lb; try (by eapply Hfl); try (by eapply Hlis).
  - destruct (unlocked s); [|done]. injection Hs as <- <-. not_in Hin.
  - injection Hs as <- <-. not_in Hin.
  - destruct (c_adding s); [done|]. destruct (unlocked s); [|done]. injection Hs as <- <-. not_in Hin.
  - injection Hs as <- <-. not_in Hin.
  - destruct (unlocked s); [|done]. destruct (c_done s); injection Hs as <- <-; not_in Hin.
  - destruct (c_close s); try done. destruct (_ =? _)%Z; injection Hs as <- <-; not_in Hin.
  - destruct (c_close s); try done. destruct (_ =? _)%Z; injection Hs as <- <-; not_in Hin.
  - injection Hs as <- <-. apply elem_of_list_singleton in Hin. by injection Hin as _ -> ->.
  - injection Hs as <- <-. not_in Hin.
Qed.

Lemma flush_content c : decode_msg (Some (flush_message c)) = RDone (Some (MsgFlush (Flush (MsgProps (i_direct c) "FLUSH" "")))) None.
Proof. unfold flush_message. apply flush_round_trip. Qed.

Lemma cancelled_no_flush c f ls s evs : crun c c_init ls = Some (s, evs) -> CFlushRet f true ∈ evs -> flushes f evs = [].
Proof.
  intros Hr Hin. destruct (finv_run c f ls s evs Hr) as (_ & _ & H). destruct (stage_of s f) as [[p cl]|]; [|by destruct H].
  destruct H as (_ & _ & H). destruct p; try (by destruct H as [? H]; apply H in Hin). destruct H as [[? _]|(_ & _ & H)]; done.
Qed.

(** Once a message was delivered, the flush is possible until the call ends. *)
Lemma flush_possible c f ls s evs i x : crun c c_init ls = Some (s, evs) -> c_crashed s = false -> CReg OnHb (Awaiter f) ∈ evs ->
  CCall i (Awaiter f) x ∈ evs -> ~ CFlushRet f true ∈ evs ->
  flushes f evs <> [] \/ is_Some (cstep c s (LFlushTake f)).
Proof.
  intros Hr Hc Hreg Hcall Hret. destruct (finv_run c f ls s evs Hr) as ((P1 & _) & Hst & H).
  destruct (proj1 Hst (P1 _ Hreg)) as [[p cl] Es]. rewrite Es in H. destruct H as (M1 & M2 & M3). apply M2 in Hreg.
  destruct p; try done.
  - right. unfold cstep. rewrite Hc. unfold stage_of in Es. destruct (c_flushes s !! f) as [y|]; [|done]. injection Es as Ep Ecl.
    unfold flush_step. rewrite Ep. assert (cl = true) as Ht by (apply M1; eauto). rewrite <- Ecl in Ht. rewrite Ht. eauto.
  - left. by destruct M3 as [-> _].
  - left. destruct M3 as [(_ & ? & _)|(-> & _)]; done.
Qed.

(** Its context being over, the call can return. *)
Lemma cancel_possible c f ls s evs : crun c c_init ls = Some (s, evs) -> c_crashed s = false -> CReg OnHb (Awaiter f) ∈ evs ->
  flushes f evs = [] -> (forall x, c_flushes s !! f = Some x -> f_cancelled x = true) ->
  CFlushRet f true ∈ evs \/ exists s', cstep c s (LFlushCtx f) = Some (s', [CFlushRet f true]).
Proof.
  intros Hr Hc Hreg Hfl Hcan. destruct (finv_run c f ls s evs Hr) as ((P1 & _) & Hst & H).
  destruct (proj1 Hst (P1 _ Hreg)) as [[p cl] Es]. rewrite Es in H. destruct H as (M1 & M2 & M3). apply M2 in Hreg.
  destruct p; try done.
  - right. unfold cstep. rewrite Hc. unfold stage_of in Es. destruct (c_flushes s !! f) as [y|] eqn:Ey; [|done]. injection Es as Ep Ecl.
    unfold flush_step. rewrite Ep, (Hcan y eq_refl). eauto.
  - rewrite Hfl in M3. by destruct M3.
  - left. destruct M3 as [(_ & ? & _)|(E & _)]; [done|]. by rewrite Hfl in E.
Qed.

(** What can go wrong. *)
Lemma crash_causes c ls s evs lb s' ev : crun c c_init ls = Some (s, evs) -> cstep c s lb = Some (s', ev) -> c_crashed s' = true ->
  (exists i m, lb = LLAccept i AccOk /\ pc_of s i = Some (LAccept m) /\ decode_msg (Some m) = RPanic) \/
  (lb = LCloseBegin /\ c_done s = true) \/ (lb = LCloseWake /\ 0 < c_adding s).
Proof.
  intros Hr Hs Hcr. pose proof (wg_run _ _ _ _ Hr) as Hw. pose proof (once_run _ _ _ _ Hr) as Ho.
  pose proof (crashed_false _ _ _ _ _ Hs) as Hc.
  destruct (close_cases _ _ _ _ _ Hs) as [-> -> ? ? ? ? ? ? | -> -> ? ? -> | Hlb -> Hz -> | -> -> Hn Hz -> | -> -> Hn Hz -> | -> -> ? ? ? ? ? | ? ? ? ? ? ? ? | j l Hl Hst | Ecl Ed Ea Ec Hlb HFe];
    try congruence.
  - right. left. done.
  - cbn in Hcr. congruence.
  - cbn in Hcr. congruence.
  - right. right. split; [done|]. destruct Hw as (Hw & _ & _ & Hwo). specialize (Hwo Hn). lia.
  - left. unfold listener_step in Hst.
    assert (pc_of s j = Some (l_pc l)) as Hp by (unfold pc_of; by rewrite Hl).
    unfold cstep in Hs. rewrite Hc in Hs.
    destruct lb as [| | | |? [m|x]|? [|x]| | | | | | | | | | | | |]; try done; destruct (l_pc l) as [|m'|x'|x' [|h hs]| |] eqn:Ep; try done.
    all: try (destruct (decode_msg (Some m')) as [[y|] [e|]|] eqn:Ed).
    all: try (destruct (unlocked s); [|done]).
    all: injection Hst as <- <-; try (destruct (ends l x)).
    all: try (cbn in Hcr; congruence).
    + exists i, m'. split; [done|]. split; [|done]. destruct (c_listeners s !! i) as [l'|] eqn:El; [|done].
      unfold listener_step in Hs. unfold pc_of. rewrite El. cbn.
      destruct (l_pc l') as [|m2|x2|x2 [|h2 hs2]| |] eqn:Ep2; try done.
      destruct (decode_msg (Some m2)) as [[y2|] [e2|]|] eqn:Ed2; try discriminate Hs. injection Hs. intros. congruence.
    + rewrite (proj1 (invoke_fine h (set_pc j (LRun x' hs) s) Ho)) in Hcr. cbn in Hcr. congruence.
    + destruct (c_close s); try (cbn in Hcr; congruence). destruct (_ =? _)%Z; cbn in Hcr; congruence.
Qed.
