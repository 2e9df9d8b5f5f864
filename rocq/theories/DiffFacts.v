(** Deltas and the collector's copy. *)
From Coq Require Import ZArith NArith Ascii String Lia.
From stdpp Require Import base gmap strings list.
From Verif Require Import GoBase Encoding SpecEncoding BuiltinFacts Records Messages SpecMessages MessageFacts AccumFacts
  Env SyncMap Tokens Cache SpecStore StoreFacts StoreLemmas ListFacts EventFacts HistFacts StoreExamples Dispatch DispatchFacts Diff.

Local Open Scope list_scope.
Local Opaque vanflow_registry builtin_types record_types Encode Decode.

(** ** The delta *)

(** [d] is what [b] has that [a] has not, plus type and identity. *)
Definition is_delta (a b d : attrset) : Prop :=
  forall k x, d !! k = Some x <-> b !! k = Some x /\ (a !! k <> Some x \/ k = KU32 0 \/ k = KU32 1).

Lemma identifying_spec k : identifying k = true <-> k = KU32 0 \/ k = KU32 1.
Proof.
  destruct k as [c|s]; cbn; [|split; [done|by intros [?|?]]]. rewrite N.ltb_lt. split.
  - intros H. assert (c = 0 \/ c = 1)%N as [-> | ->] by lia; tauto.
  - intros [[= ->]|[= ->]]; lia.
Qed.

Lemma diff_loop_spec prev l delta d0 delta' d : NoDup (fst <$> l) -> diff_loop prev l delta d0 = (delta', d) ->
  (d = true <-> d0 = true \/ exists k x, (k, x) ∈ l /\ prev !! k <> Some x) /\
  (forall k x, delta' !! k = Some x <->
     ((k, x) ∈ l /\ (prev !! k <> Some x \/ k = KU32 0 \/ k = KU32 1)) \/
     (delta !! k = Some x /\ forall y, (k, y) ∈ l -> ~ (prev !! k <> Some y \/ k = KU32 0 \/ k = KU32 1))).
Proof.
  revert delta d0. induction l as [|[k v] l IH]; intros delta d0 Hnd H.
  - cbn in H. injection H as <- <-. split.
    + split; [by left|]. intros [H|(k & x & H & _)]; [done|]. by apply not_elem_of_nil in H.
    + intros k x. split; [intros H; right; split; [done|]; intros y Hy; by apply not_elem_of_nil in Hy|].
      intros [[H _]|[H _]]; [by apply not_elem_of_nil in H|done].
  - rewrite fmap_cons, NoDup_cons in Hnd. destruct Hnd as [Hk Hnd]. cbn [fst] in Hk.
    assert (forall x, (k, x) ∈ l -> False) as Hfresh.
    { intros x Hx. apply Hk. apply elem_of_list_fmap. by exists (k, x). }
    (* the step either records (k, v) or not *)
    assert (exists delta1 d1, diff_loop prev l delta1 d1 = (delta', d) /\
      (d1 = true <-> d0 = true \/ prev !! k <> Some v) /\
      ((prev !! k <> Some v \/ k = KU32 0 \/ k = KU32 1) /\ delta1 = <[k := v]> delta \/
       ~ (prev !! k <> Some v \/ k = KU32 0 \/ k = KU32 1) /\ delta1 = delta)) as (delta1 & d1 & H1 & Hd1 & Hdel).
    { cbn [diff_loop] in H. destruct (prev !! k) as [pv|] eqn:Ep.
      - case_bool_decide as Ev.
        + subst pv. destruct (identifying k) eqn:Ei.
          * exists (<[k := v]> delta), d0. split; [exact H|]. split; [split; [by left|intros [?|?]; done]|].
            apply identifying_spec in Ei. left. split; [by right|done].
          * exists delta, d0. split; [exact H|]. split; [split; [by left|intros [?|?]; done]|].
            right. split; [|done]. intros [?|Hi]; [done|]. apply identifying_spec in Hi. congruence.
        + assert (Some pv <> Some v) as Hne by congruence.
          exists (<[k := v]> delta), true. split.
          * destruct (identifying k); [by rewrite insert_insert in H|exact H].
          * split; [split; [by right|done]|]. left. split; [by left|done].
      - exists (<[k := v]> delta), true. split; [exact H|]. split; [split; [by right|done]|]. left. split; [by left|done]. }
    destruct (IH _ _ Hnd H1) as [IHd IHk]. split.
    + rewrite IHd, Hd1. split.
      * intros [[Hd|Hd]|(k' & x' & Hin & Hp)]; [by left|right; exists k, v; split; [apply elem_of_list_here|done]|].
        right. exists k', x'. split; [by apply elem_of_list_further|done].
      * intros [Hd|(k' & x' & Hin & Hp)]; [by left; left|]. apply elem_of_cons in Hin as [[= -> ->]|Hin]; [by left; right|].
        right. eauto.
    + intros k' x'. rewrite IHk. setoid_rewrite elem_of_cons. destruct (decide (k' = k)) as [->|Hne].
      * destruct Hdel as [[Hc ->]|[Hc ->]].
        -- rewrite lookup_insert. split.
           ++ intros [[Hin _]|[[= <-] _]]; [by destruct (Hfresh _ Hin)|]. left. split; [by left|done].
           ++ intros [[[[= ->]|Hin] Hc']|[_ Hno]]; [right; split; [done|]; intros y Hy; by destruct (Hfresh _ Hy)|by destruct (Hfresh _ Hin)|].
              exfalso. apply (Hno v); [by left|done].
        -- split.
           ++ intros [[Hin _]|[Hd Hno]]; [by destruct (Hfresh _ Hin)|]. right. split; [done|].
              intros y [[= ->]|Hy]; [done|by apply Hno].
           ++ intros [[[[= ->]|Hin] Hc']|[Hd Hno]]; [done|by destruct (Hfresh _ Hin)|].
              right. split; [done|]. intros y Hy. by destruct (Hfresh _ Hy).
      * assert (delta1 !! k' = delta !! k') as ->.
        { destruct Hdel as [[_ ->]|[_ ->]]; [by rewrite lookup_insert_ne|done]. }
        split.
        -- intros [[Hin Hc]|[Hd Hno]]; [left; split; [by right|done]|]. right. split; [done|].
           intros y [[= -> ->]|Hy]; [done|by apply Hno].
        -- intros [[[[= -> ->]|Hin] Hc]|[Hd Hno]]; [done|by left|]. right. split; [done|]. intros y Hy. apply Hno. by right.
Qed.

Lemma diff_attrs e a b delta d : env_ok e -> diff_loop a (env_iter e "diff" _ (map_to_list b)) ∅ false = (delta, d) ->
  (d = true <-> ~ b ⊆ a) /\ is_delta a b delta.
Proof.
  intros [He _] H. pose proof (He "diff" _ (map_to_list b)) as Hperm. 
  assert (NoDup (fst <$> env_iter e "diff" _ (map_to_list b))) as Hnd.
  { rewrite Hperm. apply NoDup_fst_map_to_list. }
  destruct (diff_loop_spec _ _ _ _ _ _ Hnd H) as [Hd Hk].
  split.
  - rewrite Hd. split.
    + intros [?|(k & x & Hin & Hp)] Hs; [done|]. rewrite Hperm, elem_of_map_to_list in Hin.
      apply Hp. by eapply lookup_weaken.
    + intros Hs. right. rewrite map_subseteq_spec in Hs.
      destruct (decide (map_Forall (fun k x => a !! k = Some x) b)) as [HF|HF].
      * exfalso. apply Hs. intros k x Hx. by apply HF.
      * apply map_not_Forall in HF as (k & x & Hx & Hp); [|intros ? ?; apply _].
        exists k, x. rewrite Hperm, elem_of_map_to_list. done.
  - intros k x. rewrite Hk. setoid_rewrite Hperm. rewrite elem_of_map_to_list, lookup_empty. split.
    + intros [H1|[H1 _]]; [done|discriminate].
    + by left.
Qed.

(** A subset of a record's attributes with type and identity is a record. *)
Lemma sub_record r b d : good_record r -> Encode vanflow_registry (vrec_any r) = EncOk b ->
  d ⊆ b -> is_Some (d !! KU32 0) -> is_Some (d !! KU32 1) ->
  exists r', Decode vanflow_registry (Some d) = Ok (vrec_any r') /\ good_record r' /\ vr_ptr r' = true /\
    vr_type r' = vr_type r /\ vrec_identity r' = vrec_identity r /\ Encode vanflow_registry (vrec_any r') = EncOk d.
Proof.
  intros G E Hs H0 H1.
  destruct (good_builtin _ G) as (c & n & fs & l & p & vs & B & Hin & -> & Hty & Hfit).
  unfold vrec_any in *. cbn [vr_ptr vr_type vr_val] in *.
  pose proof (encode_clean _ _ _ _ _ _ _ B Hty Hfit E) as [[C0 Cown Creq Crange] Cfor].
  assert (forall k x, d !! k = Some x -> b !! k = Some x) as Hw by (intros k x Hx; by eapply lookup_weaken).
  assert (clean c l d) as C.
  { split; [split|].
    - destruct H0 as [x Hx]. pose proof (Hw _ _ Hx). congruence.
    - intros f x Hf Hx. by apply Cown, Hw.
    - intros f Hf Hq. destruct B as [B1 B2]. apply (builtin_required _ _ _ _ _ B1 B2 Hf) in Hq. by rewrite Hq.
    - intros k x Hk Hx. eapply Crange; [exact Hk|]. by apply Hw.
    - intros k x Hk Hx. eapply Cfor; [exact Hk|]. by apply Hw. }
  destruct (clean_decode _ _ _ _ _ B (proj1 C)) as (ws & a' & Hd & Hty2 & Hfit2 & He & Hc & Hk & Hfix).
  rewrite (Hfix C) in He.
  exists (VRec true (GStruct n fs) (VStruct ws)). cbn [vr_ptr vr_type vr_val].
  split; [exact Hd|]. split.
  { exists n, fs, ws. split; [reflexivity|]. split; [reflexivity|]. split; [exact Hin|]. split; [exact Hty2|exact Hfit2]. }
  split; [reflexivity|]. split; [reflexivity|]. split; [|exact He].
  destruct (encode_identity _ _ _ _ _ _ _ B Hty2 Hfit2 He) as [I1 _].
  destruct (encode_identity _ _ _ _ _ _ _ B Hty Hfit E) as [I2 _].
  apply Hw in I1. unfold vrec_identity. simpl. congruence.
Qed.

Lemma good_type_attr r b : good_record r -> Encode vanflow_registry (vrec_any r) = EncOk b -> is_Some (b !! KU32 0).
Proof.
  intros G E. destruct (good_builtin _ G) as (c & n & fs & l & p & vs & B & Hin & -> & Hty & Hfit).
  unfold vrec_any in *. cbn [vr_ptr vr_type vr_val] in *.
  pose proof (encode_clean _ _ _ _ _ _ _ B Hty Hfit E) as [[C0 _ _ _] _]. eauto.
Qed.

Lemma as_good_record r : good_record r -> vr_ptr r = true -> as_record (vrec_any r) = Some r.
Proof.
  intros (n & fs & vs & Et & Ev & Hin & _) Hp. destruct r as [p t v]. cbn in *. subst p.
  unfold vrec_any. cbn [vr_ptr vr_type vr_val]. rewrite as_record_ptr. by rewrite decide_True.
Qed.

Lemma diff_spec e p c a b : env_ok e ->
  good_record p -> Encode vanflow_registry (vrec_any p) = EncOk a ->
  good_record c -> Encode vanflow_registry (vrec_any c) = EncOk b ->
  (b ⊆ a -> diff_record e (RecUpdate (Some p) (Some c)) = DNone) /\
  (~ b ⊆ a -> exists r d, diff_record e (RecUpdate (Some p) (Some c)) = DRec (Some r) /\ good_record r /\
     vr_type r = vr_type c /\ vrec_identity r = vrec_identity c /\
     Encode vanflow_registry (vrec_any r) = EncOk d /\ is_delta a b d /\ d ∪ a = b ∪ a).
Proof.
  intros He Gp Ea Gc Eb. unfold diff_record. cbn [ru_prev ru_curr rec_any]. rewrite Ea, Eb.
  destruct (diff_loop a (env_iter e "diff" _ (map_to_list b)) ∅ false) as [delta d] eqn:El.
  destruct (diff_attrs e a b delta d He El) as [Hd Hdel]. split.
  - intros Hs. destruct d; [|reflexivity]. exfalso. by apply Hd.
  - intros Hs. rewrite (proj2 Hd Hs).
    assert (delta ⊆ b) as Hsub. { apply map_subseteq_spec. intros k x Hx. by apply Hdel in Hx as [? _]. }
    destruct (sub_record c b delta Gc Eb Hsub) as (r & Hdec & Gr & Hp & Ht & Hi & Er).
    { destruct (good_type_attr c b Gc Eb) as [x Hx]. exists x. apply Hdel. split; [exact Hx|]. right. by left. }
    { destruct (good_identity c b Gc Eb) as [Hx _]. eexists. apply Hdel. split; [exact Hx|]. right. by right. }
    exists r, delta. rewrite Hdec. rewrite (as_good_record r Gr Hp). split; [reflexivity|]. split; [exact Gr|].
    split; [exact Ht|]. split; [exact Hi|]. split; [exact Er|]. split; [exact Hdel|].
    apply map_eq. intros k. apply option_eq. intros x. rewrite !lookup_union_Some_raw. split.
    + intros [H|[Hn Ha]].
      * left. by apply Hdel in H as [? _].
      * destruct (b !! k) as [y|] eqn:Ek; [|by right].
        left. destruct (decide (x = y)) as [->|Hne]; [done|]. exfalso.
        assert (delta !! k = Some y) as H; [|by rewrite H in Hn]. apply Hdel. split; [exact Ek|]. left. congruence.
    + intros [H|[Hn Ha]].
      * destruct (decide (a !! k = Some x)) as [Ha|Ha].
        -- destruct (delta !! k) as [y|] eqn:Ed; [left; apply Hdel in Ed as [? _]; congruence|by right].
        -- left. apply Hdel. split; [exact H|]. by left.
      * right. split; [|done]. destruct (delta !! k) as [y|] eqn:Ed; [|done]. apply Hdel in Ed as [? _]. congruence.
Qed.
