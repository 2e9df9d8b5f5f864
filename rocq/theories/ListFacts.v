(** Listing, ordering and paging. *)
From Coq Require Import ZArith NArith Ascii String Lia.
From stdpp Require Import base gmap strings list sorting.
From Verif Require Import GoBase Encoding SpecEncoding Records Env SyncMap SyncMapFacts Tokens TokenFacts
  Cache SpecStore StoreFacts StoreLemmas.

Local Open Scope list_scope.

(** ** An environment *)

Fixpoint insert_by {A} (less : A -> A -> bool) (x : A) (l : list A) : list A :=
  match l with
  | [] => [x]
  | y :: l' => if less y x then y :: insert_by less x l' else x :: y :: l'
  end.
Definition sort_by (A : Type) (less : A -> A -> bool) (l : list A) : list A :=
  foldr (insert_by less) [] l.

Lemma insert_by_perm {A} less (x : A) l : insert_by less x l ≡ₚ x :: l.
Proof.
  induction l as [|y l IH]; simpl; [done|]. destruct (less y x); [|done].
  rewrite IH. by rewrite Permutation_swap.
Qed.

Lemma sort_by_perm A less l : sort_by A less l ≡ₚ l.
Proof. induction l as [|x l IH]; simpl; [done|]. by rewrite insert_by_perm, IH. Qed.

Lemma insert_by_sorted {A} (less : A -> A -> bool) (lt : A -> A -> Prop) x l :
  strict_weak lt -> (forall y, y ∈ l -> (less y x = true <-> lt y x)) ->
  StronglySorted (fun x y => ~ lt y x) l -> StronglySorted (fun x y => ~ lt y x) (insert_by less x l).
Proof.
  intros Hw. induction l as [|y l IH]; intros Hag Hs; simpl; [constructor; constructor|].
  inversion Hs as [|? ? Hs' Hf]; subst.
  destruct (less y x) eqn:E.
  - apply Hag in E; [|left]. constructor.
    + apply IH; [|done]. intros z Hz. apply Hag. by right.
    + rewrite Forall_forall in *. intros z Hz. rewrite insert_by_perm in Hz.
      apply elem_of_cons in Hz as [->|Hz]; [|by apply Hf].
      intros H. eapply (sw_irrefl _ Hw). by eapply (sw_trans _ Hw).
  - assert (~ lt y x) as Hn. { intros H. apply Hag in H; [congruence|left]. }
    constructor; [done|]. constructor; [done|]. rewrite Forall_forall in *. intros z Hz.
    apply (sw_incomp _ Hw z y x); auto.
Qed.

Lemma sort_by_contract : sort_contract sort_by.
Proof.
  intros A less l. split; [apply sort_by_perm|]. intros lt Hw Hag.
  induction l as [|x l IH]; simpl; [constructor|]. apply insert_by_sorted; [done| |].
  - intros y Hy. rewrite sort_by_perm in Hy. apply elem_of_list_lookup in Hy as [i Hi].
    apply (Hag (S i) 0 y x); done.
  - apply IH. intros i j y z Hij Hi Hj. apply (Hag (S i) (S j)); [congruence|done|done].
Qed.

Definition plain_env (now : gotime) : env := Env now (fun _ _ l => l) sort_by.

Lemma plain_env_ok now : env_ok (plain_env now).
Proof. split; [done|]. apply sort_by_contract. Qed.

(** ** Ordered listings *)

(** Different stored entries have different sort keys. *)
Definition distinct_stored (cf : config) (st : plain) : Prop :=
  forall k1 k2 x1 x2 c, entry_at st k1 = Some x1 -> entry_at st k2 = Some x2 ->
    has_sort_key cf x1 c -> has_sort_key cf x2 c -> k1 = k2.

(** The entries satisfying [P], in order. *)
Definition ordered (cf : config) (st : plain) (o : ordering) (P : entry -> Prop) (l : list entry) : Prop :=
  enumerates st P l /\ StronglySorted (before cf o) l.

Lemma enumerates_NoDup cf st P l : distinct_stored cf st -> enumerates st P l -> NoDup (sort_key cf <$> l).
Proof.
  intros Hd (ks & Hnd & Hf & _). clear P.
  induction Hf as [|k x ks l Hx Hf IH]; [constructor|]. rewrite fmap_cons.
  apply NoDup_cons in Hnd as [Hk Hnd]. constructor; [|auto].
  intros Hin. apply elem_of_list_fmap in Hin as (y & E & Hy). apply Hk.
  apply elem_of_list_lookup in Hy as [i Hy]. destruct (Forall2_lookup_r _ _ _ _ _ Hf Hy) as (k' & Hk' & Hy').
  assert (k = k') as ->; [|by eapply elem_of_list_lookup_2].
  apply (Hd k k' x y (sort_key cf x)); [done|done|by apply sort_key_has|by apply sort_key_has].
Qed.

Lemma before_total cf o x y : sort_key cf x <> sort_key cf y -> ~ before cf o y x -> before cf o x y.
Proof.
  rewrite !before_iff. intros Hne Hn. destruct (str_lt_total (sort_key cf x) (sort_key cf y)) as [H|[H|H]];
    destruct o; done.
Qed.

Lemma strengthen cf o l : NoDup (sort_key cf <$> l) ->
  StronglySorted (fun x y => ~ before cf o y x) l -> StronglySorted (before cf o) l.
Proof.
  induction l as [|x l IH]; intros Hnd Hs; [constructor|].
  rewrite fmap_cons, NoDup_cons in Hnd. destruct Hnd as [Hx Hnd]. inversion Hs as [|? ? Hs' Hf]; subst.
  constructor; [auto|]. rewrite Forall_forall in *. intros y Hy. apply before_total; [|auto].
  intros E. apply Hx. rewrite E. by apply elem_of_list_fmap_1.
Qed.

Lemma sorted_unique cf o l l' : StronglySorted (before cf o) l -> StronglySorted (before cf o) l' ->
  l ≡ₚ l' -> l = l'.
Proof.
  assert (AntiSymm (=) (before cf o)) as Ha.
  { intros x y H1 H2. destruct (sw_irrefl _ (before_weak cf o) x). by eapply (sw_trans _ (before_weak cf o)). }
  intros. by apply (StronglySorted_unique (before cf o)).
Qed.

Lemma env_sorted cf e o st P l l0 : env_ok e -> distinct_stored cf st -> enumerates st P l0 ->
  ordered cf st o P l -> env_sort e _ (sort_less cf o) l0 = l.
Proof.
  intros He Hd Hl0 [Hl Hs]. destruct (proj2 He _ (sort_less cf o) l0) as [Hp _].
  apply (sorted_unique cf o); [|done|].
  - assert (NoDup (sort_key cf <$> l0)) as Hnd by by eapply enumerates_NoDup.
    apply strengthen; [by rewrite Hp|]. apply (sorted_in_order cf e o l0 He). right.
    apply distinct_keys_alt. by rewrite Hp.
  - rewrite Hp. by eapply enumerates_perm.
Qed.

Lemma Forall2_permute {A B} (R : A -> B -> Prop) ks l l' : Forall2 R ks l -> l ≡ₚ l' ->
  exists ks', ks ≡ₚ ks' /\ Forall2 R ks' l'.
Proof.
  intros Hf Hp. revert ks Hf. induction Hp as [|x l l' Hp IH|x y l|l1 l2 l3 H1 IH1 H2 IH2]; intros ks Hf.
  - inversion Hf; subst. exists []. done.
  - inversion Hf as [|k ? ks0 ? Hk Hf']; subst. destruct (IH _ Hf') as (ks' & Hp' & Hf2).
    exists (k :: ks'). split; [by rewrite Hp'|]. by constructor.
  - inversion Hf as [|k ? ks0 ? Hk Hf']; subst. inversion Hf' as [|k2 ? ks1 ? Hk2 Hf2]; subst.
    exists (k2 :: k :: ks1). split; [apply Permutation_swap|]. by repeat constructor.
  - destruct (IH1 _ Hf) as (ks1 & Hp1 & Hf1). destruct (IH2 _ Hf1) as (ks2 & Hp2 & Hf2).
    exists ks2. split; [by rewrite Hp1|done].
Qed.

Lemma enumerates_permute st P l l' : enumerates st P l -> l ≡ₚ l' -> enumerates st P l'.
Proof.
  intros (ks & Hnd & Hf & Hk) Hp. destruct (Forall2_permute _ _ _ _ Hf Hp) as (ks' & Hp' & Hf').
  exists ks'. split; [by rewrite <- Hp'|]. split; [done|]. intros k. by rewrite <- Hp'.
Qed.

Lemma ordered_exists cf st o P : distinct_stored cf st -> (exists l, enumerates st P l) ->
  exists l, ordered cf st o P l.
Proof.
  intros Hd [l Hl]. pose proof (plain_env_ok zero_time) as He.
  destruct (proj2 He _ (sort_less cf o) l) as [Hp _]. cbn [env_sort plain_env] in Hp.
  exists (sort_by _ (sort_less cf o) l). split; [by eapply enumerates_permute|].
  assert (NoDup (sort_key cf <$> l)) as Hnd by by eapply enumerates_NoDup.
  apply strengthen; [by rewrite Hp|]. apply (sorted_in_order cf _ o l He). right.
  apply distinct_keys_alt. simpl. by rewrite Hp.
Qed.

(** The page of an ordered list. *)
Lemma selected cf e o st P l l0 sel : env_ok e -> distinct_stored cf st -> enumerates st P l0 ->
  s_ordering sel = o -> ordered cf st o P l ->
  apply_selector cf e l0 sel =
    if bool_decide (s_continue sel = ""%string) then take_page e l (s_offset sel) (s_limit sel)
    else match decode_continue (s_continue sel) with
         | None => OutSet l "" (Some SToken)
         | Some off => take_page e l off (s_limit sel)
         end.
Proof. intros He Hd Hl0 Ho Hl. unfold apply_selector. rewrite Ho. by rewrite (env_sorted cf e o st P l l0). Qed.

Lemma take_page_all e l off lim : (0 <= off)%Z -> (lim <= 0)%Z ->
  take_page e l off lim = OutSet (drop (Z.to_nat off) l) "" None.
Proof.
  intros H0 Hl. unfold take_page.
  assert ((0 <? lim)%Z = false) as -> by lia. cbn [andb].
  destruct (Z.geb_spec off (Z.of_nat (length l))).
  - by rewrite drop_ge by lia.
  - assert ((off <? 0)%Z = false) as -> by lia. done.
Qed.

Lemma list_ordered cf e s sel l : env_ok e -> distinct_stored cf (contents s) ->
  s_continue sel = ""%string -> (s_limit sel <= 0)%Z -> (0 <= s_offset sel)%Z ->
  ordered cf (contents s) (s_ordering sel) (fun _ => True) l ->
  run_op cf e s (OList (Some sel)) = (s, OutSet (drop (Z.to_nat (s_offset sel)) l) "" None, []).
Proof.
  intros He Hd Hc Hlim Hoff Hl. simpl. unfold list_all.
  rewrite (selected cf e (s_ordering sel) (contents s) (fun _ => True) l); [|done|done|by apply enumerates_list|done|done].
  rewrite bool_decide_true by done. by rewrite take_page_all.
Qed.

Lemma index_ordered cf e s name f x sel l : env_ok e -> reachable cf s -> cf_indexers cf !! name = Some f ->
  distinct_stored cf (contents s) ->
  s_continue sel = ""%string -> (s_limit sel <= 0)%Z -> (0 <= s_offset sel)%Z ->
  ordered cf (contents s) (s_ordering sel) (fun y => exists b, b ∈ f x /\ b ∈ f y) l ->
  run_op cf e s (OIndex name x (Some sel)) = (s, OutSet (drop (Z.to_nat (s_offset sel)) l) "" None, []).
Proof.
  intros He Hr Hf Hd Hc Hlim Hoff Hl. simpl. unfold index_of.
  destruct (enumerates_index cf e s name f x He (reachable_inv _ _ Hr) Hf) as (l0 & -> & Hl0).
  rewrite (selected cf e (s_ordering sel) (contents s) (fun y => exists b, b ∈ f x /\ b ∈ f y) l); [|done..].
  rewrite bool_decide_true by done. by rewrite take_page_all.
Qed.

Lemma ordered_list_exists cf s o : distinct_stored cf (contents s) ->
  exists l, ordered cf (contents s) o (fun _ => True) l.
Proof.
  intros Hd. apply ordered_exists; [done|]. eexists. apply (enumerates_list (plain_env zero_time)).
  apply plain_env_ok.
Qed.

Lemma ordered_index_exists cf s name f x o : reachable cf s -> cf_indexers cf !! name = Some f ->
  distinct_stored cf (contents s) ->
  exists l, ordered cf (contents s) o (fun y => exists b, b ∈ f x /\ b ∈ f y) l.
Proof.
  intros Hr Hf Hd. apply ordered_exists; [done|].
  destruct (enumerates_index cf (plain_env zero_time) s name f x (plain_env_ok _) (reachable_inv _ _ Hr) Hf)
    as (l0 & _ & Hl0). eauto.
Qed.

(** Ascending listings are sorted even when keys repeat. *)
Lemma list_ascending cf e s sel : env_ok e -> s_ordering sel = Ascending ->
  s_continue sel = ""%string -> (s_limit sel <= 0)%Z -> (0 <= s_offset sel)%Z ->
  exists l, enumerates (contents s) (fun _ => True) l /\
    StronglySorted (fun x y => ~ before cf Ascending y x) l /\
    run_op cf e s (OList (Some sel)) = (s, OutSet (drop (Z.to_nat (s_offset sel)) l) "" None, []).
Proof.
  intros He Ho Hc Hlim Hoff. simpl. unfold list_all, apply_selector.
  pose proof (enumerates_list e s He) as Hl. set (l0 := vc_res <$> sm_list e s) in *.
  exists (env_sort e _ (sort_less cf Ascending) l0).
  split; [|split].
  - eapply enumerates_permute; [exact Hl|]. symmetry. apply (proj2 He).
  - apply (sorted_in_order cf e Ascending l0 He). by left.
  - rewrite Ho, bool_decide_true by done. by rewrite take_page_all.
Qed.

(** ** Paging *)

(** Following continue tokens with List: the pages, or nothing if a call fails
    or the environments run out first. *)
Fixpoint page_through (cf : config) (s : items) (envs : list env) (sel : selector) : option (list (list entry)) :=
  match envs with
  | [] => None
  | e :: envs' =>
      match (run_op cf e s (OList (Some sel))).1.2 with
      | OutSet page tok None =>
          if bool_decide (tok = ""%string) then Some [page]
          else cons page <$> page_through cf s envs'
                 (Selector (s_offset sel) (s_limit sel) tok (s_ordering sel))
      | _ => None
      end
  end.

Lemma make_continue_ne nonce off : make_continue nonce off <> ""%string.
Proof.
  intros E. destruct (continue_wrap nonce off) as (k & H & _). rewrite E in H. by vm_compute in H.
Qed.

(** One page, from the offset meant by the selector. *)
Definition effective (sel : selector) (off : Z) : Prop :=
  (s_continue sel = ""%string /\ off = s_offset sel) \/
  (s_continue sel <> ""%string /\ decode_continue (s_continue sel) = Some off).

Lemma list_effective cf e s sel l off : env_ok e -> distinct_stored cf (contents s) ->
  ordered cf (contents s) (s_ordering sel) (fun _ => True) l -> effective sel off ->
  (run_op cf e s (OList (Some sel))).1.2 = take_page e l off (s_limit sel).
Proof.
  intros He Hd Hl Heff. simpl. unfold list_all.
  rewrite (selected cf e (s_ordering sel) (contents s) (fun _ => True) l); [|done|done|by apply enumerates_list|done|done].
  destruct Heff as [[Hc ->]|[Hc ->]]; [by rewrite bool_decide_true|by rewrite bool_decide_false].
Qed.

Lemma page_through_spec cf s lim l (n : nat) : distinct_stored cf (contents s) -> (0 < lim)%Z ->
  (Z.of_nat (length l) < 2^31)%Z ->
  forall envs sel off, ordered cf (contents s) (s_ordering sel) (fun _ => True) l ->
  s_limit sel = lim -> Forall env_ok envs -> effective sel off -> (0 <= off)%Z ->
  (Z.of_nat (length l) - off <= lim * Z.of_nat n)%Z -> n <= length envs -> 1 <= length envs ->
  exists init final, page_through cf s envs sel = Some (init ++ [final]) /\
    concat (init ++ [final]) = drop (Z.to_nat off) l /\
    Forall (fun p => Z.of_nat (length p) = lim) init /\ (Z.of_nat (length final) <= lim)%Z.
Proof.
  intros Hd Hlim Hlen. induction n as [|n IH]; intros envs sel off Hl Hsl Henv Heff H0 Hn Hle H1;
    destruct envs as [|e envs]; cbn [length] in *; try lia; cbn [page_through];
    inversion Henv as [|? ? He Henv']; subst;
    rewrite (list_effective cf e s sel l off He Hd Hl Heff); unfold take_page.
  - assert ((off >=? Z.of_nat (length l))%Z = true) as -> by lia.
    assert ((s_limit sel <? Z.of_nat (@length entry []))%Z = false) as -> by (apply Z.ltb_ge; simpl; lia).
    rewrite andb_false_r, bool_decide_true by done.
    exists [], []. simpl. rewrite drop_ge by lia. split; [done|]. split; [done|]. split; [constructor|lia].
  - destruct (Z.geb_spec off (Z.of_nat (length l))) as [Hge|Hlt].
    + assert ((s_limit sel <? Z.of_nat (@length entry []))%Z = false) as -> by (apply Z.ltb_ge; simpl; lia).
      rewrite andb_false_r, bool_decide_true by done.
      exists [], []. simpl. rewrite drop_ge by lia. split; [done|]. split; [done|]. split; [constructor|lia].
    + assert ((off <? 0)%Z = false) as -> by lia. rewrite drop_length.
      assert ((0 <? s_limit sel)%Z = true) as -> by lia. cbn [andb].
      destruct (Z.ltb_spec (s_limit sel) (Z.of_nat (length l - Z.to_nat off))) as [Hmore|Hlast].
      * rewrite bool_decide_false by apply make_continue_ne.
        rewrite Nat2Z.inj_succ, Z.mul_succ_r in Hn.
        assert (n <> 0) by (intros ->; simpl in Hn; lia).
        destruct (IH envs (Selector (s_offset sel) (s_limit sel)
          (make_continue (t_sec (env_now e)) (off + s_limit sel)) (s_ordering sel)) (off + s_limit sel)%Z)
          as (init & final & Hp & Hc & Hf & Hfin); [done|done|done| |lia|lia|lia|lia|].
        { right. split; [apply make_continue_ne|]. apply continue_round_trip. lia. }
        rewrite Hp. cbn [fmap option_fmap option_map].
        exists (take (Z.to_nat (s_limit sel)) (drop (Z.to_nat off) l) :: init), final.
        split; [done|]. split; [|split; [|done]].
        -- simpl. rewrite Hc. rewrite Z2Nat.inj_add by lia. rewrite <- drop_drop. apply take_drop.
        -- constructor; [|done]. rewrite take_length, drop_length. lia.
      * rewrite bool_decide_true by done. exists [], (drop (Z.to_nat off) l). simpl. rewrite app_nil_r.
        split; [done|]. split; [done|]. split; [constructor|]. rewrite drop_length. lia.
Qed.

Lemma paging cf s sel envs l : distinct_stored cf (contents s) ->
  ordered cf (contents s) (s_ordering sel) (fun _ => True) l ->
  (0 < s_limit sel)%Z -> s_continue sel = ""%string -> s_offset sel = 0%Z ->
  (Z.of_nat (length l) < 2^31)%Z -> Forall env_ok envs ->
  (Z.of_nat (length l) <= s_limit sel * Z.of_nat (length envs))%Z -> envs <> [] ->
  exists init final, page_through cf s envs sel = Some (init ++ [final]) /\
    concat (init ++ [final]) = l /\
    Forall (fun p => Z.of_nat (length p) = s_limit sel) init /\ (Z.of_nat (length final) <= s_limit sel)%Z.
Proof.
  intros Hd Hl Hlim Hc Ho Hlen Henv Hn Hne.
  destruct (page_through_spec cf s (s_limit sel) l (length envs) Hd Hlim Hlen envs sel 0)
    as (init & final & H); [done|done|done|by left|lia|lia|lia| |].
  { destruct envs; [done|simpl; lia]. }
  exists init, final. exact H.
Qed.

(** ** Crashes *)

Lemma take_page_panic e l off lim : take_page e l off lim = OutPanic <-> (off < 0)%Z.
Proof.
  unfold take_page. destruct (Z.geb_spec off (Z.of_nat (length l))).
  - destruct (_ && _); split; try done; lia.
  - destruct (Z.ltb_spec off 0); [done|]. destruct (_ && _); split; try done; lia.
Qed.

Lemma selector_panic cf e l sel : apply_selector cf e l sel = OutPanic <->
  exists off, effective sel off /\ (off < 0)%Z.
Proof.
  unfold apply_selector, effective. case_bool_decide as Hc.
  - rewrite take_page_panic. naive_solver.
  - destruct (decode_continue (s_continue sel)) as [off|]; [rewrite take_page_panic|]; naive_solver.
Qed.

Lemma list_panic cf e s sel : (run_op cf e s (OList sel)).1.2 = OutPanic <->
  exists sel' off, sel = Some sel' /\ effective sel' off /\ (off < 0)%Z.
Proof.
  simpl. unfold list_all. destruct sel as [sel|]; [rewrite selector_panic|]; naive_solver.
Qed.

Lemma index_panic cf e s name x sel : (run_op cf e s (OIndex name x sel)).1.2 = OutPanic <->
  is_Some (cf_indexers cf !! name) /\ exists sel' off, sel = Some sel' /\ effective sel' off /\ (off < 0)%Z.
Proof.
  simpl. unfold index_of, sm_index. destruct (cf_indexers cf !! name) as [f|] eqn:E.
  - destruct sel as [sel|]; [rewrite selector_panic|]; naive_solver.
  - split; [done|]. intros [[? ?] _]. done.
Qed.
