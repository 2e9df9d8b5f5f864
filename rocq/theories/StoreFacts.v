(** Proofs about the sequential store: refinement of the plain map. *)
From Coq Require Import ZArith NArith Ascii String Lia.
From stdpp Require Import base gmap strings list sorting.
From Verif Require Import GoBase Encoding SpecEncoding Records Env SyncMap SyncMapFacts Tokens TokenFacts
  Cache SpecStore.

Local Open Scope list_scope.
Local Opaque vanflow_registry.

(** ** String order *)

Lemma str_compare_lt s t : String.compare s t = Lt <-> str_lt s t.
Proof.
  revert t; induction s as [|c s IH]; intros [|d t]; simpl.
  - split; [done|]. inversion 1.
  - split; [constructor|done].
  - split; [done|]. inversion 1.
  - unfold Ascii.compare. destruct (N.compare_spec (N_of_ascii c) (N_of_ascii d)) as [E|E|E].
    + assert (c = d) as <-. { rewrite <- (ascii_N_embedding c), <- (ascii_N_embedding d). by rewrite E. }
      rewrite IH. split; [by apply lt_tail|]. inversion 1; subst; [lia|done].
    + split; [by constructor|done].
    + split; [done|]. inversion 1; subst; lia.
Qed.

Lemma str_lt_irrefl s : ~ str_lt s s.
Proof. induction s; inversion 1; subst; [lia|done]. Qed.

Lemma str_lt_trans s t u : str_lt s t -> str_lt t u -> str_lt s u.
Proof.
  intros H; revert u; induction H; intros u Hu; inversion Hu; subst; try by constructor.
  - apply lt_head. lia.
  - apply lt_tail. auto.
Qed.

Lemma str_lt_total s t : str_lt s t \/ s = t \/ str_lt t s.
Proof.
  revert t; induction s as [|c s IH]; intros [|d t].
  - auto.
  - left; constructor.
  - right; right; constructor.
  - destruct (N.lt_trichotomy (N_of_ascii c) (N_of_ascii d)) as [E|[E|E]].
    + left. by constructor.
    + assert (c = d) as <-. { rewrite <- (ascii_N_embedding c), <- (ascii_N_embedding d). by rewrite E. }
      destruct (IH t) as [H|[->|H]]; [left|right; left|right; right]; [by apply lt_tail|done|by apply lt_tail].
    + right. right. by constructor.
Qed.

Lemma str_lt_incomp s t u : ~ str_lt s t -> ~ str_lt t u -> ~ str_lt s u.
Proof.
  intros H1 H2 H. destruct (str_lt_total s t) as [?|[->|Ht]]; [done|done|].
  destruct (str_lt_total t u) as [?|[->|Hu]]; [done|done|].
  eapply str_lt_irrefl. eapply str_lt_trans; [exact H|]. by eapply str_lt_trans.
Qed.

Lemma str_compare_ge s t : String.compare s t <> Lt <-> t = s \/ str_lt t s.
Proof.
  rewrite str_compare_lt. destruct (str_lt_total s t) as [H|[->|H]].
  - split; [done|]. intros [->|H']; [by apply str_lt_irrefl in H|]. intros _.
    eapply str_lt_irrefl. by eapply str_lt_trans.
  - split; [by left|]. intros _. apply str_lt_irrefl.
  - split; [by right|]. intros _ H'. eapply str_lt_irrefl. by eapply str_lt_trans.
Qed.

(** ** Sorting *)

Lemma sort_key_has cf x k : has_sort_key cf x k <-> k = sort_key cf x.
Proof.
  unfold has_sort_key, sort_key. destruct (cf_key cf x) as [k'|m|] eqn:E; split; try naive_solver.
Qed.

Lemma before_iff cf o x y : before cf o x y <->
  match o with Ascending => str_lt (sort_key cf x) (sort_key cf y)
  | Descending => str_lt (sort_key cf y) (sort_key cf x) end.
Proof.
  unfold before. split.
  - intros (kx & ky & Hx & Hy & H). apply sort_key_has in Hx as ->. by apply sort_key_has in Hy as ->.
  - intros H. eexists _, _. split; [by apply sort_key_has|]. split; [by apply sort_key_has|]. done.
Qed.

Lemma before_weak cf o : strict_weak (before cf o).
Proof.
  split; intros *; rewrite !before_iff; destruct o; eauto using str_lt_irrefl, str_lt_trans, str_lt_incomp.
Qed.

Lemma distinct_keys_alt cf l : distinct_keys cf l <-> NoDup (sort_key cf <$> l).
Proof.
  rewrite NoDup_alt. unfold distinct_keys. split.
  - intros H i j k Hi Hj. rewrite list_lookup_fmap in Hi, Hj.
    destruct (l !! i) as [x|] eqn:Ei; [|done]. destruct (l !! j) as [y|] eqn:Ej; [|done].
    simpl in *. apply (H i j x y k); [done|done| |]; apply sort_key_has; congruence.
  - intros H i j x y k Hi Hj Hx Hy. apply sort_key_has in Hx, Hy.
    eapply (H i j k); rewrite list_lookup_fmap; [rewrite Hi|rewrite Hj]; simpl; congruence.
Qed.

Lemma sorted_in_order cf e o l : env_ok e -> in_order cf o (env_sort e _ (sort_less cf o) l).
Proof.
  intros [_ Hs] Hcase. destruct (Hs _ (sort_less cf o) l) as [Hp Hsort].
  apply Hsort; [apply before_weak|]. intros i j x y Hij Hi Hj. rewrite before_iff.
  unfold sort_less. destruct o.
  - destruct (String.compare (sort_key cf x) (sort_key cf y)) eqn:E; rewrite <- str_compare_lt, E; done.
  - destruct Hcase as [?|Hd]; [done|]. rewrite distinct_keys_alt, Hp in Hd.
    assert (sort_key cf x <> sort_key cf y) as Hne.
    { intros Heq. apply Hij. rewrite NoDup_alt in Hd. apply (Hd i j (sort_key cf x)).
      - by rewrite list_lookup_fmap, Hi.
      - rewrite list_lookup_fmap, Hj. simpl. congruence. }
    destruct (str_compare_ge (sort_key cf x) (sort_key cf y)) as [H1 H2].
    destruct (String.compare (sort_key cf x) (sort_key cf y)) eqn:E.
    + split; [|done]. intros _. destruct (H1 ltac:(done)); [congruence|done].
    + split; [done|]. intros H. exfalso. by apply H2; [right|].
    + split; [|done]. intros _. destruct (H1 ltac:(done)); [congruence|done].
Qed.

(** ** Pages *)

Lemma take_page_spec e l off lim : page (env_now e) l off lim (take_page e l off lim).
Proof.
  unfold take_page, page.
  destruct (Z.geb_spec off (Z.of_nat (length l))) as [Hge|Hlt].
  - right. split; [lia|]. exists []. split; [right; split; [lia|done]|]. left. simpl.
    destruct (Z.ltb_spec 0 lim); simpl; [|split; [by left|done]].
    destruct (Z.ltb_spec lim (Z.of_nat 0)); [lia|]. split; [right; simpl; lia|done].
  - destruct (Z.ltb_spec off 0) as [Hneg|Hpos]; [left; done|].
    right. split; [done|]. exists (drop (Z.to_nat off) l). split.
    { left. split; [lia|]. exists (take (Z.to_nat off) l). rewrite take_drop. split; [done|].
      rewrite take_length. lia. }
    destruct (Z.ltb_spec 0 lim) as [Hl|Hl]; simpl; [|left; auto].
    destruct (Z.ltb_spec lim (Z.of_nat (length (drop (Z.to_nat off) l)))) as [H|H]; [|left; auto].
    right. split; [lia|]. eexists _, _. split; [symmetry; apply take_drop|]. split; [|done].
    rewrite take_length. lia.
Qed.

(** A page is determined by its arguments. *)
Lemma page_fun now l off lim r r' : page now l off lim r -> page now l off lim r' -> r = r'.
Proof.
  assert (forall r, page now l off lim r -> r = take_page (Env now (fun _ _ l => l) (fun _ _ l => l)) l off lim) as H.
  { clear r r'. intros r Hp. unfold take_page. simpl. destruct Hp as [[Hneg ->]|(Hpos & rest & Hrest & Hr)].
    - destruct (Z.geb_spec off (Z.of_nat (length l))); [lia|]. destruct (Z.ltb_spec off 0); [done|lia].
    - assert ((if (off >=? Z.of_nat (length l))%Z then Some [] else if (off <? 0)%Z then None
        else Some (drop (Z.to_nat off) l)) = Some rest) as ->.
      { destruct (Z.geb_spec off (Z.of_nat (length l))); destruct Hrest as [[? (sk & -> & Hsk)]|[? ->]]; try done; try lia.
        destruct (Z.ltb_spec off 0); [lia|]. rewrite drop_app_alt by lia. done. }
      destruct Hr as [[Hl ->]|(Hl & first & later & -> & Hf & ->)].
      + destruct (Z.ltb_spec 0 lim); simpl; [|done]. destruct (Z.ltb_spec lim (Z.of_nat (length rest))); [|done].
        destruct Hl; lia.
      + destruct (Z.ltb_spec 0 lim); simpl; [|lia].
        destruct (Z.ltb_spec lim (Z.of_nat (length (first ++ later)))); [|lia].
        rewrite take_app_alt by lia. done. }
  intros H1 H2. by rewrite (H r H1), (H r' H2).
Qed.

Lemma apply_selector_spec cf e l sel : env_ok e -> selects cf (env_now e) l sel (apply_selector cf e l sel).
Proof.
  intros He. unfold selects, apply_selector.
  exists (env_sort e _ (sort_less cf (s_ordering sel)) l).
  split; [apply He|]. split; [by apply sorted_in_order|].
  case_bool_decide as Hc.
  - left. split; [done|]. apply take_page_spec.
  - right. split; [done|]. destruct (decode_continue (s_continue sel)) as [off|].
    + left. exists off. split; [done|]. apply take_page_spec.
    + by right.
Qed.

(** ** Contents *)

Lemma contents_lookup s k : contents s !! k = (fun v => (vc_res v, vc_ver v)) <$> sm_items s !! k.
Proof. unfold contents. by rewrite lookup_fmap. Qed.

Lemma entry_at_contents s k : entry_at (contents s) k = vc_res <$> sm_items s !! k.
Proof. unfold entry_at. rewrite contents_lookup. by destruct (sm_items s !! k). Qed.

Lemma contents_new : contents new_simap = ∅.
Proof. unfold contents. simpl. apply fmap_empty. Qed.

Lemma contents_store ixs e key x s :
  contents (store_item ixs e key x s) = put (contents s) key x.
Proof.
  unfold store_item, put, contents. cbn [sm_items]. rewrite fmap_insert. f_equal. simpl. f_equal.
  unfold next_version. rewrite lookup_fmap. by destruct (sm_items s !! key).
Qed.

Lemma contents_delete ixs e key s : contents (sm_delete ixs e key s).1 = delete key (contents s).
Proof.
  unfold sm_delete. destruct (sm_items s !! key) as [v|] eqn:E; cbn [fst].
  - unfold contents. cbn [sm_items]. by rewrite fmap_delete.
  - rewrite delete_notin; [done|]. by rewrite contents_lookup, E.
Qed.

(** ** Patching *)

Lemma merge_attrs_spec l (a : attrset) ch :
  NoDup (fst <$> l) ->
  (merge_attrs l a ch).1 = (list_to_map l : attrset) ∪ a /\
  ((merge_attrs l a ch).2 = true <-> ch = true \/ ~ (list_to_map l : attrset) ⊆ a).
Proof.
  revert a ch; induction l as [|[k v] l IH]; intros a ch Hnd; cbn [merge_attrs list_to_map foldr].
  - simpl. split; [by rewrite (left_id_L ∅ (∪))|]. split; [by left|]. intros [?|H]; [done|].
    destruct H. apply map_empty_subseteq.
  - rewrite fmap_cons, NoDup_cons in Hnd. destruct Hnd as [Hk Hnd]. simpl in Hk.
    assert ((list_to_map l : attrset) !! k = None) as Hlk by (by apply not_elem_of_list_to_map).
    change (fst (k, v)) with k in *.
    case_bool_decide as Hc.
    + destruct (IH a ch Hnd) as [-> H2]. split.
      * simpl. rewrite <- insert_union_l. apply map_eq. intros j. destruct (decide (j = k)) as [->|Hj].
        -- rewrite lookup_insert. by rewrite lookup_union_r.
        -- by rewrite lookup_insert_ne.
      * rewrite H2. apply or_iff_compat_l. apply not_iff_compat. split.
        -- intros Hs. simpl. by apply insert_subseteq_l.
        -- intros Hs. simpl in Hs. etrans; [|exact Hs]. by apply insert_subseteq.
    + destruct (IH (<[k:=v]> a) true Hnd) as [-> H2]. split.
      * simpl. rewrite <- insert_union_r by done. by rewrite insert_union_l.
      * rewrite H2. split; [|by left]. intros _. right. intros Hs. apply Hc.
        eapply lookup_weaken; [|exact Hs]. simpl. apply lookup_insert.
Qed.

Lemma merge_union site e (a b : attrset) : env_ok e ->
  exists ch, merge_attrs (env_iter e site _ (map_to_list b)) a false = (b ∪ a, ch) /\ (ch = true <-> ~ b ⊆ a).
Proof.
  intros [He _]. set (l := env_iter e site _ (map_to_list b)).
  assert (l ≡ₚ map_to_list b) as Hp by apply He.
  assert (NoDup (fst <$> l)) as Hnd by (rewrite Hp; apply NoDup_fst_map_to_list).
  assert ((list_to_map l : attrset) = b) as Hb.
  { rewrite (list_to_map_proper l (map_to_list b) Hnd Hp). apply list_to_map_to_list. }
  destruct (merge_attrs_spec l a false Hnd) as [H1 H2]. rewrite Hb in *.
  destruct (merge_attrs l a false) as [a' ch]. simpl in *. exists ch. split; [by rewrite H1|].
  rewrite H2. naive_solver.
Qed.

Lemma rec_any_iface r : rec_any r = iface r.
Proof. by destruct r. Qed.

Lemma as_record_ptr_iff t v : (exists n, get_type_meta t = Some n) -> as_record (record_any true t v) = Some (VRec true t v).
Proof. intros [n Hn]. simpl. by rewrite Hn. Qed.

Lemma Decode_is_ptr reg s x : Decode reg s = Ok x -> exists t v, x = record_any true t v.
Proof.
  unfold Decode. destruct s as [a|]; [|done]. destruct (a !! type_of_record) as [[]|]; try done.
  destruct (decodings reg !! n) as [te|]; [|done].
  destruct (decode_fields _ _ _) as [v| |]; try done. intros [= <-]. by eexists _, _.
Qed.

Lemma patch_spec e src old r : env_ok e ->
  accumulates (env_now e) src old r
    match patch_record e src r old with
    | Ok x => AStored x
    | Err PNoChange => AUnchanged
    | Err p => AFailed p
    | Panic => ACrashed
    end.
Proof.
  intros He. unfold patch_record. destruct old as [c|].
  2:{ destruct r; constructor. }
  replace (rec_any r) with (iface r) by (by destruct r).
  replace (rec_any (e_rec c)) with (iface (e_rec c)) by (by destruct (e_rec c)).
  destruct (Encode vanflow_registry (iface (e_rec c))) as [a|p x|] eqn:Ea.
  - destruct (Encode vanflow_registry (iface r)) as [b|p x|] eqn:Eb.
    + destruct (merge_union "attrs" e a b He) as (ch & -> & Hch). destruct ch.
      * assert (~ b ⊆ a) as Hns by (by apply Hch).
        destruct (Decode vanflow_registry (Some (b ∪ a))) as [x|x|] eqn:Ed.
        -- destruct (Decode_is_ptr _ _ _ Ed) as (t & v & ->).
           destruct (get_type_meta t) as [n|] eqn:Et.
           ++ rewrite (as_record_ptr_iff t v) by eauto.
              by eapply acc_merge.
           ++ simpl. rewrite Et. eapply acc_crash_decode; eauto. intros t' v' n.
              rewrite Ed. intros [= <- <-]. by rewrite Et.
        -- eapply acc_crash_decode; eauto. intros t' v' n. by rewrite Ed.
        -- eapply acc_crash_decode; eauto. intros t' v' n. by rewrite Ed.
      * eapply acc_same; eauto. destruct (decide (b ⊆ a)) as [|Hn]; [done|]. by apply Hch in Hn.
    + by eapply acc_bad_new.
    + eapply acc_crash_encode. right. eauto.
  - by eapply acc_bad_old.
  - eapply acc_crash_encode. by left.
Qed.

(** ** Replace *)

Lemma keyed_spec cf l acc :
  match keyed cf l acc with
  | Ok m => (forall x, x ∈ l -> exists k, cf_key cf x = Ok k) /\
      forall k x, m !! k = Some x <->
        last_with_key cf l k x \/ (acc !! k = Some x /\ forall y, y ∈ l -> cf_key cf y <> Ok k)
  | Err m => replace_outcome cf l (Some (Err m))
  | Panic => replace_outcome cf l (Some Panic)
  end.
Proof.
  revert acc; induction l as [|x l IH]; intros acc; cbn [keyed].
  - split; [intros x Hx; by apply elem_of_nil in Hx|]. intros k x. split.
    + intros H. right. split; [done|]. intros y Hy. by apply elem_of_nil in Hy.
    + intros [(b & a & H & _)|[H _]]; [by destruct b|done].
  - destruct (cf_key cf x) as [key|m|] eqn:Ex.
    + specialize (IH (<[key:=x]> acc)). destruct (keyed cf l (<[key:=x]> acc)) as [m|m|].
      * destruct IH as [H1 H2]. split.
        { intros y Hy. apply elem_of_cons in Hy as [->|Hy]; eauto. }
        intros k y. rewrite H2. split.
        -- intros [(b & a & -> & Hk & Ha)|[Hl Hn]].
           ++ left. exists (x :: b), a. done.
           ++ destruct (decide (k = key)) as [->|Hne].
              ** rewrite lookup_insert in Hl. injection Hl as <-. left. by exists [], l.
              ** rewrite lookup_insert_ne in Hl by done. right. split; [done|].
                 intros z Hz. apply elem_of_cons in Hz as [->|Hz]; [congruence|auto].
        -- intros [(b & a & Hl & Hk & Ha)|[Hl Hn]].
           ++ destruct b as [|x' b].
              ** injection Hl as <- <-. right. assert (k = key) as -> by congruence. split; [apply lookup_insert|done].
              ** injection Hl as <- ->. left. by exists b, a.
           ++ right. split.
              ** rewrite lookup_insert_ne; [done|]. intros ->. eapply Hn; [apply elem_of_list_here|done].
              ** intros z Hz. apply Hn. by apply elem_of_list_further.
      * destruct IH as (l1 & y & l2 & -> & Hb & H). exists (x :: l1), y, l2. split; [done|]. split; [|done].
        intros z Hz. apply elem_of_cons in Hz as [->|Hz]; eauto.
      * destruct IH as (l1 & y & l2 & -> & Hb & H). exists (x :: l1), y, l2. split; [done|]. split; [|done].
        intros z Hz. apply elem_of_cons in Hz as [->|Hz]; eauto.
    + exists [], x, l. split; [done|]. split; [intros z Hz; by apply elem_of_nil in Hz|]. left. eauto.
    + exists [], x, l. split; [done|]. split; [intros z Hz; by apply elem_of_nil in Hz|]. by right.
Qed.

(** ** Enumerations *)

Lemma enumerates_list e s : env_ok e -> enumerates (contents s) (fun _ => True) (vc_res <$> sm_list e s).
Proof.
  intros [He _]. unfold enumerates, sm_list. exists (fst <$> env_iter e "list" _ (map_to_list (sm_items s))).
  split; [rewrite (He _ _ _); apply NoDup_fst_map_to_list|]. split.
  - apply Forall2_fmap_l. rewrite <- list_fmap_compose. apply Forall2_fmap_r, Forall_Forall2_diag.
    apply Forall_forall. intros [k v] Hin. rewrite (He _ _ _) in Hin. apply elem_of_map_to_list in Hin.
    change (entry_at (contents s) k = Some (vc_res v)). rewrite entry_at_contents. by rewrite Hin.
  - intros k. rewrite (He _ _ _), elem_of_list_fmap. split.
    + intros ([k' v] & -> & Hin). apply elem_of_map_to_list in Hin. exists (vc_res v).
      rewrite entry_at_contents. simpl. by rewrite Hin.
    + intros (x & Hx & _). rewrite entry_at_contents in Hx. destruct (sm_items s !! k) as [v|] eqn:E; [|done].
      exists (k, v). split; [done|]. by apply elem_of_map_to_list.
Qed.

Lemma enumerates_index cf e s name f x : env_ok e -> sm_inv (cf_indexers cf) s ->
  cf_indexers cf !! name = Some f ->
  exists l, sm_index (cf_indexers cf) e name x s = Some l /\
    enumerates (contents s) (fun y => exists b, b ∈ f x /\ b ∈ f y)
      ((fun v => match v with Some v => vc_res v | None => zero_entry end) <$> l).
Proof.
  intros He Hi Hf. destruct (index_spec _ e name f x s He Hi Hf) as (ks & Hs & Hnd & Hks).
  eexists. split; [exact Hs|]. exists ks. split; [done|]. split.
  - rewrite <- list_fmap_compose. apply Forall2_fmap_r, Forall_Forall2_diag, Forall_forall.
    intros k Hk. apply Hks in Hk as (v & b & Hv & _). unfold compose.
    rewrite entry_at_contents. by rewrite Hv.
  - intros k. rewrite Hks. rewrite entry_at_contents. split.
    + intros (v & b & -> & H1 & H2). simpl. eauto.
    + intros (y & Hy & b & H1 & H2). destruct (sm_items s !! k) as [v|]; [|done]. injection Hy as <-. eauto.
Qed.

(** ** The refinement step *)

Lemma check_not_exists ixs (s : items) k : sm_inv ixs s ->
  check_conds [WhenNotExists] (sm_items s !! k) =
    match contents s !! k with Some _ => Some ErrResourceExists | None => None end.
Proof.
  intros Hi. rewrite contents_lookup. simpl. destruct (sm_items s !! k) as [v|] eqn:E; [|done]. simpl.
  pose proof (inv_ver _ _ Hi _ _ E). destruct (Z.eqb_spec (vc_ver v) 0); [lia|done].
Qed.

Lemma check_version (s : items) k t :
  check_conds [WhenVersionMatches t] (sm_items s !! k) =
    if (version_of (contents s) k =? t)%Z then None else Some ErrVersionMismatch.
Proof.
  unfold version_of. rewrite contents_lookup. simpl.
  destruct (sm_items s !! k) as [v|]; simpl; [by destruct (vc_ver v =? t)%Z|by destruct t].
Qed.

Lemma step_refines cf e s o s' r ev :
  env_ok e -> sm_inv (cf_indexers cf) s -> run_op cf e s o = (s', r, ev) ->
  sm_inv (cf_indexers cf) s' /\ spec_step cf (env_now e) (contents s) o r (contents s').
Proof.
  intros He Hi Hrun. destruct o as [x|x im|x|l|src p|x|sel|name x sel|name]; simpl in Hrun.
  - (* Add *)
    unfold add in Hrun. destruct (cf_key cf x) as [k|m|] eqn:Ek; simplify_eq.
    + unfold sm_update in Hrun. rewrite (check_not_exists _ _ _ Hi) in Hrun.
      destruct (contents s !! k) as [y|] eqn:Ec; simplify_eq.
      * split; [done|]. right. exists k. split; [done|]. right. split; [by eexists|]. done.
      * split; [by apply inv_store|]. right. exists k. split; [done|]. left. split; [done|]. split; [done|].
        apply contents_store.
    + split; [done|]. left. split; [done|]. eauto.
    + split; [done|]. left. split; [done|]. eauto.
  - (* Update *)
    unfold update in Hrun. destruct (cf_key cf x) as [k|m|] eqn:Ek; simplify_eq.
    + destruct im as [tag|]; simpl in Hrun.
      * destruct (decode_etag tag) as [[v u]|] eqn:Et; simplify_eq.
        -- unfold sm_update in Hrun. rewrite check_version in Hrun.
           destruct (Z.eqb_spec (version_of (contents s) k) v) as [Hv|Hv]; simplify_eq.
           ++ split; [by apply inv_store|]. right. exists k. split; [done|]. right. eexists _, u. split; [done|].
              left. split; [done|]. split; [done|]. apply contents_store.
           ++ split; [done|]. right. exists k. split; [done|]. right. eexists _, u. split; [done|].
              right. by split; [congruence|].
        -- split; [done|]. right. exists k. split; [done|]. by left.
      * unfold sm_update in Hrun. simpl in Hrun. simplify_eq.
        split; [by apply inv_store|]. right. exists k. split; [done|]. split; [done|]. apply contents_store.
    + split; [done|]. left. split; [done|]. eauto.
    + split; [done|]. left. split; [done|]. eauto.
  - (* Delete *)
    unfold remove in Hrun. destruct (cf_key cf x) as [k|m|] eqn:Ek; simplify_eq.
    + pose proof (inv_delete _ e k s He Hi) as Hd. pose proof (contents_delete (cf_indexers cf) e k s) as Hc.
      destruct (sm_delete (cf_indexers cf) e k s) as [s1 [v|]]; simplify_eq; simpl in *.
      * split; [done|]. right. exists k. done.
      * split; [done|]. right. exists k. done.
    + split; [done|]. left. split; [done|]. eauto.
    + split; [done|]. left. split; [done|]. eauto.
  - (* Replace *)
    unfold replace in Hrun. pose proof (keyed_spec cf l ∅) as Hk.
    destruct (keyed cf l ∅) as [m|m|]; simplify_eq.
    + split; [by apply inv_replace|]. destruct Hk as [Hk1 Hk2]. left. split; [done|]. split; [done|].
      intros k x v. rewrite contents_lookup, replace_items by done. specialize (Hk2 k).
      unfold next_version. rewrite contents_lookup. split.
      * destruct (m !! k) as [y|] eqn:Em; [|done]. simpl. intros [= <- <-]. split.
        -- destruct (Hk2 y) as [[?|[H _]] _]; [done|done|by rewrite lookup_empty in H].
        -- by destruct (sm_items s !! k).
      * intros [Hl ->]. destruct (Hk2 x) as [_ H]. rewrite H by (by left). simpl.
        by destruct (sm_items s !! k).
    + split; [done|]. right. left. eauto.
    + split; [done|]. right. right. eauto.
  - (* Accumulate *)
    unfold accumulate in Hrun. destruct (cf_key cf _) as [k|m|] eqn:Ek; simplify_eq.
    + pose proof (patch_spec e src (vc_res <$> sm_items s !! k) p He) as Hp.
      unfold sm_patch in Hrun. simpl in Hrun.
      destruct (patch_record e src p (vc_res <$> sm_items s !! k)) as [x|x|] eqn:Epr; simplify_eq.
      * split; [by apply inv_store|]. right. exists k, (AStored x). split; [done|].
        rewrite entry_at_contents. split; [done|]. split; [done|]. apply contents_store.
      * destruct x; simplify_eq; (split; [done|]); right; eexists k, _;
          (split; [done|]); rewrite entry_at_contents; split; try exact Hp; done.
      * split; [done|]. right. exists k, ACrashed. by rewrite entry_at_contents.
    + split; [done|]. left. split; [done|]. eauto.
    + split; [done|]. left. split; [done|]. eauto.
  - (* Get *)
    simplify_eq. split; [done|]. unfold get. destruct (cf_key cf x) as [k|m|] eqn:Ek.
    + right. exists k. split; [done|]. split; [done|]. unfold sm_get. rewrite contents_lookup.
      destruct (sm_items s' !! k) as [v|]; simpl; [right|by left].
      exists (vc_res v), (vc_ver v). done.
    + left. split; [done|]. eauto.
    + left. split; [done|]. eauto.
  - (* List *)
    simplify_eq. split; [done|]. split; [done|]. exists (vc_res <$> sm_list e s').
    split; [by apply enumerates_list|]. unfold list_all. destruct sel; [|done]. by apply apply_selector_spec.
  - (* Index *)
    simplify_eq. split; [done|]. split; [done|]. unfold index_of.
    destruct (cf_indexers cf !! name) as [f|] eqn:Ef.
    + destruct (enumerates_index cf e s' name f x He Hi Ef) as (l & -> & Hl). right. exists f. split; [done|].
      eexists. split; [exact Hl|]. destruct sel; [|done]. by apply apply_selector_spec.
    + destruct (index_none (cf_indexers cf) e name x s' Ef) as [-> _]. by left.
  - (* IndexValues *)
    simplify_eq. split; [done|]. split; [done|]. unfold index_values.
    destruct (cf_indexers cf !! name) as [f|] eqn:Ef.
    + destruct (index_values_spec _ e name f s' He Hi Ef) as (l & -> & Hnd & Hl). right. exists f, l.
      split; [done|]. split; [done|]. split; [done|]. intros b. rewrite Hl. split.
      * intros (k & v & Hv & Hb). exists k, (vc_res v). rewrite entry_at_contents, Hv. done.
      * intros (k & y & Hy & Hb). rewrite entry_at_contents in Hy.
        destruct (sm_items s' !! k) as [v|] eqn:E; [|done]. injection Hy as <-. eauto.
    + destruct (index_none (cf_indexers cf) e name zero_entry s' Ef) as [_ ->]. by left.
Qed.

Lemma run_from_refines cf s l s' rs evs :
  envs_ok l -> sm_inv (cf_indexers cf) s -> run_from cf s l = (s', rs, evs) ->
  sm_inv (cf_indexers cf) s' /\ spec_run cf (contents s) (timed l) rs (contents s').
Proof.
  revert s rs evs; induction l as [|[e o] l IH]; intros s rs evs Hok Hi Hrun; simpl in Hrun.
  - simplify_eq. split; [done|]. constructor.
  - destruct (run_op cf e s o) as [[s1 r] ev] eqn:E1.
    destruct (run_from cf s1 l) as [[s2 rs2] evs2] eqn:E2. simplify_eq.
    inversion Hok as [|? ? He Hok']; subst.
    destruct (step_refines _ _ _ _ _ _ _ He Hi E1) as [Hi1 Hs].
    destruct (IH _ _ _ Hok' Hi1 E2) as [Hi2 Hr]. split; [done|]. econstructor; eauto.
Qed.

Lemma reachable_inv cf s : reachable cf s -> sm_inv (cf_indexers cf) s.
Proof.
  intros (l & Hok & ->). unfold state_after, run. destruct (run_from cf new_simap l) as [[s rs] evs] eqn:E.
  by destruct (run_from_refines _ _ _ _ _ _ Hok (inv_new _) E) as [? _].
Qed.

Lemma run_refines cf l s rs evs :
  envs_ok l -> run cf l = (s, rs, evs) -> spec_run cf ∅ (timed l) rs (contents s).
Proof.
  intros Hok Hr. destruct (run_from_refines _ _ _ _ _ _ Hok (inv_new _) Hr) as [_ H].
  by rewrite contents_new in H.
Qed.

Lemma run_from_app cf s l1 l2 :
  run_from cf s (l1 ++ l2) =
  let '(s1, rs1, evs1) := run_from cf s l1 in
  let '(s2, rs2, evs2) := run_from cf s1 l2 in (s2, rs1 ++ rs2, evs1 ++ evs2).
Proof.
  revert s; induction l1 as [|[e o] l1 IH]; intros s; simpl.
  - by destruct (run_from cf s l2) as [[? ?] ?].
  - destruct (run_op cf e s o) as [[s1 r] ev]. rewrite IH.
    destruct (run_from cf s1 l1) as [[s2 rs] evs]. destruct (run_from cf s2 l2) as [[s3 rs3] evs3].
    by rewrite app_assoc.
Qed.

Lemma reachable_step cf s e o : reachable cf s -> env_ok e -> reachable cf (run_op cf e s o).1.1.
Proof.
  intros (l & Hok & ->) He. exists (l ++ [(e, o)]). split; [apply Forall_app; split; [done|by apply Forall_singleton]|].
  unfold state_after, run. rewrite run_from_app. destruct (run_from cf new_simap l) as [[s rs] evs].
  simpl. by destruct (run_op cf e s o) as [[? ?] ?].
Qed.

Lemma reachable_new cf : reachable cf new_simap.
Proof. exists []. split; [constructor|done]. Qed.

Lemma reachable_run cf s l s' rs evs :
  reachable cf s -> envs_ok l -> run_from cf s l = (s', rs, evs) -> reachable cf s'.
Proof.
  intros (l0 & Hok & ->) Hl Hr. exists (l0 ++ l). split; [by apply Forall_app|].
  unfold state_after, run in *. rewrite run_from_app. destruct (run_from cf new_simap l0) as [[s rs0] evs0].
  simpl in Hr. by rewrite Hr.
Qed.
