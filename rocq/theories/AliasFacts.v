(** Proofs about shared annotation maps. *)
From Coq Require Import ZArith NArith Ascii String Lia.
From stdpp Require Import base gmap strings list sorting.
From Verif Require Import GoBase Encoding SpecEncoding Records Env SyncMap SyncMapFacts Tokens TokenFacts
  Cache SpecStore StoreFacts Alias SpecAlias.

Local Open Scope list_scope.
Local Opaque vanflow_registry builtin_types record_types Encode Decode.

(** ** The store as seen *)

Definition view (h : heap) (s : hitems) : items :=
  SIMap ((fun v => VC (see h (vc_res v)) (vc_ver v)) <$> sm_items s) (sm_indices s).

Lemma hcontents_view h s : hcontents h s = contents (view h s).
Proof.
  unfold hcontents, contents, view. cbn [sm_items]. rewrite <- map_fmap_compose. reflexivity.
Qed.

Lemma view_items h s k : sm_items (view h s) !! k = (fun v => VC (see h (vc_res v)) (vc_ver v)) <$> sm_items s !! k.
Proof. unfold view. cbn [sm_items]. by rewrite lookup_fmap. Qed.

Lemma hcontents_lookup h s k : hcontents h s !! k = (fun v => (see h (vc_res v), vc_ver v)) <$> sm_items s !! k.
Proof. unfold hcontents. by rewrite lookup_fmap. Qed.

Lemma entry_at_h h s k : entry_at (hcontents h s) k = (fun v => see h (vc_res v)) <$> sm_items s !! k.
Proof. unfold entry_at. rewrite hcontents_lookup. by destruct (sm_items s !! k). Qed.

Lemma hindexers_lookup cf h name :
  hindexers cf h !! name = (fun (f : indexer entry) x => f (see h x)) <$> cf_indexers cf !! name.
Proof. unfold hindexers. by rewrite lookup_fmap. Qed.

Lemma hcontents_store ixs e h key x s :
  hcontents h (store_item ixs e key x s) = put (hcontents h s) key (see h x).
Proof.
  unfold store_item, put, hcontents. cbn [sm_items]. rewrite fmap_insert. f_equal. simpl. f_equal.
  unfold next_version. rewrite lookup_fmap. by destruct (sm_items s !! key).
Qed.

Lemma hcontents_delete ixs e h key s : hcontents h (sm_delete ixs e key s).1 = delete key (hcontents h s).
Proof.
  unfold sm_delete. destruct (sm_items s !! key) as [v|] eqn:E; cbn [fst].
  - unfold hcontents. cbn [sm_items]. by rewrite fmap_delete.
  - rewrite delete_notin; [done|]. by rewrite hcontents_lookup, E.
Qed.

Lemma see_updated h t x : see h (hwith_updated t x) = with_updated t (see h x).
Proof. reflexivity. Qed.

Lemma hcheck_not_exists ixs h (s : hitems) k : sm_inv ixs s ->
  check_conds [WhenNotExists] (sm_items s !! k) =
    match hcontents h s !! k with Some _ => Some ErrResourceExists | None => None end.
Proof.
  intros Hi. rewrite hcontents_lookup. simpl. destruct (sm_items s !! k) as [v|] eqn:E; [|done]. simpl.
  pose proof (inv_ver _ _ Hi _ _ E). destruct (Z.eqb_spec (vc_ver v) 0); [lia|done].
Qed.

Lemma hcheck_version h (s : hitems) k t :
  check_conds [WhenVersionMatches t] (sm_items s !! k) =
    if (version_of (hcontents h s) k =? t)%Z then None else Some ErrVersionMismatch.
Proof.
  unfold version_of. rewrite hcontents_lookup. simpl.
  destruct (sm_items s !! k) as [v|]; simpl; [by destruct (vc_ver v =? t)%Z|by destruct t].
Qed.

Lemma hkeyed_see cf h l acc :
  keyed cf (see h <$> l) (see h <$> acc) =
  match hkeyed cf h l acc with Ok m => Ok (see h <$> m) | Err m => Err m | Panic => Panic end.
Proof.
  revert acc; induction l as [|x l IH]; intros acc; cbn [hkeyed keyed fmap list_fmap]; [done|].
  change (keyed cf (see h x :: (see h <$> l)) (see h <$> acc) =
    match (match cf_key cf (see h x) with Ok key => hkeyed cf h l (<[key:=x]> acc) | Err m => Err m | Panic => Panic end)
    with Ok m => Ok (see h <$> m) | Err m => Err m | Panic => Panic end).
  cbn [keyed]. destruct (cf_key cf (see h x)) as [key|m|]; [|done|done].
  rewrite <- IH. by rewrite fmap_insert.
Qed.

Lemma henumerates_list e h s : env_ok e ->
  enumerates (hcontents h s) (fun _ => True) ((fun v => see h (vc_res v)) <$> sm_list e s).
Proof.
  intros [He _]. unfold enumerates, sm_list. exists (fst <$> env_iter e "list" _ (map_to_list (sm_items s))).
  split; [rewrite (He _ _ _); apply NoDup_fst_map_to_list|]. split.
  - apply Forall2_fmap_l. rewrite <- list_fmap_compose. apply Forall2_fmap_r, Forall_Forall2_diag.
    apply Forall_forall. intros [k v] Hin. rewrite (He _ _ _) in Hin. apply elem_of_map_to_list in Hin.
    change (entry_at (hcontents h s) k = Some (see h (vc_res v))). rewrite entry_at_h. by rewrite Hin.
  - intros k. rewrite (He _ _ _), elem_of_list_fmap. split.
    + intros ([k' v] & -> & Hin). apply elem_of_map_to_list in Hin. exists (see h (vc_res v)).
      rewrite entry_at_h. simpl. by rewrite Hin.
    + intros (x & Hx & _). rewrite entry_at_h in Hx. destruct (sm_items s !! k) as [v|] eqn:E; [|done].
      exists (k, v). split; [done|]. by apply elem_of_map_to_list.
Qed.

Lemma patch_ann e src p old x : patch_record e src p old = Ok x ->
  m_annotations (e_meta x) = from_option (fun y => m_annotations (e_meta y)) ∅ old.
Proof.
  unfold patch_record. destruct old as [c|]; simpl.
  2:{ destruct p; [|done]. by intros [= <-]. }
  destruct (Encode _ _) as [ca| |]; try done. destruct (Encode _ _) as [na| |]; try done.
  destruct (merge_attrs _ _ _) as [ca' []]; [|done].
  destruct (Decode _ _) as [o| |]; try done. destruct (as_record o); [|done]. by intros [= <-].
Qed.

Lemma hpatch_see e h src p old :
  match hpatch e h src p old with
  | Ok x => patch_record e src p (see h <$> old) = Ok (see h x)
  | Err m => patch_record e src p (see h <$> old) = Err m
  | Panic => patch_record e src p (see h <$> old) = Panic
  end.
Proof.
  unfold hpatch. destruct (patch_record e src p (see h <$> old)) as [x|m|] eqn:E; [|done|done].
  f_equal. apply patch_ann in E. destruct x as [[sr u an] tm r]. simpl in *. unfold see. simpl. do 2 f_equal.
  rewrite E. by destruct old.
Qed.

(** ** One call *)

(** The index lookups of [s] answer by the maps [hi]; everything else by the
    maps [h]. *)
Lemma hindex_frozen cf hi h e s name (f : indexer entry) x : env_ok e -> sm_inv (hindexers cf hi) s ->
  cf_indexers cf !! name = Some f ->
  exists l ks, sm_index (hindexers cf h) e name x s = Some l /\ NoDup ks /\
    Forall2 (fun k y => entry_at (hcontents h s) k = Some y) ks
      ((fun v => match v with Some v => see h (vc_res v) | None => zero_entry end) <$> l) /\
    forall k, k ∈ ks <-> exists y, entry_at (hcontents hi s) k = Some y /\ exists b, b ∈ f (see h x) /\ b ∈ f y.
Proof.
  intros He Hi Hf.
  assert (Hl : hindexers cf h !! name = Some (fun x => f (see h x))) by (by rewrite hindexers_lookup, Hf).
  assert (Hli : hindexers cf hi !! name = Some (fun x => f (see hi x))) by (by rewrite hindexers_lookup, Hf).
  destruct Hi as [Hv Hb Hn]. destruct He as [He _]. unfold sm_index. unfold indexer in *. rewrite Hl.
  fold (at_index (sm_indices s) name).
  set (keys := fold_left _ _ _).
  assert (Hkeys : forall k, k ∈ keys <-> exists v b, sm_items s !! k = Some v /\ b ∈ f (see h x) /\ b ∈ f (see hi (vc_res v))).
  { assert (forall vals (acc : gset string) k,
      k ∈ fold_left (fun acc v => acc ∪ default ∅ (at_index (sm_indices s) name !! v)) vals acc <->
      k ∈ acc \/ exists b, b ∈ vals /\ in_bucket (at_index (sm_indices s) name) b k) as HF.
    { induction vals as [|w vals IH]; intros acc k; cbn [fold_left].
      - split; [by left|]. intros [?|(b & Hb' & _)]; [done|by apply elem_of_nil in Hb'].
      - rewrite IH. rewrite elem_of_union. unfold in_bucket at 2. split.
        + intros [[?|?]|(b & ? & ?)]; [by left| |].
          * right. exists w. split; [apply elem_of_list_here|done].
          * right. exists b. split; [by apply elem_of_list_further|done].
        + intros [?|(b & Hb' & ?)]; [by left; left|].
          apply elem_of_cons in Hb' as [->|Hb']; [left; by right|right; eauto]. }
    intros k. unfold keys. rewrite HF. split.
    - intros [H|(b & Hb1 & Hb2)]; [by apply elem_of_empty in H|].
      apply (Hb _ _ Hli) in Hb2 as (v & Hv1 & Hv2). eauto.
    - intros (v & b & H1 & H2 & H3). right. exists b. split; [done|]. apply (Hb _ _ Hli). eauto. }
  exists ((fun k => sm_items s !! k) <$> env_iter e "index" _ (elements keys)), (env_iter e "index" _ (elements keys)).
  split; [done|]. split; [rewrite (He _ _ _); apply NoDup_elements|]. split.
  - rewrite <- list_fmap_compose. apply Forall2_fmap_r, Forall_Forall2_diag, Forall_forall.
    intros k Hk. rewrite (He _ _ _), elem_of_elements in Hk. apply Hkeys in Hk as (v & b & Hv1 & _).
    unfold compose. rewrite entry_at_h. by rewrite Hv1.
  - intros k. rewrite (He _ _ _), elem_of_elements, Hkeys. rewrite entry_at_h. split.
    + intros (v & b & -> & H1 & H2). simpl. eauto.
    + intros (y & Hy & b & H1 & H2). destruct (sm_items s !! k) as [v|]; [|done]. injection Hy as <-. eauto.
Qed.

Lemma hinv_call cf e h s o : env_ok e -> sm_inv (hindexers cf h) s ->
  sm_inv (hindexers cf h) (hcall cf e h s o).1.1.
Proof.
  intros He Hi. destruct o as [x|x im|x|l|src p|x|sel|name x sel|name]; cbn [hcall]; try exact Hi.
  - destruct (cf_key cf (see h x)) as [k|m|]; [|exact Hi|exact Hi]. unfold sm_update.
    destruct (check_conds _ _); [exact Hi|]. by apply inv_store.
  - destruct (cf_key cf (see h x)) as [k|m|]; [|exact Hi|exact Hi].
    destruct (get_conditional im); [|exact Hi|exact Hi]. unfold sm_update.
    destruct (check_conds _ _); [exact Hi|]. by apply inv_store.
  - destruct (cf_key cf (see h x)) as [k|m|]; [|exact Hi|exact Hi].
    pose proof (inv_delete _ e k s He Hi) as Hd.
    by destruct (sm_delete (hindexers cf h) e k s) as [s' [v|]].
  - destruct (hkeyed cf h l ∅) as [m|m|]; [|exact Hi|exact Hi]. by apply inv_replace.
  - destruct (cf_key cf _) as [k|m|]; [|exact Hi|exact Hi]. unfold sm_patch. cbn [check_conds].
    destruct (hpatch _ _ _ _ _) as [x|[]|]; try exact Hi. by apply inv_store.
Qed.

Lemma hcall_spec cf e h s o : env_ok e -> sm_inv (hindexers cf h) s ->
  spec_step cf (env_now e) (hcontents h s) (see_op h o) (hcall cf e h s o).1.2
    (hcontents h (hcall cf e h s o).1.1).
Proof.
  intros He Hi. destruct o as [x|x im|x|l|src p|x|sel|name x sel|name]; cbn [hcall see_op].
  - destruct (cf_key cf (see h x)) as [k|m|] eqn:Ek; cbn [fst snd].
    + unfold sm_update. rewrite (hcheck_not_exists _ h _ _ Hi).
      destruct (hcontents h s !! k) as [y|] eqn:Ec; cbn [fst snd].
      * right. exists k. split; [done|]. right. split; [by eexists|]. done.
      * right. exists k. split; [done|]. left. split; [done|]. split; [done|]. by rewrite hcontents_store.
    + left. split; [done|]. eauto.
    + left. split; [done|]. eauto.
  - destruct (cf_key cf (see h x)) as [k|m|] eqn:Ek; cbn [fst snd].
    + destruct im as [tag|]; cbn [get_conditional].
      * destruct (decode_etag tag) as [[v u]|] eqn:Et; cbn [fst snd].
        -- unfold sm_update. rewrite (hcheck_version h).
           destruct (Z.eqb_spec (version_of (hcontents h s) k) v) as [Hv|Hv]; cbn [fst snd].
           ++ right. exists k. split; [done|]. right. exists v, u. split; [done|].
              left. split; [done|]. split; [done|]. by rewrite hcontents_store.
           ++ right. exists k. split; [done|]. right. exists v, u. split; [done|].
              right. by split; [congruence|].
        -- right. exists k. split; [done|]. by left.
      * unfold sm_update. cbn [check_conds fst snd]. right. exists k. split; [done|]. split; [done|].
        by rewrite hcontents_store.
    + left. split; [done|]. eauto.
    + left. split; [done|]. eauto.
  - destruct (cf_key cf (see h x)) as [k|m|] eqn:Ek; cbn [fst snd].
    + pose proof (hcontents_delete (hindexers cf h) e h k s) as Hc.
      destruct (sm_delete (hindexers cf h) e k s) as [s1 [v|]]; cbn [fst snd] in *; right; exists k; done.
    + left. split; [done|]. eauto.
    + left. split; [done|]. eauto.
  - pose proof (keyed_spec cf (see h <$> l) ∅) as Hk. pose proof (hkeyed_see cf h l ∅) as Hs.
    rewrite fmap_empty in Hs. rewrite Hs in Hk. clear Hs.
    destruct (hkeyed cf h l ∅) as [m|m|]; cbn [fst snd].
    + destruct Hk as [Hk1 Hk2]. left. split; [done|]. split; [done|].
      intros k x v. rewrite hcontents_lookup, replace_items by done. specialize (Hk2 k).
      rewrite lookup_fmap in Hk2. unfold next_version. rewrite hcontents_lookup. split.
      * destruct (m !! k) as [y|] eqn:Em; [|done]. simpl. intros [= <- <-]. split.
        -- destruct (Hk2 (see h y)) as [[?|[H _]] _]; [done|done|by rewrite lookup_empty in H].
        -- by destruct (sm_items s !! k).
      * intros [Hl ->]. destruct (Hk2 x) as [_ H]. specialize (H (or_introl Hl)).
        destruct (m !! k) as [y|]; [|done]. injection H as <-. simpl. by destruct (sm_items s !! k).
    + right. left. eauto.
    + right. right. eauto.
  - destruct (cf_key cf _) as [k|m|] eqn:Ek; cbn [fst snd].
    + pose proof (patch_spec e src (see h <$> (vc_res <$> sm_items s !! k)) p He) as Hp.
      pose proof (hpatch_see e h src p (vc_res <$> sm_items s !! k)) as Hs.
      assert (Hat : entry_at (hcontents h s) k = see h <$> (vc_res <$> sm_items s !! k)).
      { rewrite entry_at_h. by destruct (sm_items s !! k). }
      unfold sm_patch. cbn [check_conds].
      destruct (hpatch e h src p (vc_res <$> sm_items s !! k)) as [x|x|]; rewrite Hs in Hp.
      * right. exists k, (AStored (see h x)). split; [done|]. rewrite Hat. split; [done|]. split; [done|].
        by rewrite <- (hcontents_store (hindexers cf h) e).
      * destruct x; cbn [fst snd]; right; eexists k, _; (split; [done|]); rewrite Hat; split; try exact Hp; done.
      * right. exists k, ACrashed. by rewrite Hat.
    + left. split; [done|]. eauto.
    + left. split; [done|]. eauto.
  - cbn [fst snd]. destruct (cf_key cf (see h x)) as [k|m|] eqn:Ek.
    + right. exists k. split; [done|]. split; [done|]. unfold sm_get. rewrite hcontents_lookup.
      destruct (sm_items s !! k) as [v|]; simpl; [right|by left].
      exists (see h (vc_res v)), (vc_ver v). done.
    + left. split; [done|]. eauto.
    + left. split; [done|]. eauto.
  - cbn [fst snd]. split; [done|]. exists ((fun v => see h (vc_res v)) <$> sm_list e s).
    split; [by apply henumerates_list|]. destruct sel; [|done]. by apply apply_selector_spec.
  - cbn [fst snd]. split; [done|]. destruct (cf_indexers cf !! name) as [f|] eqn:Ef.
    + destruct (hindex_frozen cf h h e s name f x He Hi Ef) as (l & ks & -> & Hnd & Hall & Hks).
      right. exists f. split; [done|]. eexists. split; [exists ks; split; [exact Hnd|]; split; [exact Hall|exact Hks]|].
      destruct sel; [|done]. by apply apply_selector_spec.
    + assert (Hl : hindexers cf h !! name = None) by (by rewrite hindexers_lookup, Ef).
      destruct (index_none (hindexers cf h) e name x s Hl) as [-> _]. by left.
  - cbn [fst snd]. split; [done|]. destruct (cf_indexers cf !! name) as [f|] eqn:Ef.
    + assert (Hl : hindexers cf h !! name = Some (fun x => f (see h x))) by (by rewrite hindexers_lookup, Ef).
      destruct (index_values_spec _ e name _ s He Hi Hl) as (l & -> & Hnd & Hlb). right. exists f, l.
      split; [done|]. split; [done|]. split; [done|]. intros b. rewrite Hlb. split.
      * intros (k & v & Hv & Hb). exists k, (see h (vc_res v)). rewrite entry_at_h, Hv. done.
      * intros (k & y & Hy & Hb). rewrite entry_at_h in Hy.
        destruct (sm_items s !! k) as [v|] eqn:E; [|done]. injection Hy as <-. eauto.
    + assert (Hl : hindexers cf h !! name = None) by (by rewrite hindexers_lookup, Ef).
      destruct (index_none (hindexers cf h) e name (HEntry zero_source zero_time None (TypeMeta "" "") None) s Hl) as [_ ->].
      by left.
Qed.

(** ** Histories *)

Lemma inv_ext {T} (ixs ixs' : gmap string (indexer T)) s :
  (forall name f', ixs' !! name = Some f' -> exists f, ixs !! name = Some f /\
     forall k v, sm_items s !! k = Some v -> f (vc_res v) = f' (vc_res v)) ->
  sm_inv ixs s -> sm_inv ixs' s.
Proof.
  intros H [Hv Hb Hn]. split; [done| |].
  - intros name f' Hf b k. destruct (H name f' Hf) as (f & Hf1 & He). rewrite (Hb _ _ Hf1). split.
    + intros (v & Hk & Hin). exists v. split; [done|]. by rewrite <- (He _ _ Hk).
    + intros (v & Hk & Hin). exists v. split; [done|]. by rewrite (He _ _ Hk).
  - first [exact Hn | intros name f' Hf; destruct (H name f' Hf) as (f & Hf1 & _); by eapply Hn].
Qed.

Lemma careful_inv cf h s : careful cf h s -> sm_inv (hindexers cf h) s.
Proof.
  induction 1 as [h|h s e o _ IH He|h s l m _ IH Hh].
  - apply inv_new.
  - by apply hinv_call.
  - eapply inv_ext; [|exact IH]. intros name f'. rewrite hindexers_lookup.
    destruct (cf_indexers cf !! name) as [f|] eqn:Ef; [|done]. intros [= <-].
    eexists. split; [by rewrite hindexers_lookup, Ef|]. intros k v Hk. symmetry. by eapply Hh.
Qed.

Lemma careful_call cf h s e o : careful cf h s -> env_ok e ->
  spec_step cf (env_now e) (hcontents h s) (see_op h o) (hcall cf e h s o).1.2
    (hcontents h (hcall cf e h s o).1.1).
Proof. intros Hc He. apply hcall_spec; [done|by apply careful_inv]. Qed.

(** ** Writes *)

Lemma see_unshared h l m x : he_ann x <> Some l -> see (<[l := m]> h) x = see h x.
Proof.
  intros H. unfold see. destruct (he_ann x) as [l'|]; [|done]. simpl.
  rewrite lookup_insert_ne; [done|]. congruence.
Qed.

Lemma unshared_write cf h s l m : unshared s l ->
  hcontents (<[l := m]> h) s = hcontents h s /\ harmless cf h s l m.
Proof.
  intros Hu. split.
  - apply map_eq. intros k. rewrite !hcontents_lookup. destruct (sm_items s !! k) as [v|] eqn:E; [|done].
    simpl. rewrite see_unshared; [done|]. by eapply Hu.
  - intros k v name f Hk _. rewrite see_unshared; [done|]. by eapply Hu.
Qed.

Lemma site_write cf h s l m : cf_indexers cf = default_indexers ->
  same_site m (default ∅ (h !! l)) -> harmless cf h s l m.
Proof.
  intros Hd Hs k v name f _. rewrite Hd. unfold default_indexers.
  destruct (decide (name = index_by_source)) as [->|H1].
  { rewrite lookup_insert. by intros [= <-]. }
  rewrite lookup_insert_ne by done. destruct (decide (name = index_by_site)) as [->|H2].
  2:{ rewrite lookup_singleton_ne by done. done. }
  rewrite lookup_singleton. intros [= <-]. unfold site_index, see. simpl.
  destruct (he_ann (vc_res v)) as [l'|]; [|done]. simpl.
  destruct (decide (l' = l)) as [->|Hl]; [|by rewrite lookup_insert_ne].
  rewrite lookup_insert. simpl. by rewrite Hs.
Qed.

(** A write shows in every entry that refers to the map, under the same
    version. *)
Lemma write_shows h s l m k x v src up tm r :
  sm_items s !! k = Some (VC (HEntry src up (Some l) tm r) v) ->
  hcontents h s !! k = Some (x, v) ->
  hcontents (<[l := m]> h) s !! k = Some (Entry (Metadata (m_source (e_meta x)) (m_updated (e_meta x)) m) (e_tm x) (e_rec x), v).
Proof.
  intros Hk. rewrite !hcontents_lookup, Hk. simpl. intros [= <-]. unfold see. simpl.
  by rewrite lookup_insert.
Qed.

Lemma index_frozen cf hi h e s name (f : indexer entry) x :
  careful cf hi s -> env_ok e -> cf_indexers cf !! name = Some f ->
  exists l ks, hcall cf e h s (HIndex name x None) = (s, OutSet l "" None, []) /\ NoDup ks /\
    Forall2 (fun k y => entry_at (hcontents h s) k = Some y) ks l /\
    forall k, k ∈ ks <-> exists y, entry_at (hcontents hi s) k = Some y /\ exists b, b ∈ f (see h x) /\ b ∈ f y.
Proof.
  intros Hc He Hf. destruct (hindex_frozen cf hi h e s name f x He (careful_inv _ _ _ Hc) Hf) as (l & ks & Hl & H1 & H2 & H3).
  eexists _, ks. split; [cbn [hcall]; rewrite Hl; reflexivity|]. exact (conj H1 (conj H2 H3)).
Qed.

(** Deleting an entry whose index value a write changed. *)
Lemma delete_dangles cf hi h e e' s name (f : indexer entry) x k b y z :
  careful cf hi s -> env_ok e -> env_ok e' -> cf_indexers cf !! name = Some f ->
  cf_key cf (see h x) = Ok k -> entry_at (hcontents hi s) k = Some y -> b ∈ f y ->
  (forall y', entry_at (hcontents h s) k = Some y' -> b ∉ f y') -> b ∈ f (see h z) ->
  exists s' l vs, (hcall cf e h s (HDelete x)).1 = (s', OutErr None) /\ hcontents h s' !! k = None /\
    hcall cf e' h s' (HIndex name z None) = (s', OutSet l "" None, []) /\ zero_entry ∈ l /\
    hcall cf e' h s' (HIndexValues name) = (s', OutValues vs None, []) /\ b ∈ vs.
Proof.
  intros Hc He He' Hf Hk Hy Hb Hnb Hz. pose proof (careful_inv _ _ _ Hc) as Hi.
  rewrite entry_at_h in Hy. destruct (sm_items s !! k) as [v|] eqn:Ek; [|done]. injection Hy as <-.
  assert (Hnb' : b ∉ f (see h (vc_res v))) by (apply Hnb; by rewrite entry_at_h, Ek). clear Hnb.
  set (s' := SIMap (delete k (sm_items s)) (unindex (indexer_loop (hindexers cf h) e "unindex") k (vc_res v) (sm_indices s))).
  assert (Hl : hindexers cf h !! name = Some (fun x => f (see h x))) by (by rewrite hindexers_lookup, Hf).
  assert (Hli : hindexers cf hi !! name = Some (fun x => f (see hi x))) by (by rewrite hindexers_lookup, Hf).
  assert (Hin : in_bucket (at_index (sm_indices s') name) b k).
  { unfold s'. cbn [sm_indices]. pose proof (indexer_loop_ok (hindexers cf h) e "unindex" He) as L.
    rewrite (unindex_lookup _ k (vc_res v) _ name (fun x => f (see h x)));
      [|by eapply loop_ok_NoDup|by eapply loop_ok_elem].
    apply unindex_vals_spec. split; [|by intros [? _]].
    apply (inv_bucket _ _ Hi _ _ Hli). eauto. }
  assert (Hbk : exists set, at_index (sm_indices s') name !! b = Some set /\ k ∈ set).
  { unfold in_bucket in Hin. destruct (at_index (sm_indices s') name !! b) as [set|]; [eauto|].
    by apply elem_of_empty in Hin. }
  destruct Hbk as (set & Hset & Hkset).
  destruct He' as [Hperm _].
  exists s'. eexists _, _. split; [|split; [|split; [|split; [|split]]]].
  - cbn [hcall]. rewrite Hk. unfold sm_delete. rewrite Ek. reflexivity.
  - rewrite hcontents_lookup. unfold s'. cbn [sm_items]. by rewrite lookup_delete.
  - cbn [hcall]. unfold sm_index. unfold indexer in *. rewrite Hl. reflexivity.
  - cbn [hresult]. apply elem_of_list_fmap. exists None. split; [done|]. apply elem_of_list_fmap. exists k.
    split; [unfold s'; cbn [sm_items]; by rewrite lookup_delete|]. rewrite (Hperm _ _ _), elem_of_elements.
    fold (at_index (sm_indices s') name).
    assert (forall vals (acc : gset string), k ∈ acc \/ b ∈ vals ->
      k ∈ fold_left (fun acc v => acc ∪ default ∅ (at_index (sm_indices s') name !! v)) vals acc) as HF.
    { induction vals as [|w vals IH]; intros acc; cbn [fold_left].
      - intros [?|H]; [done|by apply elem_of_nil in H].
      - intros [H|H]; apply IH; [left; by apply elem_of_union_l|].
        apply elem_of_cons in H as [<-|H]; [|by right]. left. apply elem_of_union_r. by rewrite Hset. }
    apply HF. by right.
  - cbn [hcall]. unfold sm_index_values. unfold indexer in *. rewrite Hl. reflexivity.
  - fold (at_index (sm_indices s') name). apply elem_of_list_fmap. exists (b, set). split; [done|].
    rewrite (Hperm _ _ _). by apply elem_of_map_to_list.
Qed.
