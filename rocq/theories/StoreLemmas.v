(** The store properties in the form used by Props_Store.v. *)
From Coq Require Import ZArith NArith Ascii String Lia.
From stdpp Require Import base gmap strings list sorting.
From Verif Require Import GoBase Encoding SpecEncoding Records Messages SpecMessages MessageFacts
  AccumFacts Env SyncMap SyncMapFacts Tokens TokenFacts Cache SpecStore StoreFacts.

Local Open Scope list_scope.
Local Opaque vanflow_registry builtin_types record_types.

(** ** Failures *)

Lemma failed_unchanged cf e s o s' r ev :
  run_op cf e s o = (s', r, ev) -> failed r -> s' = s.
Proof.
  intros Hrun Hf. destruct o as [x|x im|x|l|src p|x|sel|name x sel|name]; simpl in Hrun; try by simplify_eq.
  - unfold add, sm_update in Hrun. destruct (cf_key cf x); simplify_eq; try done.
    destruct (check_conds _ _); simplify_eq; try done. by destruct Hf.
  - unfold update, sm_update in Hrun. destruct (cf_key cf x); simplify_eq; try done.
    destruct (get_conditional im); simplify_eq; try done.
    destruct (check_conds _ _); simplify_eq; try done. by destruct Hf.
  - unfold remove in Hrun. destruct (cf_key cf x); simplify_eq; try done.
    destruct (sm_delete _ _ _ _) as [s1 [v|]]; simplify_eq; by destruct Hf.
  - unfold replace in Hrun. destruct (keyed cf l ∅); simplify_eq; try done. by destruct Hf.
  - unfold accumulate, sm_patch in Hrun. destruct (cf_key cf _); simplify_eq; try done. simpl in Hrun.
    destruct (patch_record _ _ _ _) as [y|[]|]; simplify_eq; try done. by destruct Hf.
Qed.

(** ** Add *)

Lemma add_spec cf e s x k : reachable cf s -> env_ok e -> cf_key cf x = Ok k ->
  (contents s !! k = None -> exists s', run_op cf e s (OAdd x) =
      (s', OutErr None, if cf_on_add cf then [EvAdd (with_updated (env_now e) x)] else []) /\
    contents s' = <[k := (with_updated (env_now e) x, 1%Z)]> (contents s)) /\
  (is_Some (contents s !! k) -> exists err, run_op cf e s (OAdd x) = (s, OutErr (Some err), [])).
Proof.
  intros Hr He Hk. pose proof (reachable_inv _ _ Hr) as Hi.
  simpl. unfold add, sm_update. rewrite Hk, (check_not_exists _ _ _ Hi). split.
  - intros Hn. rewrite Hn. eexists. split; [reflexivity|]. rewrite contents_store. unfold put.
    f_equal. f_equal. unfold next_version. by rewrite Hn.
  - intros [y Hy]. rewrite Hy. eauto.
Qed.

(** ** Steps as seen at one key *)

(** What one call does to one key. *)
Lemma step_key cf e s o s' r ev k : env_ok e -> reachable cf s -> run_op cf e s o = (s', r, ev) ->
  contents s' !! k = contents s !! k \/
  contents s' !! k = None \/
  exists x, contents s' !! k = Some (x, next_version (contents s) k) /\
    match o with
    | OReplace l => last_with_key cf l k x
    | OAdd y | OUpdate y _ => cf_key cf y = Ok k /\ x = with_updated (env_now e) y
    | OAccumulate src p =>
        cf_key cf (Entry zero_meta (TypeMeta "" "") p) = Ok k /\
        accumulates (env_now e) src (entry_at (contents s) k) p (AStored x) /\
        m_updated (e_meta x) = env_now e
    | _ => False
    end.
Proof.
  intros He Hr Hrun. pose proof (reachable_inv _ _ Hr) as Hi.
  destruct (step_refines _ _ _ _ _ _ _ He Hi Hrun) as [_ Hs].
  assert (forall k' x, contents s' = put (contents s) k' x -> k' <> k -> contents s' !! k = contents s !! k) as Hne.
  { intros k' x -> Hk. unfold put. by rewrite lookup_insert_ne. }
  assert (forall x, contents s' = put (contents s) k x ->
    contents s' !! k = Some (x, next_version (contents s) k)) as Heq.
  { intros x ->. unfold put. by rewrite lookup_insert. }
  destruct o as [x|x im|x|l|src p|x|sel|name x sel|name]; cbn [spec_step] in Hs.
  - destruct Hs as [[-> _]|(k' & Hk & [(Hn & _ & Hc)|(_ & _ & ->)])]; [by left| |by left].
    destruct (decide (k' = k)) as [->|Hd]; [|by left; eapply Hne]. right. right. eauto 6.
  - destruct Hs as [[-> _]|(k' & Hk & H)]; [by left|].
    assert (contents s' = contents s \/ contents s' = put (contents s) k' (with_updated (env_now e) x)) as [->|Hc].
    { destruct im as [tag|]; [|by right; destruct H].
      destruct H as [(_ & _ & ?)|(v & u & _ & [(_ & _ & ?)|(_ & _ & ?)])]; eauto. }
    + by left.
    + destruct (decide (k' = k)) as [->|Hd]; [|by left; eapply Hne]. right. right. eauto 6.
  - destruct Hs as [[-> _]|(k' & Hk & _ & ->)]; [by left|].
    destruct (decide (k' = k)) as [->|Hd]; [right; left; by rewrite lookup_delete|].
    left. by rewrite lookup_delete_ne.
  - destruct Hs as [(_ & _ & Hrep)|[(m & _ & _ & ->)|(_ & _ & ->)]]; [|by left..].
    destruct (contents s' !! k) as [[x v]|] eqn:E; [|by right; left].
    apply Hrep in E as [Hl ->]. right. right. eauto.
  - destruct Hs as [[-> _]|(k' & a & Hk & Ha & H)]; [by left|].
    destruct a as [x| | |]; [|by destruct H as [_ ->]; left..].
    destruct H as [_ Hc]. destruct (decide (k' = k)) as [->|Hd]; [|by left; eapply Hne].
    right. right. exists x. split; [by apply Heq|]. split; [done|]. split; [done|].
    inversion Ha; subst; done.
  - left. destruct Hs as [[-> _]|(k' & _ & -> & _)]; done.
  - left. by destruct Hs as [-> _].
  - left. by destruct Hs as [-> _].
  - left. by destruct Hs as [-> _].
Qed.

Lemma states_last cf s l : last (states cf s l) = Some (run_from cf s l).1.1.
Proof.
  revert s; induction l as [|[e o] l IH]; intros s; [done|]. cbn [states run_from].
  specialize (IH (run_op cf e s o).1.1). destruct (run_op cf e s o) as [[s1 r] ev]. simpl in *.
  destruct (run_from cf s1 l) as [[s2 rs] evs]. simpl in *.
  destruct l as [|[e' o'] l]; simpl in *; [by simplify_eq|done].
Qed.

Lemma states_reachable cf s l : reachable cf s -> envs_ok l -> Forall (reachable cf) (states cf s l).
Proof.
  revert s; induction l as [|[e o] l IH]; intros s Hr Hok; cbn [states]; [by constructor|].
  inversion Hok as [|? ? He Hok']; subst. constructor; [done|]. apply IH; [|done]. by apply reachable_step.
Qed.

Lemma envs_ok_cons e o l : envs_ok ((e, o) :: l) -> env_ok e /\ envs_ok l.
Proof. intros H. inversion H; subst. done. Qed.

(** Versions only grow while a key is present, and change exactly when it is
    written. *)
Lemma version_history cf s l k x v : reachable cf s -> envs_ok l -> contents s !! k = Some (x, v) ->
  Forall (fun s' => is_Some (contents s' !! k)) (states cf s l) ->
  exists x' v', contents (run_from cf s l).1.1 !! k = Some (x', v') /\ (v <= v')%Z /\
    (v' = v -> Forall (fun s' => contents s' !! k = Some (x, v)) (states cf s l)).
Proof.
  revert s x v; induction l as [|[e o] l IH]; intros s x v Hr Hok Hx Hp; cbn [states run_from] in *.
  - exists x, v. split; [done|]. split; [done|]. intros _. by constructor.
  - apply envs_ok_cons in Hok as [He Hok].
    pose proof (step_key cf e s o) as Hst. pose proof (reachable_step cf s e o Hr He) as Hr1.
    destruct (run_op cf e s o) as [[s1 r] ev]. simpl in *.
    inversion Hp as [|? ? _ Hp']; subst.
    assert (is_Some (contents s1 !! k)) as [[x1 v1] Hx1].
    { destruct l as [|[? ?] ?]; by inversion Hp'. }
    destruct (IH s1 x1 v1 Hr1 Hok Hx1 Hp') as (x' & v' & Hf & Hle & Heq).
    destruct (run_from cf s1 l) as [[s2 rs] evs]. simpl in *. exists x', v'. split; [done|].
    destruct (Hst s1 r ev k He Hr eq_refl) as [E|[E|(y & E & _)]].
    + rewrite Hx1, Hx in E. injection E as -> ->. split; [done|]. intros H. constructor; [done|]. auto.
    + congruence.
    + unfold next_version in E. rewrite Hx in E. rewrite Hx1 in E. injection E as -> ->.
      split; [lia|]. intros. lia.
Qed.

(** The version counts at most one per call. *)
Lemma version_bound cf s l k x v n : reachable cf s -> envs_ok l ->
  (forall k x v, contents s !! k = Some (x, v) -> (v <= n)%Z) -> (0 <= n)%Z ->
  contents (run_from cf s l).1.1 !! k = Some (x, v) -> (1 <= v <= n + Z.of_nat (length l))%Z.
Proof.
  revert s n; induction l as [|[e o] l IH]; intros s n Hr Hok Hn H0 Hx; cbn [run_from length] in *.
  - simpl in Hx. split; [|specialize (Hn _ _ _ Hx); lia].
    rewrite contents_lookup in Hx. destruct (sm_items s !! k) as [w|] eqn:E; [|done].
    injection Hx as _ <-. by apply (inv_ver _ _ (reachable_inv _ _ Hr)) in E.
  - apply envs_ok_cons in Hok as [He Hok].
    pose proof (step_key cf e s o) as Hst. pose proof (reachable_step cf s e o Hr He) as Hr1.
    destruct (run_op cf e s o) as [[s1 r] ev]. simpl in *.
    specialize (IH s1 (n + 1)%Z Hr1 Hok). destruct (run_from cf s1 l) as [[s2 rs] evs]. simpl in *.
    enough (1 <= v <= n + 1 + Z.of_nat (length l))%Z by lia. apply IH; [|lia|done].
    intros k' x' v' Hk'. destruct (Hst s1 r ev k' He Hr eq_refl) as [E|[E|(y & E & _)]].
    + rewrite E in Hk'. specialize (Hn _ _ _ Hk'). lia.
    + congruence.
    + rewrite Hk' in E. injection E as -> ->. unfold next_version.
      destruct (contents s !! k') as [[x0 v0]|] eqn:E0; [specialize (Hn _ _ _ E0); lia|lia].
Qed.

Lemma version_reachable cf l k x v : envs_ok l -> contents (state_after cf l) !! k = Some (x, v) ->
  (1 <= v <= Z.of_nat (length l))%Z.
Proof.
  intros Hok Hx. pose proof (version_bound cf new_simap l k x v 0 (reachable_new cf) Hok) as H.
  rewrite contents_new in H. apply H; [|done|done]. intros ? ? ?. by rewrite lookup_empty.
Qed.

Lemma etag_version v u : (- 2^63 <= v < 2^63)%Z -> exists u', decode_etag (make_etag v u) = Some (v, u').
Proof.
  intros Hv. unfold decode_etag, make_etag.
  rewrite b64_round_trip by (apply Forall_app; split; apply put_int_bytes).
  rewrite app_length, !put_int_length. cbn [Nat.leb plus].
  rewrite get_put_int by (simpl; lia). eauto.
Qed.

(** ** If-Match *)

Lemma if_match_spec cf pre h x k tag y x' e :
  envs_ok pre -> envs_ok h -> env_ok e ->
  (Z.of_nat (length pre + length h) < 2^63)%Z ->
  cf_key cf x = Ok k -> cf_key cf x' = Ok k ->
  get cf (state_after cf pre) x = OutSingle (Some (y, tag)) None ->
  Forall (fun s' => is_Some (contents s' !! k)) (states cf (state_after cf pre) h) ->
  (run_op cf e (run_from cf (state_after cf pre) h).1.1 (OUpdate x' (Some tag))).1.2 = OutErr None <->
  Forall (fun s' => get cf s' x = OutSingle (Some (y, tag)) None) (states cf (state_after cf pre) h).
Proof.
  intros Hpre Hh He Hlen Hk Hk' Hget Hpres.
  assert (reachable cf (state_after cf pre)) as Hr by (exists pre; done).
  set (s1 := state_after cf pre) in *.
  assert (forall s' z t, get cf s' x = OutSingle (Some (z, t)) None <->
    exists v, contents s' !! k = Some (z, v) /\ t = make_etag v (t_sec (m_updated (e_meta z)))) as Hg.
  { intros s' z t. unfold get. rewrite Hk, contents_lookup. unfold sm_get.
    destruct (sm_items s' !! k) as [w|]; simpl; [|naive_solver].
    unfold etag_of. split; [intros [= <- <-]; eauto|]. intros (v & [= <- <-] & ->). done. }
  apply Hg in Hget as (v & Hv & ->).
  assert (1 <= v < 2^63)%Z as Hvr.
  { pose proof (version_reachable cf pre k y v Hpre Hv). lia. }
  destruct (etag_version v (t_sec (m_updated (e_meta y))) ltac:(lia)) as [u' Hu'].
  destruct (version_history cf s1 h k y v Hr Hh Hv Hpres) as (z & w & Hz & Hle & Heq).
  set (s2 := (run_from cf s1 h).1.1) in *.
  assert ((run_op cf e s2 (OUpdate x' (Some (make_etag v (t_sec (m_updated (e_meta y))))))).1.2 = OutErr None
    <-> w = v) as ->.
  { simpl. unfold update. rewrite Hk'. simpl. rewrite Hu'. unfold sm_update. rewrite check_version.
    unfold version_of. rewrite Hz. simpl. destruct (Z.eqb_spec w v); simpl; [done|]. split; [done|]. congruence. }
  split.
  - intros E. specialize (Heq E). eapply Forall_impl; [exact Heq|]. intros s' Hs'. apply Hg. exists v. split; [exact Hs'|reflexivity].
  - intros Hall. pose proof (states_last cf s1 h) as Hlast.
    assert (get cf s2 x = OutSingle (Some (y, make_etag v (t_sec (m_updated (e_meta y))))) None) as Hs2.
    { rewrite Forall_forall in Hall. apply Hall. fold s2 in Hlast. rewrite last_lookup in Hlast. by eapply elem_of_list_lookup_2. }
    apply Hg in Hs2 as (v2 & Hv2 & Et). rewrite Hz in Hv2. injection Hv2 as -> ->.
    assert (1 <= v2 < 2^63)%Z.
    { pose proof (version_reachable cf (pre ++ h) k y v2) as Hb. rewrite app_length in Hb.
      enough (1 <= v2 <= Z.of_nat (length pre + length h))%Z by lia. apply Hb; [by apply Forall_app|].
      unfold state_after, run in *. rewrite run_from_app. subst s2 s1.
      destruct (run_from cf new_simap pre) as [[sa ra] ea]. simpl in *.
      destruct (run_from cf sa h) as [[sb rb] eb]. simpl in *. done. }
    destruct (etag_version v2 (t_sec (m_updated (e_meta y))) ltac:(lia)) as [u2 Hu2].
    rewrite <- Et, Hu' in Hu2. congruence.
Qed.

Lemma bad_etag cf e s x k tag : cf_key cf x = Ok k -> decode_etag tag = None ->
  exists err, run_op cf e s (OUpdate x (Some tag)) = (s, OutErr (Some err), []).
Proof. intros Hk Ht. simpl. unfold update. rewrite Hk. simpl. rewrite Ht. eauto. Qed.

(** ** Index lookups *)

Lemma index_exact cf e s name f x : reachable cf s -> env_ok e -> cf_indexers cf !! name = Some f ->
  exists l, run_op cf e s (OIndex name x None) = (s, OutSet l "" None, []) /\
    enumerates (contents s) (fun y => exists b, b ∈ f x /\ b ∈ f y) l.
Proof.
  intros Hr He Hf. simpl. unfold index_of.
  destruct (enumerates_index cf e s name f x He (reachable_inv _ _ Hr) Hf) as (l & -> & Hl). eauto.
Qed.

Lemma index_unknown cf e s name x sel : cf_indexers cf !! name = None ->
  failed (run_op cf e s (OIndex name x sel)).1.2 /\ failed (run_op cf e s (OIndexValues name)).1.2.
Proof.
  intros Hn. simpl. unfold index_of, index_values.
  destruct (index_none (cf_indexers cf) e name x s Hn) as [-> ->]. simpl. eauto.
Qed.

Lemma index_values_exact cf e s name f : reachable cf s -> env_ok e -> cf_indexers cf !! name = Some f ->
  exists l, run_op cf e s (OIndexValues name) = (s, OutValues l None, []) /\ NoDup l /\
    forall b, b ∈ l <-> exists k x, entry_at (contents s) k = Some x /\ b ∈ f x.
Proof.
  intros Hr He Hf.
  destruct (run_op cf e s (OIndexValues name)) as [[s' r] ev] eqn:Hrun.
  destruct (step_refines _ _ _ _ _ _ _ He (reachable_inv _ _ Hr) Hrun) as [_ [_ Hs]].
  simpl in Hrun. injection Hrun as <- <- <-.
  unfold indexer in *. destruct Hs as [[Hn _]|(f' & l & Hf' & E & Hnd & Hl)]; [rewrite Hf in Hn; discriminate|]. rewrite E.
  rewrite Hf in Hf'. injection Hf' as ->. eauto.
Qed.

(** ** Listing *)

Lemma enumerates_perm st P l l' : enumerates st P l -> enumerates st P l' -> l ≡ₚ l'.
Proof.
  intros (ks & Hnd & Hf & Hk) (ks' & Hnd' & Hf' & Hk').
  assert (ks ≡ₚ ks') as Hp.
  { apply NoDup_Permutation; [done..|]. intros k. by rewrite Hk, Hk'. }
  assert (forall ks l, Forall2 (fun k x => entry_at st k = Some x) ks l ->
    Some <$> l = entry_at st <$> ks) as Hm.
  { clear. induction 1 as [|k x ks l H _ IH]; [done|]. rewrite !fmap_cons, H, IH. done. }
  assert (Some <$> l ≡ₚ Some <$> l') as HS by (rewrite (Hm _ _ Hf), (Hm _ _ Hf'), Hp; done).
  apply (fmap_Permutation (default zero_entry)) in HS.
  rewrite <- !list_fmap_compose, !list_fmap_id in HS. exact HS.
Qed.
