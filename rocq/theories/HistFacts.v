(** Sequences of Accumulate, type consistency, timestamps, the source index. *)
From Coq Require Import ZArith NArith Ascii String Lia.
From stdpp Require Import base gmap strings list sorting.
From Verif Require Import GoBase Encoding SpecEncoding Records Messages SpecMessages MessageFacts
  AccumFacts Env SyncMap SyncMapFacts Tokens TokenFacts Cache SpecStore StoreFacts StoreLemmas ListFacts EventFacts.

Local Open Scope list_scope.
Local Opaque vanflow_registry builtin_types record_types Encode Decode.

(** ** Sequences of Accumulate *)

(** A call of Accumulate with its environment, source, record and the record's
    attributes. *)
Notation acc_call := (env * (source_ref * vrec * attrset))%type.

Definition calls (l : list acc_call) : list (env * op) :=
  (fun '(e, (src, r, _)) => (e, OAccumulate src (Some r))) <$> l.

(** Union of the attributes, later ones first. *)
Definition overridden (a : attrset) (l : list acc_call) : attrset :=
  foldl (fun acc '(_, (_, _, b)) => b ∪ acc) a l.

(** All records usable, of one type, with one key. *)
Definition acc_ok (cf : config) (k : string) (t : gotype) (l : list acc_call) : Prop :=
  Forall (fun '(e, (_, r, b)) => env_ok e /\ good_record r /\ vr_type r = t /\
    cf_key cf (bare r) = Ok k /\ Encode vanflow_registry (vrec_any r) = EncOk b) l.

Lemma accumulate_seq cf k t l s x0 v0 r0 a : acc_ok cf k t l ->
  contents s !! k = Some (x0, v0) -> e_rec x0 = Some r0 -> good_record r0 -> vr_type r0 = t ->
  Encode vanflow_registry (vrec_any r0) = EncOk a ->
  exists s' evs x r v, run_from cf s (calls l) = (s', replicate (length l) (OutErr None), evs) /\
    contents s' !! k = Some (x, v) /\ e_rec x = Some r /\ good_record r /\ vr_type r = t /\
    Encode vanflow_registry (vrec_any r) = EncOk (overridden a l) /\
    m_source (e_meta x) = m_source (e_meta x0) /\ m_annotations (e_meta x) = m_annotations (e_meta x0) /\
    e_tm x = e_tm x0 /\ forall k', k' <> k -> contents s' !! k' = contents s !! k'.
Proof.
  intros Hok. revert s x0 v0 r0 a. induction Hok as [|[e [[src r1] b]] l (He & G & Ht & Hk & Eb) Hok IH];
    intros s x0 v0 r0 a Hc Hr0 G0 Ht0 Ea.
  - exists s, [], x0, r0, v0. split; [done|]. split; [exact Hc|]. split; [exact Hr0|]. split; [exact G0|].
    split; [exact Ht0|]. split; [exact Ea|]. done.
  - destruct (accumulate_more cf e s src r1 b k x0 v0 r0 a He Hk Hc Hr0 G0 Ea G Eb) as [H1 H2].
    destruct (decide (b ⊆ a)) as [Hs|Hs].
    + destruct (IH s x0 v0 r0 a Hc Hr0 G0 Ht0 Ea) as (s' & evs & x & r & v & Hrun & H').
      exists s', evs, x, r, v. split.
      * unfold calls. cbn [fmap list_fmap run_from length replicate]. rewrite (H1 Hs).
        unfold calls in Hrun. cbn [fmap list_fmap] in Hrun. rewrite Hrun. done.
      * unfold overridden. cbn [foldl]. rewrite (map_subseteq_union b a Hs). exact H'.
    + destruct (H2 Hs) as (s1 & r' & a' & Hrun1 & Hc1 & G' & _ & Ht' & _ & Ea' & _ & _ & Hsame).
      rewrite (Hsame ltac:(congruence)) in Ea'.
      set (x' := Entry _ _ (Some r')) in *.
      destruct (IH s1 x' (next_version (contents s) k) r' (b ∪ a))
        as (s' & evs & x & r & v & Hrun & Hx & Hr & Gr & Htr & Er & Hsrc & Hann & Htm & Hoth);
        [rewrite Hc1; unfold put; by rewrite lookup_insert|done|exact G'|congruence|exact Ea'|].
      exists s', (emit (cf_on_change cf) (EvChange x0 x') ++ evs), x, r, v. split.
      * unfold calls. cbn [fmap list_fmap run_from length replicate]. rewrite Hrun1.
        unfold calls in Hrun. cbn [fmap list_fmap] in Hrun. rewrite Hrun. done.
      * split; [exact Hx|]. split; [exact Hr|]. split; [exact Gr|]. split; [exact Htr|]. split; [exact Er|].
        split; [exact Hsrc|]. split; [exact Hann|]. split; [exact Htm|].
        intros k' Hk'. rewrite (Hoth k' Hk'), Hc1. unfold put. by rewrite lookup_insert_ne.
Qed.

Lemma accumulate_all cf k t e src r0 a l s : contents s !! k = None ->
  acc_ok cf k t ((e, (src, r0, a)) :: l) ->
  exists s' evs x r v, run_from cf s (calls ((e, (src, r0, a)) :: l)) =
      (s', replicate (S (length l)) (OutErr None), evs) /\
    contents s' !! k = Some (x, v) /\ e_rec x = Some r /\ good_record r /\ vr_type r = t /\
    Encode vanflow_registry (vrec_any r) = EncOk (overridden a l) /\
    m_source (e_meta x) = src /\ m_annotations (e_meta x) = ∅ /\
    e_tm x = vrec_meta r0 /\ forall k', k' <> k -> contents s' !! k' = contents s !! k'.
Proof.
  intros Hn Hok. apply Forall_cons in Hok as [(He & G & <- & Hk & Ea) Hok'].
  destruct (accumulate_first cf e s src r0 k Hk Hn) as (s1 & Hrun1 & Hc1).
  set (x' := Entry (Metadata src _ _) _ (Some r0)) in *.
  destruct (accumulate_seq cf k (vr_type r0) l s1 x' (next_version (contents s) k) r0 a Hok')
    as (s' & evs & x & r & v & Hrun & Hx & Hr & Gr & Htr & Er & Hsrc & Hann & Htm & Hoth);
    [rewrite Hc1; unfold put; by rewrite lookup_insert|done|exact G|done|exact Ea|].
  exists s', (emit (cf_on_add cf) (EvAdd x') ++ evs), x, r, v. split.
  - unfold calls. cbn [fmap list_fmap run_from length replicate]. rewrite Hrun1.
    unfold calls in Hrun. cbn [fmap list_fmap] in Hrun. rewrite Hrun. done.
  - split; [exact Hx|]. split; [exact Hr|]. split; [exact Gr|]. split; [exact Htr|]. split; [exact Er|].
    split; [exact Hsrc|]. split; [exact Hann|]. split; [exact Htm|].
    intros k' Hk'. rewrite (Hoth k' Hk'), Hc1. unfold put. by rewrite lookup_insert_ne.
Qed.

(** An attribute of the union is the one of the last record that has it. *)
Lemma overridden_lookup a l c x : overridden a l !! c = Some x <->
  (exists l1 e src r b l2, l = l1 ++ (e, (src, r, b)) :: l2 /\ b !! c = Some x /\
     Forall (fun '(_, (_, _, b')) => (b' : attrset) !! c = None) l2) \/
  (a !! c = Some x /\ Forall (fun '(_, (_, _, b')) => (b' : attrset) !! c = None) l).
Proof.
  revert a. induction l as [|[e [[src r] b]] l IH] using rev_ind; intros a.
  - unfold overridden. simpl. split; [intros H; right; by split|].
    intros [(l1 & ? & ? & ? & ? & ? & H & _)|[H _]]; [by destruct l1|done].
  - unfold overridden in *. rewrite foldl_app. cbn [foldl].
    rewrite lookup_union_Some_raw, IH. split.
    + intros [H|[Hn [(l1 & e1 & s1 & r1 & b1 & l2 & -> & Hb & Hl)|[Ha Hl]]]].
      * left. exists l, e, src, r, b, []. split; [done|]. split; [done|constructor].
      * left. exists l1, e1, s1, r1, b1, (l2 ++ [(e, (src, r, b))]). split; [by rewrite <- app_assoc|].
        split; [done|]. apply Forall_app. split; [done|]. constructor; [exact Hn|constructor].
      * right. split; [done|]. apply Forall_app. split; [done|]. constructor; [exact Hn|constructor].
    + intros [(l1 & e1 & s1 & r1 & b1 & l2 & E & Hb & Hl)|[Ha Hl]].
      * destruct l2 as [|c2 l2 _] using rev_ind.
        -- apply app_inj_tail in E as [-> [= -> -> -> ->]]. by left.
        -- rewrite app_comm_cons, app_assoc in E. apply app_inj_tail in E as [-> <-].
           apply Forall_app in Hl as [Hl Hl2]. apply Forall_cons in Hl2 as [Hl2 _]. right. split; [exact Hl2|].
           left. exists l1, e1, s1, r1, b1, l2. done.
      * apply Forall_app in Hl as [Hl Hl2]. apply Forall_cons in Hl2 as [Hl2 _]. right. split; [exact Hl2|]. by right.
Qed.

(** Repeating a successful Accumulate does nothing. *)
Lemma accumulate_repeat cf e e' s src src' r b k s1 ev : env_ok e -> env_ok e' ->
  cf_key cf (bare r) = Ok k -> good_record r -> Encode vanflow_registry (vrec_any r) = EncOk b ->
  (forall x, entry_at (contents s) k = Some x -> good_entry good_record x) ->
  run_op cf e s (OAccumulate src (Some r)) = (s1, OutErr None, ev) ->
  run_op cf e' s1 (OAccumulate src' (Some r)) = (s1, OutErr None, []).
Proof.
  intros He He' Hk G Eb Hst Hrun.
  assert (forall s2 x v r2 a2, contents s2 !! k = Some (x, v) -> e_rec x = Some r2 -> good_record r2 ->
    Encode vanflow_registry (vrec_any r2) = EncOk a2 -> b ⊆ a2 ->
    run_op cf e' s2 (OAccumulate src' (Some r)) = (s2, OutErr None, [])) as Hnoop.
  { intros s2 x v r2 a2 Hc Hr2 G2 E2 Hs.
    exact (proj1 (accumulate_more cf e' s2 src' r b k x v r2 a2 He' Hk Hc Hr2 G2 E2 G Eb) Hs). }
  destruct (contents s !! k) as [[x0 v0]|] eqn:Ec.
  - destruct (Hst x0) as (r0 & Hr0 & G0); [unfold entry_at; by rewrite Ec|].
    destruct (good_encode _ G0) as [[a Ea]|(p & er & Ea)].
    + destruct (accumulate_more cf e s src r b k x0 v0 r0 a He Hk Ec Hr0 G0 Ea G Eb) as [H1 H2].
      destruct (decide (b ⊆ a)) as [Hs|Hs].
      * rewrite (H1 Hs) in Hrun. injection Hrun as <- _. exact (Hnoop s x0 v0 r0 a Ec Hr0 G0 Ea Hs).
      * destruct (H2 Hs) as (s' & r' & a' & Hrun1 & Hc1 & G' & _ & _ & _ & Ea' & Hsub & _).
        rewrite Hrun1 in Hrun. injection Hrun as <- _.
        eapply (Hnoop s' _ _ r' a'); [rewrite Hc1; unfold put; by rewrite lookup_insert|reflexivity|exact G'|exact Ea'|exact Hsub].
    + destruct (accumulate_fails cf e s src r k x0 v0 r0 He Hk Ec Hr0 G0 G) as [q Hq];
        [left; intros ?; congruence|]. rewrite Hq in Hrun. discriminate.
  - destruct (accumulate_first cf e s src r k Hk Ec) as (s' & Hrun1 & Hc1).
    rewrite Hrun1 in Hrun. injection Hrun as <- _.
    eapply (Hnoop s' _ _ r b); [rewrite Hc1; unfold put; by rewrite lookup_insert|reflexivity|exact G|exact Eb|done].
Qed.

(** ** Type consistency *)

(** Each key is only used with one type, and given entries are consistent. *)
Definition typed_entry (cf : config) (typ : string -> gotype) (x : entry) : Prop :=
  exists r, e_rec x = Some r /\ good_record r /\ e_tm x = vrec_meta r /\
    forall k, cf_key cf x = Ok k -> vr_type r = typ k.

Definition typed_op (cf : config) (typ : string -> gotype) (o : op) : Prop :=
  match o with
  | OAdd x | OUpdate x _ => typed_entry cf typ x
  | OReplace l => Forall (typed_entry cf typ) l
  | OAccumulate _ p => exists r, p = Some r /\ good_record r /\ forall k, cf_key cf (bare r) = Ok k -> vr_type r = typ k
  | _ => True
  end.

Definition consistent (typ : string -> gotype) (st : plain) : Prop :=
  forall k x, entry_at st k = Some x ->
    exists r, e_rec x = Some r /\ good_record r /\ vr_type r = typ k /\ e_tm x = vrec_meta r.

Lemma vrec_meta_type r r' : vr_type r = vr_type r' -> vrec_meta r = vrec_meta r'.
Proof. unfold vrec_meta. by intros ->. Qed.

Lemma consistent_step cf typ e s o s' r ev : env_ok e -> reachable cf s -> typed_op cf typ o ->
  consistent typ (contents s) -> run_op cf e s o = (s', r, ev) -> consistent typ (contents s').
Proof.
  intros He Hr Ht Hc Hrun. pose proof (step_key cf e s o s' r ev) as Hst.
  intros k x Hx. unfold entry_at in Hx. destruct (contents s' !! k) as [[y v]|] eqn:Ey; [|done].
  injection Hx as ->.
  destruct (Hst k He Hr Hrun) as [E|[E|(y & E & Ho)]]; [|congruence|].
  - apply Hc. unfold entry_at. by rewrite <- E, Ey.
  - rewrite Ey in E. injection E as <- _. destruct o as [z|z im|z|l|src p|z|sel|name z sel|name]; try done.
    + destruct Ho as [Hk ->]. destruct Ht as (q & Hq & G & Hm & Hty). exists q. repeat split; try done. by apply Hty.
    + destruct Ho as [Hk ->]. destruct Ht as (q & Hq & G & Hm & Hty). exists q. repeat split; try done. by apply Hty.
    + destruct Ho as (l1 & l2 & -> & Hk & _). cbn [typed_op] in Ht. rewrite Forall_forall in Ht.
      destruct (Ht x) as (q & Hq & G & Hm & Hty); [apply elem_of_app; right; left|].
      exists q. split; [done|]. split; [done|]. split; [by apply Hty|done].
    + destruct Ht as (q & -> & G & Hty). destruct Ho as (Hk & _ & _).
      pose proof (accumulate_good cf e s src q k He G Hk) as Ha. rewrite Hrun in Ha.
      destruct Ha as [[-> _]|(x' & r' & _ & Hc' & Hx' & Gr' & Htr & _ & Hnew & Hold)].
      { intros z Hz. destruct (Hc _ _ Hz) as (rz & ? & ? & _). by exists rz. }
      * apply Hc. unfold entry_at. by rewrite Ey.
      * assert (x' = x) as ->.
        { rewrite Hc' in Ey. unfold put in Ey. rewrite lookup_insert in Ey. by injection Ey as -> _. }
        exists r'. split; [done|]. split; [done|]. split; [rewrite Htr; by apply Hty|].
        destruct (entry_at (contents s) k) as [x0|] eqn:E0.
        -- rewrite (Hold x0 eq_refl). destruct (Hc _ _ E0) as (r0 & _ & _ & Ht0 & ->).
           apply vrec_meta_type. rewrite Htr, Ht0. symmetry. by apply Hty.
        -- rewrite (Hnew eq_refl). apply vrec_meta_type. congruence.
Qed.

Definition typed_ops (cf : config) (typ : string -> gotype) (l : list (env * op)) : Prop :=
  Forall (fun '(_, o) => typed_op cf typ o) l.

Lemma consistent_run cf typ s l s' rs evs : reachable cf s -> envs_ok l -> typed_ops cf typ l ->
  consistent typ (contents s) -> run_from cf s l = (s', rs, evs) -> consistent typ (contents s').
Proof.
  revert s rs evs; induction l as [|[e o] l IH]; intros s rs evs Hr Hok Hg Hw Hrun; cbn [run_from] in Hrun.
  - by injection Hrun as <- <- <-.
  - apply envs_ok_cons in Hok as [He Hok]. apply Forall_cons in Hg as [Hgo Hg].
    pose proof (reachable_step cf s e o Hr He) as Hr1.
    destruct (run_op cf e s o) as [[s1 r] ev] eqn:E1. cbn [fst] in Hr1.
    destruct (run_from cf s1 l) as [[s2 rs2] evs2] eqn:E2. injection Hrun as <- _ _.
    eapply (IH s1); [done|done|done| |exact E2]. exact (consistent_step cf typ e s o s1 r ev He Hr Hgo Hw E1).
Qed.

Lemma consistent_after cf typ l : envs_ok l -> typed_ops cf typ l -> consistent typ (contents (state_after cf l)).
Proof.
  intros Hok Hg. unfold state_after, run.
  destruct (run_from cf new_simap l) as [[s rs] evs] eqn:E. cbn [fst].
  eapply consistent_run; [apply reachable_new|done|done| |exact E].
  intros k x. rewrite contents_new. unfold entry_at. by rewrite lookup_empty.
Qed.

(** ** Timestamps *)

(** The call [o] at time [now] wrote [x] under [k]. *)
Definition wrote (cf : config) (now : gotime) (o : op) (k : string) (x : entry) : Prop :=
  match o with
  | OAdd y | OUpdate y _ => cf_key cf y = Ok k /\ x = with_updated now y
  | OAccumulate src p => cf_key cf (Entry zero_meta (TypeMeta "" "") p) = Ok k /\ m_updated (e_meta x) = now
  | OReplace l => last_with_key cf l k x
  | _ => False
  end.

Lemma last_write_from cf s l k x v : reachable cf s -> envs_ok l ->
  contents (run_from cf s l).1.1 !! k = Some (x, v) ->
  Forall (fun s' => contents s' !! k = Some (x, v)) (states cf s l) \/
  exists l1 e o l2, l = l1 ++ (e, o) :: l2 /\ wrote cf (env_now e) o k x /\
    contents (run_from cf s l1).1.1 !! k <> Some (x, v) /\
    Forall (fun s' => contents s' !! k = Some (x, v)) (states cf (run_from cf s (l1 ++ [(e, o)])).1.1 l2).
Proof.
  revert s. induction l as [|[e o] l IH]; intros s Hr Hok Hx; cbn [run_from states] in *.
  - left. by constructor.
  - apply envs_ok_cons in Hok as [He Hok]. pose proof (step_key cf e s o) as Hst.
    pose proof (reachable_step cf s e o Hr He) as Hr1. 
    destruct (run_op cf e s o) as [[s1 r] ev] eqn:E1. cbn [fst] in *.
    specialize (IH s1 Hr1 Hok). destruct (run_from cf s1 l) as [[s2 rs] evs] eqn:E2. cbn [fst] in *.
    destruct (IH Hx) as [Hall|(l1 & e' & o' & l2 & -> & Hw & Hne & Hall)].
    + assert (contents s1 !! k = Some (x, v)) as Hx1.
      { destruct l as [|[? ?] ?]; by inversion Hall. }
      destruct (Hst s1 r ev k He Hr eq_refl) as [E|[E|(y & E & Ho)]].
      * left. constructor; [congruence|done].
      * congruence.
      * right. rewrite Hx1 in E. injection E as <- ->.
        exists [], e, o, l. split; [done|]. split.
        { destruct o; try done. cbn [wrote]. by destruct Ho as (? & _ & ?). }
        split.
        -- cbn [run_from fst]. intros Hs. unfold next_version in Hs.
           destruct (contents s !! k) as [[y w]|] eqn:Es; [|done]. injection Hs as _ Hs. lia.
        -- cbn [app run_from]. rewrite E1. exact Hall.
    + right. exists ((e, o) :: l1), e', o', l2. split; [done|]. split; [done|]. split.
      * cbn [run_from]. rewrite E1. destruct (run_from cf s1 l1) as [[? ?] ?]. exact Hne.
      * cbn [app run_from]. rewrite E1. destruct (run_from cf s1 (l1 ++ [(e', o')])) as [[? ?] ?]. exact Hall.
Qed.

Lemma last_write cf l k x v : envs_ok l -> contents (state_after cf l) !! k = Some (x, v) ->
  exists l1 e o l2, l = l1 ++ (e, o) :: l2 /\ wrote cf (env_now e) o k x /\
    contents (state_after cf l1) !! k <> Some (x, v) /\
    Forall (fun s' => contents s' !! k = Some (x, v)) (states cf (state_after cf (l1 ++ [(e, o)])) l2).
Proof.
  intros Hok Hx. destruct (last_write_from cf new_simap l k x v (reachable_new cf) Hok Hx) as [H|H]; [|exact H].
  assert (contents new_simap !! k = Some (x, v)) as Hn by (destruct l as [|[? ?] ?]; by inversion H).
  by rewrite contents_new, lookup_empty in Hn.
Qed.

(** ** The source index *)

Fixpoint dot_free (s : string) : Prop :=
  match s with
  | EmptyString => True
  | String c s' => c <> "."%char /\ dot_free s'
  end.

Lemma dot_split a b s t : dot_free a -> dot_free b ->
  (a ++ "." ++ s = b ++ "." ++ t)%string -> a = b /\ s = t.
Proof.
  revert b. induction a as [|c a IH]; intros [|d b] Ha Hb E; simpl in *.
  - by injection E.
  - injection E as E _. subst d. by destruct Hb as [? _].
  - injection E as E _. subst c. by destruct Ha as [? _].
  - injection E as -> E. destruct (IH b) as [-> ->]; [apply Ha|apply Hb|exact E|]. done.
Qed.

Lemma source_string_inj s t : dot_free (sr_api s) -> dot_free (sr_type s) ->
  dot_free (sr_api t) -> dot_free (sr_type t) -> source_string s = source_string t -> s = t.
Proof.
  destruct s as [a b c], t as [a' b' c']. unfold source_string. simpl. intros Ha Hb Ha' Hb' E.
  apply dot_split in E as [-> E]; [|done..]. apply dot_split in E as [-> ->]; [|done..]. done.
Qed.

Lemma source_index_exact cf e s x : reachable cf s -> env_ok e ->
  cf_indexers cf !! index_by_source = Some source_index ->
  (forall k y, entry_at (contents s) k = Some y ->
     source_string (m_source (e_meta x)) = source_string (m_source (e_meta y)) ->
     m_source (e_meta x) = m_source (e_meta y)) ->
  exists l, run_op cf e s (OIndex "source" x None) = (s, OutSet l "" None, []) /\
    enumerates (contents s) (fun y => m_source (e_meta y) = m_source (e_meta x)) l.
Proof.
  intros Hr He Hf Hinj. destruct (index_exact cf e s "source" source_index x Hr He Hf) as (l & Hrun & Hl).
  exists l. split; [exact Hrun|]. destruct Hl as (ks & Hnd & Hf2 & Hk). exists ks. split; [done|]. split; [done|].
  intros k. rewrite Hk. unfold source_index. split.
  - intros (y & Hy & b & Hb & Hb'). exists y. split; [done|].
    apply elem_of_list_singleton in Hb, Hb'. symmetry. eapply Hinj; [exact Hy|congruence].
  - intros (y & Hy & E). exists y. split; [done|]. exists (source_string (m_source (e_meta x))).
    rewrite E. split; left.
Qed.

(** ** Restatements *)

Lemma silent_noop cf e s src r b k x0 v0 r0 a :
  env_ok e -> cf_key cf (bare r) = Ok k -> contents s !! k = Some (x0, v0) -> e_rec x0 = Some r0 ->
  good_record r0 -> Encode vanflow_registry (vrec_any r0) = EncOk a ->
  good_record r -> Encode vanflow_registry (vrec_any r) = EncOk b -> b ⊆ a ->
  run_op cf e s (OAccumulate src (Some r)) = (s, OutErr None, []).
Proof.
  intros He Hk Hc Hr0 G0 Ea G Eb.
  exact (proj1 (accumulate_more cf e s src r b k x0 v0 r0 a He Hk Hc Hr0 G0 Ea G Eb)).
Qed.

Lemma change_reported cf e s src r b k x0 v0 r0 a :
  env_ok e -> cf_key cf (bare r) = Ok k -> contents s !! k = Some (x0, v0) -> e_rec x0 = Some r0 ->
  good_record r0 -> Encode vanflow_registry (vrec_any r0) = EncOk a ->
  good_record r -> Encode vanflow_registry (vrec_any r) = EncOk b -> ~ b ⊆ a ->
  exists s' x', run_op cf e s (OAccumulate src (Some r)) =
      (s', OutErr None, if cf_on_change cf then [EvChange x0 x'] else []) /\
    contents s' = <[k := (x', v0 + 1)%Z]> (contents s) /\ m_updated (e_meta x') = env_now e.
Proof.
  intros He Hk Hc Hr0 G0 Ea G Eb Hs.
  destruct (proj2 (accumulate_more cf e s src r b k x0 v0 r0 a He Hk Hc Hr0 G0 Ea G Eb) Hs)
    as (s' & r' & a' & Hrun & Hc' & _).
  eexists s', _. split; [exact Hrun|]. split; [|reflexivity].
  rewrite Hc'. unfold put, next_version. rewrite Hc. reflexivity.
Qed.

Lemma stale_stays cf e s src r b k x0 v0 r0 a c x :
  env_ok e -> cf_key cf (bare r) = Ok k -> contents s !! k = Some (x0, v0) -> e_rec x0 = Some r0 ->
  good_record r0 -> Encode vanflow_registry (vrec_any r0) = EncOk a ->
  good_record r -> Encode vanflow_registry (vrec_any r) = EncOk b -> vr_type r0 = vr_type r ->
  a !! c = Some x -> b !! c = None ->
  exists s' ev x1 v1 r1 a1, run_op cf e s (OAccumulate src (Some r)) = (s', OutErr None, ev) /\
    contents s' !! k = Some (x1, v1) /\ e_rec x1 = Some r1 /\
    Encode vanflow_registry (vrec_any r1) = EncOk a1 /\ a1 !! c = Some x.
Proof.
  intros He Hk Hc Hr0 G0 Ea G Eb Ht Hx Hb.
  destruct (accumulate_more cf e s src r b k x0 v0 r0 a He Hk Hc Hr0 G0 Ea G Eb) as [H1 H2].
  destruct (decide (b ⊆ a)) as [Hs|Hs].
  - exists s, [], x0, v0, r0, a. split; [exact (H1 Hs)|]. split; [exact Hc|]. split; [exact Hr0|].
    split; [exact Ea|exact Hx].
  - destruct (H2 Hs) as (s' & r' & a' & Hrun & Hc' & _ & _ & _ & _ & Ea' & _ & _ & Hsame).
    eexists s', _, _, _, r', a'. split; [exact Hrun|]. split; [rewrite Hc'; unfold put; apply lookup_insert|].
    split; [reflexivity|]. split; [exact Ea'|]. rewrite (Hsame Ht). apply lookup_union_Some_raw. right.
    split; [exact Hb|exact Hx].
Qed.

Lemma accumulate_no_panic cf e s src r k :
  env_ok e -> good_record r -> cf_key cf (bare r) = Ok k ->
  (forall x, entry_at (contents s) k = Some x -> good_entry good_record x) ->
  (run_op cf e s (OAccumulate src (Some r))).1.2 <> OutPanic.
Proof.
  intros He G Hk Hst. pose proof (accumulate_good cf e s src r k He G Hk Hst) as H.
  destruct (run_op cf e s (OAccumulate src (Some r))) as [[s' out] ev]. cbn [fst snd].
  destruct H as [[_ H]|(x & r' & -> & _)]; [exact H|discriminate].
Qed.

Lemma list_complete cf e s : env_ok e ->
  exists l, run_op cf e s (OList None) = (s, OutSet l "" None, []) /\ enumerates (contents s) (fun _ => True) l.
Proof. intros He. eexists. split; [reflexivity|]. by apply enumerates_list. Qed.

Lemma default_distinct cf l :
  cf_key cf = key_by_record_id -> envs_ok l -> good_ops l -> distinct_stored cf (contents (state_after cf l)).
Proof. intros Hu Hok Hg. apply well_keyed_distinct; [done|]. by apply well_keyed_after. Qed.

Lemma replace_exact cf e s l s' r ev :
  reachable cf s -> env_ok e -> run_op cf e s (OReplace l) = (s', r, ev) ->
  ((forall x, x ∈ l -> exists k, cf_key cf x = Ok k) /\ r = OutErr None /\ ev = [] /\
   forall k x v, contents s' !! k = Some (x, v) <-> last_with_key cf l k x /\ v = next_version (contents s) k) \/
  (failed r /\ s' = s /\ exists x, x ∈ l /\ forall k, cf_key cf x <> Ok k).
Proof.
  intros Hr He Hrun. destruct (step_refines _ _ _ _ _ _ _ He (reachable_inv _ _ Hr) Hrun) as [_ Hs].
  cbn [spec_step] in Hs.
  assert (ev = []) as -> by (cbn [run_op] in Hrun; unfold replace in Hrun; destruct (keyed cf l ∅); congruence).
  assert (forall f, replace_outcome cf l (Some f) -> exists x, x ∈ l /\ forall k, cf_key cf x <> Ok k) as Hbad.
  { intros f (l1 & x & l2 & -> & _ & H). exists x. split; [apply elem_of_app; right; left|].
    intros k. destruct H as [(m & -> & _)|[-> _]]; discriminate. }
  destruct Hs as [(Ho & -> & Hrep)|[(m & Ho & -> & _)|(Ho & -> & _)]].
  - left. split; [exact Ho|]. split; [done|]. split; [done|]. exact Hrep.
  - right. split; [by eexists|]. split; [by eapply failed_unchanged; [exact Hrun|eexists]|]. by eapply Hbad.
  - right. split; [done|]. split; [by eapply failed_unchanged; [exact Hrun|]|]. by eapply Hbad.
Qed.

