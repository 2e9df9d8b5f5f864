(** A collector fed with published updates. *)
From Coq Require Import ZArith NArith Ascii String Lia.
From stdpp Require Import base gmap strings list.
From Verif Require Import GoBase Encoding SpecEncoding CodecLemmas BuiltinFacts Records Messages SpecMessages MessageFacts AccumFacts
  Env SyncMap Tokens Cache SpecStore StoreFacts StoreLemmas ListFacts EventFacts HistFacts StoreExamples Dispatch DispatchFacts Diff DiffFacts.

Local Open Scope list_scope.
Local Opaque vanflow_registry builtin_types record_types Encode Decode attrs_of.

(** ** Specification *)

(** A usable record that encodes. *)
Definition publishable (r : vrec) : Prop :=
  good_record r /\ Encode vanflow_registry (vrec_any r) = EncOk (attrs_of r).

(** What identifies a record among those a source publishes. *)
Definition rkey (r : vrec) : string * string := (type_key r, vrec_identity r).

(** Updates as a source makes them: publishable records, each either sent
    whole (first publication, or a repetition as by a flush) or with the
    record last published under the same type and identity as its
    predecessor; [P] holds the last published records. *)
Inductive chained : gmap (string * string) vrec -> list (env * rec_update) -> Prop :=
  | chained_nil P : chained P []
  | chained_cons P e p c U : env_ok e -> publishable c -> (p = None \/ p = P !! rkey c) ->
      chained (<[rkey c := c]> P) U -> chained P ((e, RecUpdate p (Some c)) :: U).

(** The records handed over for sending, in order. *)
Definition deltas (U : list (env * rec_update)) : list vrec :=
  omap (fun '(e, u) => match diff_record e u with DRec (Some r) => Some r | _ => None end) U.

(** The new records of the updates. *)
Definition currents (U : list (env * rec_update)) : list vrec := omap (fun '(_, u) => ru_curr u) U.

(** A delivery of a batch of records: an encoded record message, with an
    environment for each of the Accumulate calls it leads to. *)
Definition delivers (x : list env * amqp_msg) (batch : list vrec) : Prop :=
  Forall env_ok x.1 /\ length x.1 = length batch /\
  exists p, encode_record_msg (RecordMsg p (Some <$> batch)) = Ok x.2.

(** Deliveries of [l] with, any number of times, the tail end of [l] again. *)
Inductive redelivered (l : list (list vrec)) : list (list vrec) -> Prop :=
  | redelivered_once : redelivered l l
  | redelivered_again l' l1 l2 : redelivered l l' -> l = l1 ++ l2 -> redelivered l (l' ++ l2).

(** Each store keeps records of one type under one identity. *)
Definition typed_as (ty : nat -> string -> gotype) (m : gmap string nat) (r : vrec) : Prop :=
  forall i, m !! type_key r = Some i -> vr_type r = ty i (vrec_identity r).

(** The stores hold usable records of these types. *)
Definition sound (ty : nat -> string -> gotype) (w : stores) : Prop :=
  forall i id x v, contents (store_at w i) !! id = Some (x, v) ->
    exists r, e_rec x = Some r /\ publishable r /\ vr_type r = ty i id.

(** The attributes of the collector's copy in store [i]. *)
Definition copy_at (w : stores) (i : nat) (id : string) : option attrset :=
  match contents (store_at w i) !! id with
  | Some (x, _) => Some (match e_rec x with Some r => attrs_of r | None => ∅ end)
  | None => None
  end.

(** The records among [rs] that go to store [i] and have identity [id]. *)
Definition concerning (m : gmap string nat) (i : nat) (id : string) (rs : list vrec) : list vrec :=
  filter (fun r => m !! type_key r = Some i /\ vrec_identity r = id) rs.

(** Attributes laid over each other, later ones on top. *)
Definition laid (a : option attrset) (rs : list vrec) : option attrset :=
  foldl (fun acc r => Some (attrs_of r ∪ default ∅ acc)) a rs.

(** ** Laying attributes over each other *)

Lemma laid_lookup a rs a' : laid a rs = Some a' -> forall c y, a' !! c = Some y <->
  (exists l1 r l2, rs = l1 ++ r :: l2 /\ attrs_of r !! c = Some y /\ Forall (fun r' => attrs_of r' !! c = None) l2) \/
  (Forall (fun r' => attrs_of r' !! c = None) rs /\ exists a0, a = Some a0 /\ a0 !! c = Some y).
Proof.
  revert a'. induction rs as [|r rs IH] using rev_ind; intros a' H c y.
  - cbn in H. subst a. split; [intros H; right; split; [constructor|eauto]|].
    intros [(l1 & ? & ? & H & _)|[_ (a0 & [= <-] & H)]]; [by destruct l1|done].
  - unfold laid in H. rewrite foldl_app in H. cbn [foldl] in H. fold (laid a rs) in H. injection H as <-.
    assert (forall z, default ∅ (laid a rs) !! c = Some z <->
      (exists l1 r l2, rs = l1 ++ r :: l2 /\ attrs_of r !! c = Some z /\ Forall (fun r' => attrs_of r' !! c = None) l2) \/
      (Forall (fun r' => attrs_of r' !! c = None) rs /\ exists a0, a = Some a0 /\ a0 !! c = Some z)) as IH'.
    { intros z. destruct (laid a rs) as [a1|] eqn:E; [by apply IH|]. cbn [default]. rewrite lookup_empty.
      assert (rs = [] /\ a = None) as [-> ->].
      { destruct rs as [|r' rs' _] using rev_ind; [done|]. unfold laid in E. by rewrite foldl_app in E. }
      split; [done|]. intros [(l1 & ? & ? & H & _)|[_ (a0 & H & _)]]; [by destruct l1|done]. }
    rewrite lookup_union_Some_raw, IH'. split.
    + intros [H|[Hn [(l1 & r1 & l2 & -> & Hb & Hl)|[Hl Ha]]]].
      * left. exists rs, r, []. split; [done|]. split; [done|constructor].
      * left. exists l1, r1, (l2 ++ [r]). split; [by rewrite <- app_assoc|].
        split; [done|]. apply Forall_app. split; [done|]. constructor; [exact Hn|constructor].
      * right. split; [|done]. apply Forall_app. split; [done|]. constructor; [exact Hn|constructor].
    + intros [(l1 & r1 & l2 & E & Hb & Hl)|[Hl Ha]].
      * destruct l2 as [|c2 l2 _] using rev_ind.
        -- apply app_inj_tail in E as [-> ->]. by left.
        -- rewrite app_comm_cons, app_assoc in E. apply app_inj_tail in E as [-> <-].
           apply Forall_app in Hl as [Hl Hl2]. apply Forall_cons in Hl2 as [Hl2 _]. right. split; [exact Hl2|].
           left. exists l1, r1, l2. done.
      * apply Forall_app in Hl as [Hl Hl2]. apply Forall_cons in Hl2 as [Hl2 _]. right. split; [exact Hl2|]. by right.
Qed.

Lemma laid_None a rs : laid a rs = None <-> a = None /\ rs = [].
Proof.
  split; [|by intros [-> ->]]. destruct rs as [|r rs _] using rev_ind; [done|]. unfold laid. by rewrite foldl_app.
Qed.

Lemma laid_app a rs1 rs2 : laid a (rs1 ++ rs2) = laid (laid a rs1) rs2.
Proof. apply foldl_app. Qed.

Lemma laid_split a rs : rs <> [] -> laid a rs = Some (default ∅ (laid None rs) ∪ default ∅ a).
Proof.
  induction rs as [|r rs IH] using rev_ind; [done|]. intros _. rewrite !laid_app. cbn [laid foldl]. f_equal.
  destruct (decide (rs = [])) as [->|Hne].
  - cbn. by rewrite map_union_empty.
  - rewrite (IH Hne). simpl. by rewrite map_union_assoc.
Qed.

Lemma laid_again a rs1 rs2 : laid (laid a (rs1 ++ rs2)) rs2 = laid a (rs1 ++ rs2).
Proof.
  destruct (decide (rs2 = [])) as [->|Hne]; [done|].
  rewrite laid_app. rewrite (laid_split (laid (laid a rs1) rs2) rs2 Hne), (laid_split (laid a rs1) rs2 Hne).
  simpl. f_equal. by rewrite map_union_assoc, map_union_idemp.
Qed.

Lemma concerning_app m i id rs1 rs2 : concerning m i id (rs1 ++ rs2) = concerning m i id rs1 ++ concerning m i id rs2.
Proof. apply filter_app. Qed.

(** ** One record *)

Lemma store_at_insert (w : stores) i s : store_at (<[i := s]> w) i = s.
Proof. unfold store_at. by rewrite lookup_insert. Qed.

Lemma store_at_insert_ne (w : stores) i j s : i <> j -> store_at (<[i := s]> w) j = store_at w j.
Proof. intros H. unfold store_at. by rewrite lookup_insert_ne. Qed.

Lemma copy_at_insert w i s i' id : copy_at (<[i := s]> w) i' id =
  if decide (i' = i) then
    match contents s !! id with
    | Some (x, _) => Some (match e_rec x with Some r => attrs_of r | None => ∅ end)
    | None => None
    end
  else copy_at w i' id.
Proof.
  unfold copy_at, store_at. destruct (decide (i' = i)) as [->|Hne].
  - by rewrite lookup_insert.
  - by rewrite lookup_insert_ne.
Qed.

Lemma encodes_attrs r a : Encode vanflow_registry (vrec_any r) = EncOk a -> attrs_of r = a.
Proof. Local Transparent attrs_of. intros H. unfold attrs_of. by rewrite H. Qed.
Local Opaque attrs_of.

Lemma publishable_intro r a : good_record r -> Encode vanflow_registry (vrec_any r) = EncOk a ->
  publishable r /\ attrs_of r = a.
Proof. intros G E. rewrite (encodes_attrs r a E). split; [|done]. split; [done|]. by rewrite (encodes_attrs r a E). Qed.

Lemma accumulate_copy ty cf e s src r i w : env_ok e -> usual_key cf -> sound ty w -> store_at w i = s ->
  publishable r -> vr_type r = ty i (vrec_identity r) ->
  exists s' evs, run_op cf e s (OAccumulate src (Some r)) = (s', OutErr None, evs) /\
    sound ty (<[i := s']> w) /\
    forall i' id, copy_at (<[i := s']> w) i' id =
      if decide (i' = i /\ id = vrec_identity r) then Some (attrs_of r ∪ default ∅ (copy_at w i id)) else copy_at w i' id.
Proof.
  intros He Hk Hs <- [G E] Ht.
  assert (cf_key cf (bare r) = Ok (vrec_identity r)) as Hkey by (by rewrite Hk).
  (* what has to be shown of the new contents *)
  assert (forall s' x v, contents s' = <[vrec_identity r := (x, v)]> (contents (store_at w i)) ->
    (exists r', e_rec x = Some r' /\ publishable r' /\ vr_type r' = vr_type r /\
       attrs_of r' = attrs_of r ∪ default ∅ (copy_at w i (vrec_identity r))) ->
    sound ty (<[i := s']> w) /\
    forall i' id, copy_at (<[i := s']> w) i' id =
      if decide (i' = i /\ id = vrec_identity r) then Some (attrs_of r ∪ default ∅ (copy_at w i id)) else copy_at w i' id) as Hput.
  { intros s' x v Hc (r' & Hx & Hp & Ht' & Ha). split.
    - intros i' id x' v' H. destruct (decide (i' = i)) as [->|Hne].
      + rewrite store_at_insert, Hc in H.
        apply lookup_insert_Some in H as [[<- [= <- <-]]|[Hne H]].
        * exists r'. split; [exact Hx|]. split; [exact Hp|]. by rewrite Ht', Ht.
        * by apply (Hs i id x' v').
      + rewrite store_at_insert_ne in H by done. by apply (Hs i' id x' v').
    - intros i' id. rewrite copy_at_insert. destruct (decide (i' = i)) as [->|Hne].
      + rewrite Hc. destruct (decide (id = vrec_identity r)) as [->|Hne].
        * rewrite lookup_insert, Hx, Ha. by rewrite decide_True.
        * rewrite lookup_insert_ne by done. rewrite decide_False by tauto. reflexivity.
      + rewrite decide_False by tauto. reflexivity. }
  destruct (contents (store_at w i) !! vrec_identity r) as [[x0 v0]|] eqn:Ec.
  - destruct (Hs _ _ _ _ Ec) as (r0 & Hr0 & [G0 E0] & Ht0).
    assert (copy_at w i (vrec_identity r) = Some (attrs_of r0)) as Hcopy by (unfold copy_at; by rewrite Ec, Hr0).
    destruct (accumulate_more cf e (store_at w i) src r (attrs_of r) (vrec_identity r) x0 v0 r0 (attrs_of r0)
      He Hkey Ec Hr0 G0 E0 G E) as [H1 H2].
    destruct (decide (attrs_of r ⊆ attrs_of r0)) as [Hsub|Hsub].
    + exists (store_at w i), []. split; [by apply H1|]. apply (Hput (store_at w i) x0 v0).
      * by rewrite insert_id.
      * exists r0. split; [exact Hr0|]. split; [by split|]. split; [congruence|]. rewrite Hcopy. simpl.
        symmetry. by apply map_subseteq_union.
    + destruct (H2 Hsub) as (s' & r' & a' & Hrun & Hc & G' & _ & Ht' & _ & E' & _ & _ & Hsame).
      destruct (publishable_intro r' a' G' E') as [Hp' Ha'].
      eexists s', _. split; [exact Hrun|]. eapply Hput; [exact Hc|].
      exists r'. split; [reflexivity|]. split; [exact Hp'|]. split; [exact Ht'|].
      rewrite Ha', Hcopy. apply Hsame. congruence.
  - destruct (accumulate_first cf e (store_at w i) src r _ Hkey Ec) as (s' & Hrun & Hc).
    eexists s', _. split; [exact Hrun|]. eapply Hput; [exact Hc|].
    exists r. split; [reflexivity|]. split; [by split|]. split; [done|].
    unfold copy_at. rewrite Ec. simpl. by rewrite map_union_empty.
Qed.

(** ** Messages *)

Lemma dispatch_copy ty cfs m src es rs w : (forall i, usual_key (cfs i)) ->
  Forall env_ok es -> length es = length rs -> sound ty w -> Forall publishable rs -> Forall (typed_as ty m) rs ->
  exists w' evs, dispatch cfs m src (zip es (Some <$> rs)) w = (w', evs, false) /\ sound ty w' /\
    forall i id, copy_at w' i id = laid (copy_at w i id) (concerning m i id rs).
Proof.
  intros Hk. revert es w. induction rs as [|r rs IH]; intros es w He Hl Hs Hp Ht.
  - destruct es; [|done]. exists w, []. done.
  - destruct es as [|e es]; [done|]. apply Forall_cons in He as [He0 He]. apply Forall_cons in Hp as [Hp0 Hp].
    apply Forall_cons in Ht as [Ht0 Ht]. injection Hl as Hl. cbn [fmap list_fmap zip zip_with dispatch].
    destruct (m !! type_key r) as [i|] eqn:Em.
    + destruct (accumulate_copy ty (cfs i) e (store_at w i) src r i w He0 (Hk i) Hs eq_refl Hp0 (Ht0 i Em))
        as (s' & evs & Hrun & Hs' & Hcopy).
      rewrite Hrun. destruct (IH es (<[i := s']> w) He Hl Hs' Hp Ht) as (w' & evs' & Hd & Hs'' & Hc).
      change (list_fmap vrec (option vrec) Some rs) with (Some <$> rs). rewrite Hd.
      eexists w', _. split; [reflexivity|]. split; [exact Hs''|]. intros i' id. rewrite Hc, Hcopy.
      unfold concerning. rewrite filter_cons. destruct (decide (i' = i /\ id = vrec_identity r)) as [[-> ->]|Hne].
      * rewrite decide_True by done. reflexivity.
      * rewrite decide_False; [reflexivity|]. intros [H1 H2]. apply Hne. split; congruence.
    + destruct (IH es w He Hl Hs Hp Ht) as (w' & evs' & Hd & Hs'' & Hc).
      change (list_fmap vrec (option vrec) Some rs) with (Some <$> rs). rewrite Hd.
      eexists w', _. split; [reflexivity|]. split; [exact Hs''|]. intros i' id. rewrite Hc.
      unfold concerning. rewrite filter_cons. rewrite decide_False; [reflexivity|]. intros [H1 H2]. congruence.
Qed.

(** The wire keeps type, identity and attributes. *)
Lemma wire_record r r' : publishable r -> normal_record r r' ->
  elem_decodes (EMap (Some (attrs_of r))) r' ->
  publishable r' /\ vr_type r' = vr_type r /\ vrec_identity r' = vrec_identity r /\ attrs_of r' = attrs_of r.
Proof.
  intros [G E] _ (a & [= <-] & Hp & Hin & Hd).
  destruct (sub_record r (attrs_of r) (attrs_of r) G E) as (r2 & Hd2 & G2 & Hp2 & Ht2 & Hi2 & E2).
  - done.
  - by apply (good_type_attr r).
  - destruct (good_identity r _ G E) as [H _]. eauto.
  - unfold vrec_any in Hd2. rewrite Hp2 in Hd2.
    assert (r' = r2) as ->.
    { rewrite Hd in Hd2. destruct r' as [p t v], r2 as [p2 t2 v2]. cbn in *. subst.
      unfold record_any in Hd2. congruence. }
    destruct (publishable_intro r2 _ G2 E2) as [H1 H2]. done.
Qed.

Definition same_content (r r' : vrec) : Prop :=
  publishable r' /\ vr_type r' = vr_type r /\ vrec_identity r' = vrec_identity r /\ attrs_of r' = attrs_of r.

Lemma normal_record_fun r r1 r2 : normal_record r r1 -> normal_record r r2 -> r1 = r2.
Proof.
  intros (n & fs & vs & ws & Ht & Hv & Hn & ->) (n' & fs' & vs' & ws' & Ht' & Hv' & Hn' & ->).
  rewrite Ht in Ht'. injection Ht' as <- <-. rewrite Hv in Hv'. injection Hv' as <-. by rewrite (normal_fun _ _ _ _ Hn Hn').
Qed.

Lemma wire_normal r r' : publishable r -> normal_record r r' -> same_content r r'.
Proof.
  intros Hp Hn. destruct (elem_round_trip r (attrs_of r)) as (r2 & Hn2 & Hd); [apply Hp|apply Hp|].
  rewrite (normal_record_fun r r' r2 Hn Hn2). by apply wire_record.
Qed.

Lemma same_type_key r r' : vr_type r' = vr_type r -> type_key r' = type_key r.
Proof. intros H. unfold type_key, vrec_meta. by rewrite H. Qed.

Lemma same_concerning m i id rs rs' : Forall2 same_content rs rs' ->
  forall a, laid a (concerning m i id rs') = laid a (concerning m i id rs).
Proof.
  induction 1 as [|r r' rs rs' (_ & Ht & Hi & Ha) HF IH]; intros a; [done|].
  unfold concerning in *. rewrite !filter_cons, (same_type_key r r' Ht), Hi.
  case_decide; [|apply IH]. unfold laid in *. cbn [foldl]. rewrite Ha. apply IH.
Qed.

Lemma same_typed ty m rs rs' : Forall2 same_content rs rs' -> Forall (typed_as ty m) rs -> Forall (typed_as ty m) rs'.
Proof.
  induction 1 as [|r r' rs rs' (_ & Ht & Hi & Ha) HF IH]; intros H; [constructor|].
  apply Forall_cons in H as [H0 H]. constructor; [|by apply IH].
  intros i. rewrite (same_type_key r r' Ht), Ht, Hi. apply H0.
Qed.

Lemma collect_one_copy ty cfs m src x batch w : (forall i, usual_key (cfs i)) -> delivers x batch ->
  sound ty w -> Forall publishable batch -> Forall (typed_as ty m) batch ->
  exists w', collect_one cfs m src x.1 x.2 w = (w', false) /\ sound ty w' /\
    forall i id, copy_at w' i id = laid (copy_at w i id) (concerning m i id batch).
Proof.
  intros Hk (He & Hl & p & Henc) Hs Hp Ht. destruct x as [es am]. cbn [fst snd] in *.
  destruct (record_msg_round_trip (RecordMsg p (Some <$> batch)) am batch eq_refl) as (rs' & HF & Hd).
  { eapply Forall_impl; [exact Hp|]. intros r [G _]. exact G. }
  { exact Henc. }
  assert (Forall2 same_content batch rs') as HS.
  { clear -HF Hp. induction HF as [|r r' rs rs' Hn HF IH]; [constructor|]. apply Forall_cons in Hp as [Hp0 Hp].
    constructor; [by apply wire_normal|by apply IH]. }
  unfold collect_one. rewrite Hd. cbn [rm_records].
  destruct (dispatch_copy ty cfs m src es rs' w Hk He) as (w' & evs & Hdis & Hs' & Hc).
  - rewrite Hl. by eapply Forall2_length.
  - exact Hs.
  - clear -HS. induction HS as [|r r' rs rs' [H _] HF IH]; constructor; [exact H|exact IH].
  - by eapply same_typed.
  - rewrite Hdis. exists w'. split; [done|]. split; [exact Hs'|]. intros i id. rewrite Hc. by apply same_concerning.
Qed.

Lemma collect_copy ty cfs m src l batches w : (forall i, usual_key (cfs i)) -> Forall2 delivers l batches ->
  sound ty w -> Forall publishable (concat batches) -> Forall (typed_as ty m) (concat batches) ->
  exists w', collect cfs m src l w = (w', false) /\ sound ty w' /\
    forall i id, copy_at w' i id = laid (copy_at w i id) (concerning m i id (concat batches)).
Proof.
  intros Hk HF. revert w. induction HF as [|[es am] batch l batches Hd HF IH]; intros w Hs Hp Ht.
  - exists w. done.
  - cbn [concat] in *. apply Forall_app in Hp as [Hp0 Hp]. apply Forall_app in Ht as [Ht0 Ht].
    destruct (collect_one_copy ty cfs m src (es, am) batch w Hk Hd Hs Hp0 Ht0) as (w1 & H1 & Hs1 & Hc1).
    destruct (IH w1 Hs1 Hp Ht) as (w2 & H2 & Hs2 & Hc2).
    exists w2. cbn [collect]. cbn [fst snd] in H1. rewrite H1. split; [exact H2|]. split; [exact Hs2|].
    intros i id. rewrite Hc2, Hc1, concerning_app, laid_app. reflexivity.
Qed.

(** ** Updates *)

Lemma currents_cons e p c U : currents ((e, RecUpdate p (Some c)) :: U) = c :: currents U.
Proof. reflexivity. Qed.

Lemma deltas_cons e p c U : deltas ((e, RecUpdate p (Some c)) :: U) =
  match diff_record e (RecUpdate p (Some c)) with DRec (Some r) => r :: deltas U | _ => deltas U end.
Proof. unfold deltas. cbn [omap list_omap]. destruct (diff_record _ _) as [|[r|]|]; reflexivity. Qed.

(** What one update hands over. *)
Lemma update_delta e p c : env_ok e -> publishable c -> (forall p', p = Some p' -> publishable p' /\ rkey p' = rkey c) ->
  (exists r, diff_record e (RecUpdate p (Some c)) = DRec (Some r) /\ publishable r /\ vr_type r = vr_type c /\
     vrec_identity r = vrec_identity c /\
     forall a, (forall p', p = Some p' -> attrs_of p' ⊆ a) -> attrs_of r ∪ a = attrs_of c ∪ a) \/
  (diff_record e (RecUpdate p (Some c)) = DNone /\ exists p', p = Some p' /\ attrs_of c ⊆ attrs_of p').
Proof.
  intros He Hc Hp. destruct p as [p|].
  - destruct (Hp p eq_refl) as [Pp Hkp].
    destruct (diff_spec e p c (attrs_of p) (attrs_of c) He) as [H1 H2];
      [apply Pp|apply Pp|apply Hc|apply Hc|].
    destruct (decide (attrs_of c ⊆ attrs_of p)) as [Hs|Hs].
    + right. split; [by apply H1|eauto].
    + left. destruct (H2 Hs) as (r & d & Hd & Gr & Ht & Hi & Er & _ & Hu).
      destruct (publishable_intro r d Gr Er) as [Pr Ar].
      exists r. split; [exact Hd|]. split; [exact Pr|]. split; [exact Ht|]. split; [exact Hi|].
      intros a Ha. specialize (Ha p eq_refl). rewrite Ar.
      rewrite <- (map_subseteq_union _ _ Ha), !map_union_assoc. by rewrite Hu.
  - left. exists c. done.
Qed.

Definition known_ok (ty : nat -> string -> gotype) (m : gmap string nat) (P : gmap (string * string) vrec) : Prop :=
  forall k p, P !! k = Some p -> publishable p /\ typed_as ty m p /\ rkey p = k.

Lemma known_ok_insert ty m P c : known_ok ty m P -> publishable c -> typed_as ty m c -> known_ok ty m (<[rkey c := c]> P).
Proof. intros HP Hc Ht k p H. apply lookup_insert_Some in H as [[<- <-]|[_ H]]; [done|by apply HP]. Qed.

(** Sending deltas amounts to sending the records. *)
Lemma deltas_laid ty m i id P U : chained P U -> Forall (typed_as ty m) (currents U) -> known_ok ty m P -> forall acc,
  (forall t p, P !! (t, id) = Some p -> m !! t = Some i -> exists a, acc = Some a /\ attrs_of p ⊆ a) ->
  laid acc (concerning m i id (deltas U)) = laid acc (concerning m i id (currents U)).
Proof.
  induction 1 as [P|P e p c U He Hc Hp HU IH]; intros Htys HP acc Hacc; [done|].
  rewrite currents_cons in *. apply Forall_cons in Htys as [Htc Htys].
  pose proof (known_ok_insert ty m P c HP Hc Htc) as HP'.
  assert (forall p', p = Some p' -> P !! rkey c = Some p') as HpP.
  { intros p' ->. destruct Hp as [Hp|Hp]; [done|]. by symmetry. }
  rewrite deltas_cons.
  destruct (decide (m !! type_key c = Some i /\ vrec_identity c = id)) as [[Hm Hi]|Hne].
  - (* the update concerns this copy *)
    assert (forall p', p = Some p' -> exists a, acc = Some a /\ attrs_of p' ⊆ a) as Hpa.
    { intros p' Hp'. apply (Hacc (type_key c)); [|exact Hm]. apply HpP in Hp'. unfold rkey in Hp'. by rewrite Hi in Hp'. }
    set (acc' := Some (attrs_of c ∪ default ∅ acc)).
    assert (laid acc' (concerning m i id (deltas U)) = laid acc' (concerning m i id (currents U))) as IH'.
    { apply IH; [exact Htys|exact HP'|]. intros t p' H Hmt. exists (attrs_of c ∪ default ∅ acc). split; [done|].
      apply lookup_insert_Some in H as [[Hk <-]|[Hk H]].
      - by apply map_union_subseteq_l.
      - exfalso. destruct (HP _ _ H) as (Pp & Tp & Kp). injection Kp as K1 K2. apply Hk. unfold rkey. f_equal; [|done].
        rewrite <- K1. apply same_type_key. rewrite (Htc i Hm). rewrite <- K1 in Hmt. rewrite (Tp i Hmt). by rewrite K2, Hi. }
    assert (concerning m i id (c :: currents U) = c :: concerning m i id (currents U)) as ->.
    { unfold concerning. rewrite filter_cons. by rewrite decide_True. }
    change (laid acc (c :: concerning m i id (currents U))) with (laid acc' (concerning m i id (currents U))).
    rewrite <- IH'.
    destruct (update_delta e p c He Hc) as [(r & -> & Pr & Htr & Hir & Hu)|(-> & p' & Hp' & Hs)].
    { intros p' Hp'. destruct (HP _ _ (HpP p' Hp')) as (? & _ & ?). done. }
    + assert (concerning m i id (r :: deltas U) = r :: concerning m i id (deltas U)) as ->.
      { unfold concerning. rewrite filter_cons. rewrite decide_True; [done|]. rewrite (same_type_key c r Htr). split; congruence. }
      unfold laid. cbn [foldl]. rewrite Hu; [reflexivity|].
      intros p' Hp'. destruct (Hpa p' Hp') as (a & -> & Hs). exact Hs.
    + destruct (Hpa p' Hp') as (a & Ha & Hs'). subst acc'. rewrite Ha. simpl.
      rewrite (map_subseteq_union (attrs_of c) a); [reflexivity|]. by etrans.
  - assert (concerning m i id (c :: currents U) = concerning m i id (currents U)) as ->.
    { unfold concerning. rewrite filter_cons. by rewrite decide_False. }
    rewrite <- (IH Htys HP' acc).
    + destruct (update_delta e p c He Hc) as [(r & -> & Pr & Htr & Hir & Hu)|(-> & p' & Hp' & Hs)]; [..|done].
      { intros p' Hp'. destruct (HP _ _ (HpP p' Hp')) as (? & _ & ?). done. }
      unfold concerning. rewrite filter_cons, (same_type_key c r Htr), Hir. by rewrite decide_False.
    + intros t p' H Hmt. apply lookup_insert_Some in H as [[Hk <-]|[Hk H]]; [|by apply (Hacc t p')].
      exfalso. apply Hne. injection Hk as K1 K2. split; congruence.
Qed.

Lemma deltas_ok ty m P U : chained P U -> Forall (typed_as ty m) (currents U) -> known_ok ty m P ->
  Forall publishable (deltas U) /\ Forall (typed_as ty m) (deltas U).
Proof.
  induction 1 as [P|P e p c U He Hc Hp HU IH]; intros Htys HP; [split; constructor|].
  rewrite currents_cons in *. apply Forall_cons in Htys as [Htc Htys].
  destruct (IH Htys (known_ok_insert ty m P c HP Hc Htc)) as [H1 H2]. rewrite deltas_cons.
  destruct (update_delta e p c He Hc) as [(r & -> & Pr & Htr & Hir & Hu)|(-> & p' & Hp' & Hs)]; [..|done].
  { intros p' ->. destruct Hp as [Hp|Hp]; [done|]. destruct (HP _ _ (eq_sym Hp)) as (? & _ & ?). done. }
  split; constructor; [exact Pr|exact H1| |exact H2].
  intros i. rewrite (same_type_key c r Htr), Htr, Hir. apply Htc.
Qed.

(** ** Convergence *)

Lemma redelivered_Forall (Q : vrec -> Prop) l l' : redelivered l l' -> Forall Q (concat l) -> Forall Q (concat l').
Proof.
  induction 1 as [|l' l1 l2 H IH E]; intros HQ; [done|]. rewrite concat_app. apply Forall_app. split; [by apply IH|].
  rewrite E, concat_app in HQ. by apply Forall_app in HQ as [_ HQ].
Qed.

Lemma redelivered_laid m i id l l' acc : redelivered l l' ->
  laid acc (concerning m i id (concat l')) = laid acc (concerning m i id (concat l)).
Proof.
  induction 1 as [|l' l1 l2 H IH E]; [done|]. rewrite concat_app, concerning_app, laid_app, IH.
  rewrite E, concat_app, concerning_app. apply laid_again.
Qed.

Lemma converges ty cfs m src U batches l' l w : (forall i, usual_key (cfs i)) ->
  chained ∅ U -> Forall (typed_as ty m) (currents U) -> sound ty w ->
  concat batches = deltas U -> redelivered batches l' -> Forall2 delivers l l' ->
  exists w', collect cfs m src l w = (w', false) /\ sound ty w' /\
    forall i id, copy_at w' i id = laid (copy_at w i id) (concerning m i id (currents U)).
Proof.
  intros Hk HU Hty Hs Hb Hr Hd.
  assert (known_ok ty m ∅) as HP by (intros k p H; by rewrite lookup_empty in H).
  destruct (deltas_ok ty m ∅ U HU Hty HP) as [Hp Ht]. rewrite <- Hb in Hp, Ht.
  destruct (collect_copy ty cfs m src l l' w Hk Hd Hs) as (w' & Hc & Hs' & Hcopy);
    [by eapply redelivered_Forall|by eapply redelivered_Forall|].
  exists w'. split; [exact Hc|]. split; [exact Hs'|]. intros i id. rewrite Hcopy.
  rewrite (redelivered_laid _ _ _ _ _ _ Hr), Hb. eapply deltas_laid; [exact HU|exact Hty|exact HP|].
  intros t p H. by rewrite lookup_empty in H.
Qed.

(** Batches of published records can always be sent. *)
Lemma can_deliver batch es p : Forall publishable batch -> Forall env_ok es -> length es = length batch ->
  exists am, delivers (es, am) batch /\ encode_record_msg (RecordMsg p (Some <$> batch)) = Ok am.
Proof.
  intros Hp He Hl. destruct (proj2 (record_msg_encode_iff (RecordMsg p (Some <$> batch)) batch eq_refl
    (Forall_impl _ _ _ Hp (fun r H => proj1 H)))) as [am Ham].
  { eapply Forall_impl; [exact Hp|]. intros r [_ H]. eauto. }
  exists am. split; [|exact Ham]. split; [exact He|]. split; [exact Hl|]. eauto.
Qed.

(** Nothing cleared: each record keeps the attributes its predecessor has. *)
Definition never_clears (rs : list vrec) : Prop :=
  forall l1 r r' l2 c, rs = l1 ++ r :: r' :: l2 -> is_Some (attrs_of r !! c) -> is_Some (attrs_of r' !! c).

Lemma never_clears_laid rs r : never_clears (rs ++ [r]) -> laid None (rs ++ [r]) = Some (attrs_of r).
Proof.
  revert r. induction rs as [|r0 rs IH] using rev_ind; intros r H.
  - cbn. by rewrite map_union_empty.
  - rewrite laid_app, IH.
    + simpl. f_equal. apply map_eq. intros c. apply option_eq. intros y. rewrite lookup_union_Some_raw. split; [|by left].
      intros [Hy|[Hn Hy]]; [done|]. exfalso. destruct (H rs r0 r [] c) as [z Hz]; [by rewrite <- app_assoc|eauto|congruence].
    + intros l1 a b l2 c E. apply (H l1 a b (l2 ++ [r]) c). rewrite E, <- app_assoc. reflexivity.
Qed.

Lemma converges_lookup ty cfs m src U batches l' l w : (forall i, usual_key (cfs i)) ->
  chained ∅ U -> Forall (typed_as ty m) (currents U) -> sound ty w ->
  concat batches = deltas U -> redelivered batches l' -> Forall2 delivers l l' ->
  exists w', collect cfs m src l w = (w', false) /\ sound ty w' /\ forall i id,
    (copy_at w' i id = None <-> copy_at w i id = None /\ concerning m i id (currents U) = []) /\
    forall a c y, copy_at w' i id = Some a ->
      (a !! c = Some y <->
       (exists rs1 r rs2, concerning m i id (currents U) = rs1 ++ r :: rs2 /\ attrs_of r !! c = Some y /\
          Forall (fun r' => attrs_of r' !! c = None) rs2) \/
       (Forall (fun r' => attrs_of r' !! c = None) (concerning m i id (currents U)) /\
          exists a0, copy_at w i id = Some a0 /\ a0 !! c = Some y)).
Proof.
  intros H1 H2 H3 H4 H5 H6 H7. destruct (converges ty cfs m src U batches l' l w H1 H2 H3 H4 H5 H6 H7) as (w' & Hc & Hs & Hl).
  exists w'. split; [exact Hc|]. split; [exact Hs|]. intros i id. rewrite Hl. split; [apply laid_None|].
  intros a c y Ha. by apply laid_lookup.
Qed.

Lemma converges_exact ty cfs m src U batches l' l w i id rs r : (forall i, usual_key (cfs i)) ->
  chained ∅ U -> Forall (typed_as ty m) (currents U) -> sound ty w ->
  concat batches = deltas U -> redelivered batches l' -> Forall2 delivers l l' ->
  copy_at w i id = None -> concerning m i id (currents U) = rs ++ [r] -> never_clears (rs ++ [r]) ->
  exists w', collect cfs m src l w = (w', false) /\ copy_at w' i id = Some (attrs_of r).
Proof.
  intros H1 H2 H3 H4 H5 H6 H7 Hn Hr Hc. destruct (converges ty cfs m src U batches l' l w H1 H2 H3 H4 H5 H6 H7) as (w' & Hw & _ & Hl).
  exists w'. split; [exact Hw|]. rewrite Hl, Hn, Hr. by apply never_clears_laid.
Qed.

(** ** Witnesses *)

Definition ex_updates : list (env * rec_update) :=
  [(at_time 1, RecUpdate None (Some (ex_site "s1"))); (at_time 2, RecUpdate (Some (ex_site "s1")) (Some ex_site2))].
Definition ex_routes1 : gmap string nat := {[ type_key (ex_site "s1") := 0 ]}.

Lemma ex_publishable : publishable (ex_site "s1") /\ publishable ex_site2.
Proof.
  destruct ex_encodes as (E1 & E2 & _). split; split; [apply ex_site_good|exact E1|apply ex_site2_good|exact E2].
Qed.

Lemma ex_type_key : type_key ex_site2 = type_key (ex_site "s1").
Proof. apply same_type_key. reflexivity. Qed.

Lemma ex_chained : chained ∅ ex_updates.
Proof.
  destruct ex_publishable as [P1 P2].
  constructor; [apply at_time_ok|exact P1|by left|].
  constructor; [apply at_time_ok|exact P2| |constructor].
  right. assert (rkey ex_site2 = rkey (ex_site "s1")) as -> by (unfold rkey; by rewrite ex_type_key).
  symmetry. apply lookup_insert.
Qed.

Lemma ex_typed_as : Forall (typed_as (fun _ _ => SiteRecord) ex_routes1) (currents ex_updates).
Proof.
  change (currents ex_updates) with [ex_site "s1"; ex_site2].
  constructor; [intros ? ?; reflexivity|]. constructor; [intros ? ?; reflexivity|constructor].
Qed.

Lemma ex_sound ty : sound ty ∅.
Proof. intros i id x v H. discriminate H. Qed.

Lemma ex_concerning : concerning ex_routes1 0 "s1" (currents ex_updates) = [ex_site "s1"; ex_site2].
Proof.
  change (currents ex_updates) with [ex_site "s1"; ex_site2]. unfold concerning, ex_routes1.
  rewrite filter_cons_True by (split; [apply lookup_singleton|reflexivity]).
  rewrite filter_cons_True by (rewrite ex_type_key; split; [apply lookup_singleton|reflexivity]). reflexivity.
Qed.

(** The two records in one message, which then arrives a second time. *)
Lemma ex_converges : exists d1 d2 x w',
  deltas ex_updates = [d1; d2] /\ delivers x [d1; d2] /\
  collect (fun _ => ex_cf) ex_routes1 ex_src [x; x] ∅ = (w', false) /\
  exists a, copy_at w' 0 "s1" = Some a /\ a !! KU32 30 = Some (AStr "west") /\ a !! KU32 10 = Some (AStr "aws").
Proof.
  destruct ex_publishable as [P1 P2]. destruct ex_attrs as (A1 & A2 & A3 & A4 & _).
  assert (exists d1 d2, deltas ex_updates = [d1; d2] /\ publishable d1 /\ publishable d2) as (d1 & d2 & Hd & D1 & D2).
  { destruct (update_delta (at_time 2) (Some (ex_site "s1")) ex_site2 (at_time_ok 2) P2) as
      [(r & Hr & Pr & _)|(_ & p & [= <-] & Hs)].
    - intros p [= <-]. split; [exact P1|]. unfold rkey. by rewrite ex_type_key.
    - exists (ex_site "s1"), r. split; [|split; [exact P1|exact Pr]]. unfold ex_updates. rewrite deltas_cons. cbn [diff_record ru_prev ru_curr].
      rewrite deltas_cons, Hr. reflexivity.
    - exfalso. apply (lookup_weaken _ _ _ _ A4) in Hs. rewrite A3 in Hs. discriminate Hs. }
  destruct (can_deliver [d1; d2] [at_time 3; at_time 4] (MsgProps "" "" "")) as (am & Hdel & _).
  { apply Forall_cons; split; [exact D1|]. apply Forall_singleton. exact D2. }
  { apply Forall_cons; split; [apply at_time_ok|]. apply Forall_singleton, at_time_ok. }
  { reflexivity. }
  destruct (converges_lookup (fun _ _ => SiteRecord) (fun _ => ex_cf) ex_routes1 ex_src ex_updates [[d1; d2]] ([[d1; d2]] ++ [[d1; d2]])
    [([at_time 3; at_time 4], am); ([at_time 3; at_time 4], am)] ∅) as (w' & Hc & _ & Hl).
  - intros i. apply ex_cf_usual.
  - apply ex_chained.
  - apply ex_typed_as.
  - apply ex_sound.
  - rewrite Hd. reflexivity.
  - eapply (redelivered_again _ _ []); [constructor|reflexivity].
  - apply Forall2_cons; split; [exact Hdel|]. apply Forall2_cons; split; [exact Hdel|constructor].
  - exists d1, d2, ([at_time 3; at_time 4], am), w'. split; [exact Hd|]. split; [exact Hdel|]. split; [exact Hc|].
    destruct (Hl 0 "s1"%string) as [H1 H2]. rewrite ex_concerning in H1, H2.
    destruct (copy_at w' 0 "s1") as [a|] eqn:E.
    + exists a. split; [done|]. split.
      * apply (H2 a _ _ eq_refl). left. exists [ex_site "s1"], ex_site2, []. split; [done|]. split; [exact A4|constructor].
      * apply (H2 a _ _ eq_refl). left. exists [], (ex_site "s1"), [ex_site2]. split; [done|]. split; [exact A1|].
        constructor; [exact A2|constructor].
    + destruct (proj1 H1 eq_refl) as [_ H]. discriminate H.
Qed.

Lemma deltas_deliverable ty m U : chained ∅ U -> Forall (typed_as ty m) (currents U) ->
  forall batch es p, (forall r, r ∈ batch -> r ∈ deltas U) -> Forall env_ok es -> length es = length batch ->
  exists am, delivers (es, am) batch /\ encode_record_msg (RecordMsg p (Some <$> batch)) = Ok am.
Proof.
  intros HU Ht batch es p Hb He Hl.
  destruct (deltas_ok ty m ∅ U HU Ht) as [Hp _]. { intros k q H. by rewrite lookup_empty in H. }
  apply can_deliver; [|exact He|exact Hl]. apply Forall_forall. intros r Hr. rewrite Forall_forall in Hp. by apply Hp, Hb.
Qed.

Lemma ex_delta : env_ok (at_time 1) /\
  good_record (ex_site "s1") /\ Encode vanflow_registry (vrec_any (ex_site "s1")) = EncOk (attrs_of (ex_site "s1")) /\
  good_record ex_site2 /\ Encode vanflow_registry (vrec_any ex_site2) = EncOk (attrs_of ex_site2) /\
  ~ attrs_of ex_site2 ⊆ attrs_of (ex_site "s1") /\ attrs_of (ex_site "s1") ⊆ attrs_of (ex_site "s1").
Proof.
  destruct ex_encodes as (E1 & E2 & _). destruct ex_attrs as (A1 & A2 & A3 & A4 & _).
  split; [apply at_time_ok|]. split; [apply ex_site_good|]. split; [exact E1|]. split; [apply ex_site2_good|].
  split; [exact E2|]. split; [|reflexivity].
  intros Hs. apply (lookup_weaken _ _ _ _ A4) in Hs. rewrite A3 in Hs. discriminate Hs.
Qed.
