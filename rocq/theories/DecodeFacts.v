(** Decoding, first as a recursion over the struct (proof device), then the
    registry invariant and the top-level codec lemmas. *)
From Coq Require Import ZArith NArith Ascii String Lia.
From stdpp Require Import base gmap strings list.
From Verif Require Import GoBase Encoding SpecEncoding EncodingFacts CodecFacts.

Local Open Scope list_scope.

Definition dec_leaf (attrs : attrset) (n : string) (c : N) (r : bool) (t : gotype) (v : goval)
    : res encerr goval :=
  match attrs !! KU32 c with
  | None => if r then Err (EMissingAttr n) else Ok v
  | Some a =>
      match get_field_decoder t with
      | Some d =>
          match run_dec d t a v with
          | Ok v' => Ok v'
          | Err _ => Err (EFieldDecode n)
          | Panic => Panic
          end
      | None => Panic
      end
  end.

Fixpoint dec_struct (attrs : attrset) (fs : gofields) (vs : list goval) : res encerr (list goval) :=
  match fs, vs with
  | FNil, _ => Ok vs
  | FCons n anon ex tag t rest, v :: vs' =>
      let here :=
        if anon then
          match t, v with
          | GStruct _ fs', VStruct ws =>
              match dec_struct attrs fs' ws with
              | Ok ws' => Ok (VStruct ws')
              | Err e => Err e
              | Panic => Panic
              end
          | GStruct _ _, _ => Panic
          | _, _ => Ok v
          end
        else if negb ex then Ok v
        else match parse_field_opts tag with
             | Ok None => Ok v
             | Ok (Some (c, r)) => dec_leaf attrs n c r t v
             | _ => Panic
             end in
      res_bind here (fun v' => res_bind (dec_struct attrs rest vs') (fun ws => Ok (v' :: ws)))
  | _, [] => Panic
  end.

Lemma decode_fields_struct attrs fs idx i l root pre vs k :
  fields_for fs idx i = Ok l ->
  get_path idx root = Some (VStruct (pre ++ vs)) -> length pre = i ->
  typed_fields fs vs ->
  decode_fields (l ++ k) attrs root =
  match dec_struct attrs fs vs with
  | Ok vs' =>
      match set_path idx (VStruct (pre ++ vs')) root with
      | Some root' => decode_fields k attrs root'
      | None => Panic
      end
  | Err e => Err e
  | Panic => Panic
  end.
Proof.
  revert idx i l root pre vs k; induction fs as [|n a ex tg t rest IHt IHr] using gofields_ind2;
    intros idx i l root pre vs k.
  - simpl. intros [= <-] Hp _ _. simpl. by rewrite (set_path_same _ _ _ Hp).
  - rewrite fields_for_cons. intros H Hp Hi Hty.
    apply res_bind_ok in H as (h & Hh & H). apply res_bind_ok in H as (r & Hr & [= <-]).
    destruct vs as [|v vs]; [done|]. destruct Hty as [Htv Htr].
    assert (get_path (idx ++ [i]) root = Some v) as Hpv.
    { rewrite get_path_app, Hp. simpl. rewrite lookup_app_r by lia.
      by replace (i - length pre) with 0 by lia. }
    (* assigning field i *)
    assert (forall v', set_path (idx ++ [i]) v' root = set_path idx (VStruct (pre ++ v' :: vs)) root) as Hset.
    { intros v'. rewrite (set_path_app _ _ _ _ _ Hp). simpl. rewrite lookup_app_r by lia.
      replace (i - length pre) with 0 by lia. simpl. rewrite insert_app_r_alt by lia.
      by replace (i - length pre) with 0 by lia. }
    (* the fields after this one *)
    assert (forall v' root' k', set_path idx (VStruct (pre ++ v' :: vs)) root = Some root' ->
      decode_fields (r ++ k') attrs root' =
      match dec_struct attrs rest vs with
      | Ok vs' =>
          match set_path idx (VStruct (pre ++ v' :: vs')) root with
          | Some root'' => decode_fields k' attrs root''
          | None => Panic
          end
      | Err e => Err e
      | Panic => Panic
      end) as Hrest.
    { intros v' root' k' Hs.
      rewrite (IHr idx (S i) r root' (pre ++ [v']) vs k' Hr).
      - destruct (dec_struct attrs rest vs) as [ws| |]; try done.
        rewrite <- app_assoc. simpl. by rewrite (set_path_set _ _ _ _ _ Hs).
      - rewrite <- app_assoc. simpl. by eapply set_path_get.
      - rewrite app_length; simpl; lia.
      - done. }
    rewrite <- app_assoc. cbn [dec_struct].
    destruct (here_fields_case n a ex tg t (idx ++ [i]))
      as [m fs -> -> E| -> Hns E| -> -> E| -> -> -> E|c b e d -> -> Hne Hd He Hde E| -> -> Hne Hx E];
      rewrite E in Hh; try (injection Hh as <-); cbn [negb].
    + destruct v as [| | | | | | |ws|]; try done.
      rewrite (IHt _ _ eq_refl (idx ++ [i]) 0 h root [] ws (r ++ k) Hh Hpv eq_refl Htv).
      destruct (dec_struct attrs fs ws) as [ws'| |]; simpl; try done.
      rewrite Hset. destruct (set_path_exists idx (VStruct (pre ++ VStruct ws' :: vs)) root _ Hp) as [root' Hroot'].
      rewrite Hroot', (Hrest _ _ _ Hroot').
      by destruct (dec_struct attrs rest vs).
    + simpl. assert (set_path idx (VStruct (pre ++ v :: vs)) root = Some root) as Hs by (by apply set_path_same).
      rewrite (Hrest _ _ _ Hs).
      destruct t; try (by destruct (dec_struct attrs rest vs)). exfalso; by eapply Hns.
    + simpl. assert (set_path idx (VStruct (pre ++ v :: vs)) root = Some root) as Hs by (by apply set_path_same).
      rewrite (Hrest _ _ _ Hs). by destruct (dec_struct attrs rest vs).
    + simpl. assert (set_path idx (VStruct (pre ++ v :: vs)) root = Some root) as Hs by (by apply set_path_same).
      rewrite (Hrest _ _ _ Hs). by destruct (dec_struct attrs rest vs).
    + assert (parse_field_opts tg = Ok (Some (c, b))) as -> by (by apply parse_opts_some).
      cbn [app decode_fields f_code f_req f_name f_index f_dec f_type]. unfold dec_leaf.
      assert (set_path idx (VStruct (pre ++ v :: vs)) root = Some root) as Hs by (by apply set_path_same).
      destruct (attrs !! KU32 c) as [x|].
      * rewrite Hpv, Hde. destruct (run_dec d t x v) as [v'| |]; try done. rewrite Hset.
        destruct (set_path_exists idx (VStruct (pre ++ v' :: vs)) root _ Hp) as [root' Hroot'].
        rewrite Hroot', (Hrest _ _ _ Hroot'). simpl. by destruct (dec_struct attrs rest vs).
      * destruct b; [done|]. rewrite (Hrest _ _ _ Hs). simpl. by destruct (dec_struct attrs rest vs).
    + done.
Qed.

Lemma decode_fields_zero attrs name fs l :
  fields_for fs [] 0 = Ok l ->
  decode_fields l attrs (zero_value (GStruct name fs)) =
  match dec_struct attrs fs (zero_fields fs) with
  | Ok vs => Ok (VStruct vs)
  | Err e => Err e
  | Panic => Panic
  end.
Proof.
  intros H. rewrite <- (app_nil_r l).
  rewrite (decode_fields_struct attrs fs [] 0 l _ [] (zero_fields fs) [] H); try done.
  - apply zero_typed_fields.
Qed.

(** ** Round trip of a struct *)

Lemma dec_struct_roundtrip attrs fs vs l :
  attributes fs l -> Forall (fun f => supported (tf_type f)) l ->
  typed_fields fs vs ->
  (forall f v, leaf_of fs vs f v ->
     (forall tm, pointee v = VTime tm -> fits_int64 tm /\ (tm = zero_time \/ ~ before_epoch tm)) /\
     (tf_req f = true -> ~ empty_value v) /\
     attrs !! KU32 (tf_code f) = if bool_decide (empty_value v) then None else Some (attr_of v)) ->
  exists ws, dec_struct attrs fs (zero_fields fs) = Ok ws /\ normal fs vs ws.
Proof.
  intros Ha; revert vs; induction Ha as [|n tg c b t rest l Hne Hd Hr IH|n t rest l Hr IH|n tg t rest l Hr IH
    |n e tg m fs rest l1 l2 Hf IHf Hr IHr|n e tg t rest l Hns Hr IH]; intros vs Hs Hty Hl;
    (destruct vs as [|v vs]; [try done|try done; destruct Hty as [Htv Hty]]).
  - exists []. split; [done|constructor].
  - apply Forall_cons in Hs as [Ht Hs]. simpl in Ht.
    destruct (IH vs Hs Hty) as (ws & E & Hn).
    { intros f w Hw. apply Hl. by constructor. }
    destruct (Hl (TField n c b t) v) as (Htm & Hreq & Hat); [by constructor|]. simpl in Hreq, Hat.
    exists (normal_value v :: ws). split; [|by econstructor].
    cbn [zero_fields dec_struct negb].
    assert (parse_field_opts tg = Ok (Some (c, b))) as -> by (by apply parse_opts_some).
    unfold dec_leaf. rewrite Hat. case_bool_decide as He.
    + destruct b; [by destruct Hreq|]. rewrite E. simpl.
      by rewrite (normal_value_empty t) by done.
    + destruct (proj1 (get_dec_supported t) Ht) as [d Hd']. rewrite Hd'.
      rewrite (run_dec_roundtrip _ _ _ Hd' Htv He); [by rewrite E|].
      intros tm Etm. destruct (Htm _ Etm) as [Hfit [->|Hb]]; [|done].
      exfalso. apply He. unfold empty_value. by rewrite Etm.
  - destruct (IH vs Hs Hty) as (ws & E & Hn); [intros f w Hw; apply Hl; by constructor|].
    exists (zero_value t :: ws). split; [|by constructor]. simpl. by rewrite E.
  - destruct (IH vs Hs Hty) as (ws & E & Hn); [intros f w Hw; apply Hl; by constructor|].
    exists (zero_value t :: ws). split; [|by constructor]. simpl. by rewrite E.
  - apply Forall_app in Hs as [Hs1 Hs2].
    destruct v as [| | | | | | |us|]; try done.
    destruct (IHf us Hs1 Htv) as (us' & Eu & Hnu); [intros f w Hw; apply Hl; by constructor|].
    destruct (IHr vs Hs2 Hty) as (ws & E & Hn); [intros f w Hw; apply Hl; by constructor|].
    exists (VStruct us' :: ws). split; [|by constructor]. simpl. by rewrite Eu, E.
  - destruct (IH vs Hs Hty) as (ws & E & Hn); [intros f w Hw; apply Hl; by constructor|].
    exists (zero_value t :: ws). split; [|by constructor].
    simpl. destruct t; try (by rewrite E). exfalso; by eapply Hns.
Qed.

(** ** General facts about a successful decode *)

Lemma dec_struct_ok attrs fs ws l :
  attributes fs l -> Forall (fun f => supported (tf_type f)) l ->
  dec_struct attrs fs (zero_fields fs) = Ok ws ->
  forall f v, leaf_of fs ws f v ->
    match attrs !! KU32 (tf_code f) with
    | None => tf_req f = false /\ v = zero_value (tf_type f)
    | Some a => wire_type_ok (tf_type f) a /\ v = dec_attr_value (tf_type f) a
    end.
Proof.
  intros Ha; revert ws; induction Ha as [|n tg c b t rest l Hne Hd Hr IH|n t rest l Hr IH|n tg t rest l Hr IH
    |n e tg m fs rest l1 l2 Hf IHf Hr IHr|n e tg t rest l Hns Hr IH]; intros ws Hs H f v Hl;
    cbn [zero_fields dec_struct negb] in H.
  - injection H as <-. inversion Hl.
  - apply Forall_cons in Hs as [Ht Hs]. simpl in Ht.
    apply res_bind_ok in H as (v' & Hv & H). apply res_bind_ok in H as (ws' & Hws & [= <-]).
    inversion Hl; subst; [|by eapply IH].
    match goal with H : tag_denotes tg _ _ |- _ =>
      destruct (tag_denotes_fun _ _ _ _ _ Hne Hd H) as [<- <-] end.
    assert (parse_field_opts tg = Ok (Some (c, b))) as E by (by apply parse_opts_some).
    rewrite E in Hv. unfold dec_leaf in Hv. simpl.
    destruct (attrs !! KU32 c) as [a|].
    + destruct (proj1 (get_dec_supported t) Ht) as [d Hd']. rewrite Hd' in Hv.
      rewrite (run_dec_spec _ _ _ Hd') in Hv.
      case_bool_decide; [|by case_bool_decide]. by injection Hv as <-.
    + destruct b; [done|]. by injection Hv as <-.
  - apply res_bind_ok in H as (v' & Hv & H). apply res_bind_ok in H as (ws' & Hws & [= <-]).
    inversion Hl; subst; try done. by eapply IH.
  - apply res_bind_ok in H as (v' & Hv & H). apply res_bind_ok in H as (ws' & Hws & [= <-]).
    inversion Hl; subst; try done. by eapply IH.
  - apply Forall_app in Hs as [Hs1 Hs2].
    apply res_bind_ok in H as (v' & Hv & H). apply res_bind_ok in H as (ws' & Hws & [= <-]).
    cbn [zero_value] in Hv.
    destruct (dec_struct attrs fs (zero_fields fs)) as [us| |] eqn:Eu; try done. injection Hv as <-.
    inversion Hl; subst; [by eapply IHf|by eapply IHr].
  - apply res_bind_ok in H as (v' & Hv & H). apply res_bind_ok in H as (ws' & Hws & [= <-]).
    inversion Hl; subst; try (exfalso; by eapply Hns). by eapply IH.
Qed.

(** The decoded struct is well typed if the attribute values are in range. *)

Lemma dec_attr_typed t a :
  supported t -> wire_type_ok t a -> attr_in_range a -> typed t (dec_attr_value t a).
Proof.
  intros Hs; induction Hs as [k| |t Hs IH]; intros Hw Hr.
  - destruct k, a; done.
  - destruct a; try done. simpl. apply of_unix_micro_nsec.
  - by apply IH.
Qed.

Lemma dec_struct_typed attrs fs ws l :
  attributes fs l -> Forall (fun f => supported (tf_type f)) l ->
  (forall k a, attrs !! k = Some a -> attr_in_range a) ->
  dec_struct attrs fs (zero_fields fs) = Ok ws -> typed_fields fs ws.
Proof.
  intros Ha; revert ws; induction Ha as [|n tg c b t rest l Hne Hd Hr IH|n t rest l Hr IH|n tg t rest l Hr IH
    |n e tg m fs rest l1 l2 Hf IHf Hr IHr|n e tg t rest l Hns Hr IH]; intros ws Hs Hrange H;
    cbn [zero_fields dec_struct negb] in H.
  - by injection H as <-.
  - apply Forall_cons in Hs as [Ht Hs]. simpl in Ht.
    apply res_bind_ok in H as (v' & Hv & H). apply res_bind_ok in H as (ws' & Hws & [= <-]).
    split; [|by eapply IH].
    assert (parse_field_opts tg = Ok (Some (c, b))) as E by (by apply parse_opts_some).
    rewrite E in Hv. unfold dec_leaf in Hv.
    assert (typed t (zero_value t)) as Hz by apply (zero_typed_fields (FCons n false true tg t FNil)).
    destruct (attrs !! KU32 c) as [a|] eqn:Ea.
    + destruct (proj1 (get_dec_supported t) Ht) as [d Hd']. rewrite Hd' in Hv.
      rewrite (run_dec_spec _ _ _ Hd') in Hv.
      case_bool_decide; [|by case_bool_decide]. injection Hv as <-. eapply dec_attr_typed; eauto.
    + destruct b; [done|]. by injection Hv as <-.
  - apply res_bind_ok in H as (v' & [= <-] & H). apply res_bind_ok in H as (ws' & Hws & [= <-]).
    split; [apply (zero_typed_fields (FCons n false true "" t FNil))|by eapply IH].
  - apply res_bind_ok in H as (v' & [= <-] & H). apply res_bind_ok in H as (ws' & Hws & [= <-]).
    split; [apply (zero_typed_fields (FCons n false true "" t FNil))|by eapply IH].
  - apply Forall_app in Hs as [Hs1 Hs2].
    apply res_bind_ok in H as (v' & Hv & H). apply res_bind_ok in H as (ws' & Hws & [= <-]).
    cbn [zero_value] in Hv.
    destruct (dec_struct attrs fs (zero_fields fs)) as [us| |] eqn:Eu; try done. injection Hv as <-.
    split; [by eapply IHf|by eapply IHr].
  - apply res_bind_ok in H as (v' & Hv & H). apply res_bind_ok in H as (ws' & Hws & [= <-]).
    split; [|by eapply IH].
    assert (typed t (zero_value t)) as Hz by apply (zero_typed_fields (FCons n false true tg t FNil)).
    destruct t; try (by injection Hv as <-). exfalso; by eapply Hns.
Qed.

(** Panics come only from nil attribute values on raw fields. *)
Lemma dec_struct_panic attrs fs l :
  attributes fs l -> Forall (fun f => supported (tf_type f)) l ->
  dec_struct attrs fs (zero_fields fs) = Panic ->
  exists f, f ∈ l /\ base_type (tf_type f) <> GTime /\ attrs !! KU32 (tf_code f) = Some ANil.
Proof.
  intros Ha; induction Ha as [|n tg c b t rest l Hne Hd Hr IH|n t rest l Hr IH|n tg t rest l Hr IH
    |n e tg m fs rest l1 l2 Hf IHf Hr IHr|n e tg t rest l Hns Hr IH]; intros Hs H;
    cbn [zero_fields dec_struct negb] in H; try done.
  - apply Forall_cons in Hs as [Ht Hs]. simpl in Ht.
    assert (parse_field_opts tg = Ok (Some (c, b))) as E by (by apply parse_opts_some).
    rewrite E in H. unfold dec_leaf in H.
    assert (dec_struct attrs rest (zero_fields rest) = Panic ->
      exists f, f ∈ TField n c b t :: l /\ base_type (tf_type f) <> GTime /\ attrs !! KU32 (tf_code f) = Some ANil) as IH'.
    { intros H'. destruct (IH Hs H') as (f & Hin & Hx). exists f. split; [by right|done]. }
    destruct (attrs !! KU32 c) as [a|] eqn:Ea.
    + destruct (proj1 (get_dec_supported t) Ht) as [d Hd']. rewrite Hd' in H.
      rewrite (run_dec_spec _ _ _ Hd') in H.
      case_bool_decide as Hw.
      * apply IH'. simpl in H. by destruct (dec_struct attrs rest (zero_fields rest)).
      * case_bool_decide as Hp; [|done]. destruct Hp as [-> Hbt].
        exists (TField n c b t). split; [left|done].
    + destruct b; [done|]. apply IH'. simpl in H. by destruct (dec_struct attrs rest (zero_fields rest)).
  - apply IH; [done|]. simpl in H. by destruct (dec_struct attrs rest (zero_fields rest)).
  - apply IH; [done|]. simpl in H. by destruct (dec_struct attrs rest (zero_fields rest)).
  - apply Forall_app in Hs as [Hs1 Hs2]. cbn [zero_value] in H.
    destruct (dec_struct attrs fs (zero_fields fs)) as [us| |] eqn:Eu; try done.
    + simpl in H. destruct (dec_struct attrs rest (zero_fields rest)) as [| |] eqn:Er; try done.
      destruct (IHr Hs2 eq_refl) as (f & Hin & Hx). exists f. split; [apply elem_of_app; by right|done].
    + destruct (IHf Hs1 eq_refl) as (f & Hin & Hx). exists f. split; [apply elem_of_app; by left|done].
  - apply IH; [done|].
    destruct t; try (simpl in H; by destruct (dec_struct attrs rest (zero_fields rest))).
    exfalso; by eapply Hns.
Qed.

(** Decoding succeeds when every attribute is well typed and the required ones
    are present. *)
Lemma dec_struct_total attrs fs l :
  attributes fs l -> Forall (fun f => supported (tf_type f)) l ->
  (exists ws, dec_struct attrs fs (zero_fields fs) = Ok ws) <->
  (forall f, f ∈ l -> attr_fine attrs f).
Proof.
  intros Ha; induction Ha as [|n tg c b t rest l Hne Hd Hr IH|n t rest l Hr IH|n tg t rest l Hr IH
    |n e tg m fs rest l1 l2 Hf IHf Hr IHr|n e tg t rest l Hns Hr IH]; intros Hs;
    cbn [zero_fields dec_struct negb].
  - split; [|eauto]. intros _ f Hf. by apply elem_of_nil in Hf.
  - apply Forall_cons in Hs as [Ht Hs]. simpl in Ht. specialize (IH Hs).
    assert (parse_field_opts tg = Ok (Some (c, b))) as -> by (by apply parse_opts_some).
    destruct (proj1 (get_dec_supported t) Ht) as [d Hd'].
    unfold dec_leaf. rewrite Hd'. split.
    + intros [ws H]. apply res_bind_ok in H as (v' & Hv & H). apply res_bind_ok in H as (ws' & Hws & [= <-]).
      intros f Hf. apply elem_of_cons in Hf as [->|Hf]; [|apply IH; eauto]. unfold attr_fine; simpl.
      destruct (attrs !! KU32 c) as [a|]; [|by destruct b].
      rewrite (run_dec_spec _ _ _ Hd') in Hv. case_bool_decide; [done|by case_bool_decide].
    + intros H. destruct (proj2 IH) as [ws Hws]; [intros f Hf; apply H; by right|]. rewrite Hws.
      pose proof (H (TField n c b t) (elem_of_list_here _ _)) as H1. unfold attr_fine in H1; simpl in H1.
      destruct (attrs !! KU32 c) as [a|].
      * rewrite (run_dec_spec _ _ _ Hd'), bool_decide_eq_true_2 by done. simpl; eauto.
      * rewrite H1. simpl; eauto.
  - rewrite <- (IH Hs). simpl. split; intros [ws H].
    + apply res_bind_ok in H as (ws' & Hws & [= <-]). eauto.
    + rewrite H. simpl; eauto.
  - rewrite <- (IH Hs). simpl. split; intros [ws H].
    + apply res_bind_ok in H as (ws' & Hws & [= <-]). eauto.
    + rewrite H. simpl; eauto.
  - apply Forall_app in Hs as [Hs1 Hs2]. specialize (IHf Hs1). specialize (IHr Hs2). cbn [zero_value]. split.
    + intros [ws H]. destruct (dec_struct attrs fs (zero_fields fs)) as [us| |] eqn:Eu; try done. simpl in H.
      apply res_bind_ok in H as (ws' & Hws & [= <-]).
      intros f Hin. apply elem_of_app in Hin as [Hin|Hin]; [apply IHf; eauto|apply IHr; eauto].
    + intros H. destruct (proj2 IHf) as [us Hus]; [intros f Hin; apply H; apply elem_of_app; by left|].
      destruct (proj2 IHr) as [ws Hws]; [intros f Hin; apply H; apply elem_of_app; by right|].
      rewrite Hus, Hws. simpl; eauto.
  - rewrite <- (IH Hs).
    assert (forall v, (exists ws, res_bind (@Ok encerr _ v) (fun v' => res_bind (dec_struct attrs rest (zero_fields rest))
        (fun ws0 => Ok (v' :: ws0))) = Ok ws) <-> exists ws, dec_struct attrs rest (zero_fields rest) = Ok ws) as Hgen.
    { intros v. simpl. split; intros [ws H].
      + apply res_bind_ok in H as (ws' & Hws & [= <-]). eauto.
      + rewrite H. simpl; eauto. }
    destruct t; try apply Hgen. exfalso; by eapply Hns.
Qed.

(** Exactly when decoding panics: the first offending attribute is nil and
    belongs to a raw field. *)
Definition nil_raw (attrs : attrset) (f : tfield) : Prop :=
  base_type (tf_type f) <> GTime /\ attrs !! KU32 (tf_code f) = Some ANil.

Lemma nil_raw_not_fine attrs f : supported (tf_type f) -> nil_raw attrs f -> ~ attr_fine attrs f.
Proof.
  intros Hs [Hb Ha]. unfold attr_fine. rewrite Ha. unfold wire_type_ok.
  destruct (base_type (tf_type f)) as [[]| | | |]; tauto.
Qed.

Lemma dec_struct_panic_iff attrs fs l :
  attributes fs l -> Forall (fun f => supported (tf_type f)) l ->
  dec_struct attrs fs (zero_fields fs) = Panic <->
  exists l1 f l2, l = l1 ++ f :: l2 /\ (forall g, g ∈ l1 -> attr_fine attrs g) /\ nil_raw attrs f.
Proof.
  intros Ha; induction Ha as [|n tg c b t rest l Hne Hd Hr IH|n t rest l Hr IH|n tg t rest l Hr IH
    |n e tg m fs rest l1 l2 Hf IHf Hr IHr|n e tg t rest l Hns Hr IH]; intros Hs;
    cbn [zero_fields dec_struct negb].
  - split; [done|]. intros (l1 & f & l2 & E & _). by destruct l1.
  - apply Forall_cons in Hs as [Ht Hs]. simpl in Ht. specialize (IH Hs).
    assert (parse_field_opts tg = Ok (Some (c, b))) as -> by (by apply parse_opts_some).
    destruct (proj1 (get_dec_supported t) Ht) as [d Hd'].
    set (f0 := TField n c b t).
    (* the head is fine: same as the rest *)
    assert (attr_fine attrs f0 ->
      (exists l1 f l2, l = l1 ++ f :: l2 /\ (forall g, g ∈ l1 -> attr_fine attrs g) /\ nil_raw attrs f) <->
      (exists l1 f l2, f0 :: l = l1 ++ f :: l2 /\ (forall g, g ∈ l1 -> attr_fine attrs g) /\ nil_raw attrs f)) as Hshift.
    { intros Hfine. split.
      - intros (l1 & f & l2 & -> & H1 & H2). exists (f0 :: l1), f, l2. split; [done|]. split; [|done].
        intros g Hg. apply elem_of_cons in Hg as [->|Hg]; [done|by apply H1].
      - intros (l1 & f & l2 & E & H1 & H2). destruct l1 as [|g l1]; injection E as E1 E2.
        + subst f. exfalso. by apply (nil_raw_not_fine attrs f0).
        + subst l. exists l1, f, l2. split; [done|]. split; [|done]. intros g' Hg. apply H1. by right. }
    assert (forall v : goval, res_bind (@Ok encerr _ v) (fun v' => res_bind (dec_struct attrs rest (zero_fields rest))
        (fun ws0 => Ok (v' :: ws0))) = Panic <-> dec_struct attrs rest (zero_fields rest) = Panic) as Hgen.
    { intros v. simpl. by destruct (dec_struct attrs rest (zero_fields rest)). }
    unfold dec_leaf. rewrite Hd'. destruct (attrs !! KU32 c) as [a|] eqn:Ea.
    + rewrite (run_dec_spec _ _ _ Hd'). case_bool_decide as Hw.
      * rewrite Hgen, IH. apply Hshift. unfold attr_fine, f0; simpl. by rewrite Ea.
      * case_bool_decide as Hp.
        -- split; [|done]. intros _. destruct Hp as [-> Hbt]. exists [], f0, l. split; [done|].
           split; [|done]. intros g Hg. by apply elem_of_nil in Hg.
        -- split; [done|]. intros (l1 & f & l2 & E & H1 & H2).
           destruct l1 as [|g l1]; injection E as E1 E2.
           ++ subst f. destruct H2 as [Hb H2]. unfold f0 in *; simpl in *. rewrite Ea in H2.
              exfalso. apply Hp. split; [congruence|done].
           ++ subst g. exfalso. apply Hw. specialize (H1 f0 (elem_of_list_here _ _)).
              unfold attr_fine, f0 in H1; simpl in H1. by rewrite Ea in H1.
    + destruct b.
      * split; [done|]. intros (l1 & f & l2 & E & H1 & H2).
        destruct l1 as [|g l1]; injection E as E1 E2.
        -- subst f. destruct H2 as [Hb H2]. unfold f0 in *; simpl in *. congruence.
        -- subst g. specialize (H1 f0 (elem_of_list_here _ _)).
           unfold attr_fine, f0 in H1; simpl in H1. by rewrite Ea in H1.
      * rewrite Hgen, IH. apply Hshift. unfold attr_fine, f0; simpl. by rewrite Ea.
  - rewrite <- (IH Hs). simpl. by destruct (dec_struct attrs rest (zero_fields rest)).
  - rewrite <- (IH Hs). simpl. by destruct (dec_struct attrs rest (zero_fields rest)).
  - apply Forall_app in Hs as [Hs1 Hs2]. specialize (IHf Hs1). specialize (IHr Hs2). cbn [zero_value].
    destruct (dec_struct attrs fs (zero_fields fs)) as [us|er|] eqn:Eu; simpl.
    + assert (forall g, g ∈ l1 -> attr_fine attrs g) as Hfine by (apply (dec_struct_total attrs fs l1); eauto).
      trans (dec_struct attrs rest (zero_fields rest) = Panic);
        [by destruct (dec_struct attrs rest (zero_fields rest))|]. rewrite IHr. split.
      * intros (k1 & f & k2 & -> & H1 & H2). exists (l1 ++ k1), f, k2. split; [by rewrite <- app_assoc|].
        split; [|done]. intros g Hg. apply elem_of_app in Hg as [Hg|Hg]; auto.
      * intros (k1 & f & k2 & E & H1 & H2).
        assert (f ∉ l1) as Hnin.
        { intros Hin. eapply nil_raw_not_fine; [|done|by apply Hfine].
          rewrite Forall_forall in Hs1. by apply Hs1. }
        apply app_eq_inv in E as [(k & E0 & E)|(k & E0 & E)]; subst.
        -- destruct k as [|g k]; simpl in E.
           ++ exists [], f, k2. rewrite E. split; [done|]. split; [|done].
              intros g Hg. by apply elem_of_nil in Hg.
           ++ injection E as <- E. exfalso. apply Hnin. apply elem_of_app. right. left.
        -- exists k, f, k2. split; [done|]. split; [|done]. intros g Hg. apply H1.
           apply elem_of_app; by right.
    + split; [done|]. intros (k1 & f & k2 & E & H1 & H2). exfalso.
      apply app_eq_inv in E as [(k & E0 & E)|(k & E0 & E)]; subst.
      * destruct k as [|g k]; simpl in E.
        -- rewrite app_nil_r in *.
           destruct (proj2 (dec_struct_total attrs fs k1 Hf Hs1) H1) as [us Hus]. congruence.
        -- injection E as <- E.
           assert (@Err encerr (list goval) er = Panic) as Hx.
           { apply IHf. exists k1, f, k. done. } done.
      * destruct (proj2 (dec_struct_total attrs fs l1 Hf Hs1)) as [us Hus]; [|congruence].
        intros g Hg. apply H1. apply elem_of_app; by left.
    + split; [|done]. intros _. destruct (proj1 IHf eq_refl) as (k1 & f & k2 & -> & H1 & H2).
      exists k1, f, (k2 ++ l2). split; [by rewrite <- app_assoc|done].
  - rewrite <- (IH Hs).
    destruct t; try (simpl; by destruct (dec_struct attrs rest (zero_fields rest))).
    exfalso; by eapply Hns.
Qed.

(** Decoding depends only on the type's own codepoints. *)
Lemma dec_struct_ext attrs attrs' fs vs l :
  attributes fs l ->
  (forall f, f ∈ l -> attrs !! KU32 (tf_code f) = attrs' !! KU32 (tf_code f)) ->
  dec_struct attrs fs vs = dec_struct attrs' fs vs.
Proof.
  intros Ha; revert vs; induction Ha as [|n tg c b t rest l Hne Hd Hr IH|n t rest l Hr IH|n tg t rest l Hr IH
    |n e tg m fs rest l1 l2 Hf IHf Hr IHr|n e tg t rest l Hns Hr IH]; intros vs H;
    destruct vs as [|v vs]; try done; cbn [dec_struct negb].
  - assert (parse_field_opts tg = Ok (Some (c, b))) as -> by (by apply parse_opts_some).
    rewrite (IH vs) by (intros f Hf; apply H; by right).
    pose proof (H (TField n c b t) (elem_of_list_here _ _)) as H1. simpl in H1.
    unfold dec_leaf. by rewrite H1.
  - by rewrite (IH vs).
  - by rewrite (IH vs).
  - rewrite (IHr vs) by (intros f Hin; apply H; apply elem_of_app; by right).
    destruct v; try done.
    by rewrite IHf by (intros f Hin; apply H; apply elem_of_app; by left).
  - rewrite (IH vs) by done. destruct t; try done. exfalso; by eapply Hns.
Qed.
