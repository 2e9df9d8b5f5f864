(** Lemmas relating field tables and index paths to the structure of values. *)
From Coq Require Import ZArith NArith Ascii String Lia.
From stdpp Require Import base gmap strings list.
From Verif Require Import GoBase Encoding SpecEncoding EncodingFacts.

Local Open Scope list_scope.

(** ** Index paths *)

Lemma get_path_app p q v :
  get_path (p ++ q) v = match get_path p v with Some u => get_path q u | None => None end.
Proof.
  revert v; induction p as [|i p IH]; intros v; [done|].
  simpl. destruct v; try done. destruct (vs !! i); [apply IH|done].
Qed.

Lemma set_path_get p x v w : set_path p x v = Some w -> get_path p w = Some x.
Proof.
  revert v w; induction p as [|i p IH]; intros v w; simpl; [congruence|].
  destruct v; try done. destruct (vs !! i) as [u|] eqn:E; [|done].
  destruct (set_path p x u) as [u'|] eqn:E'; [|done]. intros [= <-].
  rewrite list_lookup_insert by (by eapply lookup_lt_Some). by eapply IH.
Qed.

Lemma set_path_same p x v : get_path p v = Some x -> set_path p x v = Some v.
Proof.
  revert v; induction p as [|i p IH]; intros v; simpl; [congruence|].
  destruct v; try done. destruct (vs !! i) as [u|] eqn:E; [|done].
  intros H. rewrite (IH _ H). by rewrite list_insert_id.
Qed.

Lemma set_path_set p x y v w : set_path p x v = Some w -> set_path p y w = set_path p y v.
Proof.
  revert v w; induction p as [|i p IH]; intros v w; simpl; [done|].
  destruct v; try done. destruct (vs !! i) as [u|] eqn:E; [|done].
  destruct (set_path p x u) as [u'|] eqn:E'; [|done]. intros [= <-].
  rewrite list_lookup_insert by (by eapply lookup_lt_Some).
  rewrite (IH _ _ E'). destruct (set_path p y u); [|done]. by rewrite list_insert_insert.
Qed.

Lemma set_path_exists p x v u : get_path p v = Some u -> exists w, set_path p x v = Some w.
Proof.
  revert v; induction p as [|i p IH]; intros v; simpl; [eauto|].
  destruct v; try done. destruct (vs !! i) as [u'|] eqn:E; [|done].
  intros H. destruct (IH _ H) as [w ->]. eauto.
Qed.

Lemma set_path_app p q x v u :
  get_path p v = Some u ->
  set_path (p ++ q) x v =
  match set_path q x u with Some u' => set_path p u' v | None => None end.
Proof.
  revert v; induction p as [|i p IH]; intros v; simpl.
  - intros [= ->]. by destruct (set_path q x u).
  - destruct v; try done. destruct (vs !! i) as [w|] eqn:E; [|done].
    intros H. rewrite (IH _ H). by destruct (set_path q x u).
Qed.

(** ** Field tables describe attributes *)

Definition tf (f : field) : tfield := TField (f_name f) (f_code f) (f_req f) (f_type f).

Definition codecs_ok (f : field) : Prop :=
  get_field_encoder (f_type f) = Some (f_enc f) /\ get_field_decoder (f_type f) = Some (f_dec f).

Lemma res_bind_err {E A B} (r : res E A) (f : A -> res E B) e :
  res_bind r f = Err e -> r = Err e \/ exists a, r = Ok a /\ f a = Err e.
Proof. destruct r; simpl; intros H; [right; eauto|left; congruence|done]. Qed.

Lemma fields_for_not_err fs idx i e : fields_for fs idx i <> Err e.
Proof.
  revert idx i; induction fs as [|n a ex tg t rest IHt IHr] using gofields_ind2; intros idx i; [done|].
  cbn [fields_for]. intros H. apply res_bind_err in H as [H|(h & _ & H)].
  - destruct a.
    + destruct t; try done. by eapply IHt in H.
    + destruct ex; simpl in H; [|done].
      destruct (parse_opts_total tg) as [E|[[[c r]|] E]]; rewrite E in H; try done.
      destruct (get_field_encoder t), (get_field_decoder t); done.
  - apply res_bind_err in H as [H|(r & _ & H)]; [|done]. by eapply IHr in H.
Qed.

Lemma res_bind_ok {E A B} (r : res E A) (f : A -> res E B) b :
  res_bind r f = Ok b <-> exists a, r = Ok a /\ f a = Ok b.
Proof. destruct r; simpl; split; try done; [eauto|intros (? & [= ->] & ?); done|by intros (?&?&?)..]. Qed.

(** Case analysis of one struct field, shared by the inductions below. *)
Inductive field_case (fs_here : res unit (list field)) (n : string) (a ex : bool) (tg : string)
    (t : gotype) (next : list nat) : Prop :=
  | fc_embedded m fs : a = true -> t = GStruct m fs -> fs_here = fields_for fs next 0 ->
      field_case fs_here n a ex tg t next
  | fc_embedded_other : a = true -> (forall m fs, t <> GStruct m fs) -> fs_here = Ok [] ->
      field_case fs_here n a ex tg t next
  | fc_unexported : a = false -> ex = false -> fs_here = Ok [] ->
      field_case fs_here n a ex tg t next
  | fc_untagged : a = false -> ex = true -> tg = ""%string -> fs_here = Ok [] ->
      field_case fs_here n a ex tg t next
  | fc_tagged c r e d : a = false -> ex = true -> tg <> ""%string -> tag_denotes tg c r ->
      get_field_encoder t = Some e -> get_field_decoder t = Some d ->
      fs_here = Ok [Field n c r next t e d] ->
      field_case fs_here n a ex tg t next
  | fc_panic : a = false -> ex = true -> tg <> ""%string ->
      ((forall c r, ~ tag_denotes tg c r) \/ ~ supported t) -> fs_here = Panic ->
      field_case fs_here n a ex tg t next.

Definition here_fields (n : string) (a ex : bool) (tg : string) (t : gotype) (next : list nat)
    : res unit (list field) :=
  if a then
    match t with
    | GStruct _ fs' => fields_for fs' next 0
    | _ => Ok []
    end
  else if negb ex then Ok []
  else
    match parse_field_opts tg with
    | Ok None => Ok []
    | Ok (Some (code, req)) =>
        match get_field_encoder t, get_field_decoder t with
        | Some e, Some d => Ok [Field n code req next t e d]
        | _, _ => Panic
        end
    | Err e => Err e
    | Panic => Panic
    end.

Lemma fields_for_cons n a ex tg t rest idx i :
  fields_for (FCons n a ex tg t rest) idx i =
  res_bind (here_fields n a ex tg t (idx ++ [i])) (fun h =>
  res_bind (fields_for rest idx (S i)) (fun r => Ok (h ++ r))).
Proof. done. Qed.

Lemma here_fields_case n a ex tg t next :
  field_case (here_fields n a ex tg t next) n a ex tg t next.
Proof.
  unfold here_fields. destruct a.
  - destruct t; try (eapply fc_embedded_other; done). by eapply fc_embedded.
  - destruct ex; simpl; [|by apply fc_unexported].
    destruct (decide (tg = ""%string)) as [->|Hne].
    { by apply fc_untagged. }
    destruct (parse_opts_total tg) as [E|[[[c r]|] E]]; rewrite E.
    + eapply fc_panic; try done. left. intros c r Hd.
      assert (parse_field_opts tg = Ok (Some (c, r))) by (by apply parse_opts_some). congruence.
    + apply parse_opts_some in E as [_ Hd].
      destruct (get_field_encoder t) as [e|] eqn:Ee.
      * assert (supported t) as Hs by (apply get_enc_supported; eauto).
        apply get_dec_supported in Hs as [d Ed]. rewrite Ed.
        by eapply fc_tagged.
      * eapply fc_panic; try done. right. intros Hs. apply get_enc_supported in Hs as [??]. congruence.
    + exfalso. apply parse_opts_none in E. done.
Qed.

Lemma fields_for_attributes fs idx i l :
  fields_for fs idx i = Ok l -> attributes fs (tf <$> l) /\ Forall codecs_ok l.
Proof.
  revert idx i l; induction fs as [|n a ex tg t rest IHt IHr] using gofields_ind2; intros idx i l.
  - simpl. intros [= <-]. split; [constructor|done].
  - rewrite fields_for_cons. intros H.
    apply res_bind_ok in H as (h & Hh & H). apply res_bind_ok in H as (r & Hr & [= <-]).
    apply IHr in Hr as [Ar Cr]. rewrite fmap_app.
    destruct (here_fields_case n a ex tg t (idx ++ [i]))
      as [m fs -> -> E| -> Hns E| -> -> E| -> -> -> E|c b e d -> -> Hne Hd He Hde E| -> -> Hne Hx E];
      rewrite E in Hh; try (injection Hh as <-).
    + apply (IHt _ _ eq_refl) in Hh as [Ah Ch]. split; [by constructor|by apply Forall_app].
    + split; [by constructor|done].
    + split; [by constructor|done].
    + split; [by constructor|done].
    + split; [by constructor|]. constructor; done.
    + done.
Qed.

Lemma fields_for_complete fs l idx i :
  attributes fs l -> Forall (fun f => supported (tf_type f)) l ->
  exists l', fields_for fs idx i = Ok l' /\ tf <$> l' = l.
Proof.
  intros H; revert idx i. induction H as [|n tg c b t rest l Hne Hd Hr IH|n t rest l Hr IH|n tg t rest l Hr IH
    |n e tg m fs rest l1 l2 Hf IHf Hr IHr|n e tg t rest l Hns Hr IH]; intros idx i Hs; [by exists []|..];
    rewrite fields_for_cons.
  - apply Forall_cons in Hs as [Ht Hs]. simpl in Ht. destruct (IH idx (S i) Hs) as (l' & El & <-).
    rewrite El. cbn [here_fields negb].
    assert (parse_field_opts tg = Ok (Some (c, b))) as -> by (by apply parse_opts_some).
    destruct (proj1 (get_enc_supported t) Ht) as [e ->].
    destruct (proj1 (get_dec_supported t) Ht) as [d ->]. simpl. eauto.
  - destruct (IH idx (S i) Hs) as (l' & -> & <-). simpl. eauto.
  - destruct (IH idx (S i) Hs) as (l' & -> & <-). simpl. eauto.
  - apply Forall_app in Hs as [H1 H2]. destruct (IHr idx (S i) H2) as (r' & -> & <-).
    destruct (IHf (idx ++ [i]) 0 H1) as (h' & E & <-). cbn [here_fields]. rewrite E. simpl.
    eexists; split; [done|]. by rewrite fmap_app.
  - destruct (IH idx (S i) Hs) as (l' & -> & <-).
    destruct t; simpl; eauto. exfalso; by eapply Hns.
Qed.

Lemma attributes_fun fs l l' : attributes fs l -> attributes fs l' -> l = l'.
Proof.
  intros H; revert l'. induction H as [|n tg c b t rest l Hne Hd Hr IH|n t rest l Hr IH|n tg t rest l Hr IH
    |n e tg m fs rest l1 l2 Hf IHf Hr IHr|n e tg t rest l Hns Hr IH]; intros l' H'; inversion H'; subst; try done.
  - match goal with H : tag_denotes tg _ _ |- _ =>
      destruct (tag_denotes_fun _ _ _ _ _ Hne Hd H) as [-> ->] end.
    f_equal; by apply IH.
  - by apply IH.
  - by apply IH.
  - f_equal; [by apply IHf|by apply IHr].
  - match goal with H : forall m fs, GStruct _ _ <> _ |- _ => exfalso; by eapply H end.
  - exfalso. by eapply Hns.
  - by apply IH.
Qed.

(** ** Values along paths *)

Lemma fields_leaf fs idx i l root pre vs f :
  fields_for fs idx i = Ok l ->
  get_path idx root = Some (VStruct (pre ++ vs)) -> length pre = i ->
  typed_fields fs vs -> f ∈ l ->
  exists v, get_path (f_index f) root = Some v /\ leaf_of fs vs (tf f) v /\ typed (f_type f) v.
Proof.
  revert idx i l root pre vs f; induction fs as [|n a ex tg t rest IHt IHr] using gofields_ind2;
    intros idx i l root pre vs f.
  - simpl. intros [= <-] _ _ _ Hf. by apply elem_of_nil in Hf.
  - rewrite fields_for_cons. intros H Hp Hi Hty Hf.
    apply res_bind_ok in H as (h & Hh & H). apply res_bind_ok in H as (r & Hr & [= <-]).
    destruct vs as [|v vs]; [done|]. destruct Hty as [Htv Htr].
    assert (get_path (idx ++ [i]) root = Some v) as Hpv.
    { rewrite get_path_app, Hp. simpl. rewrite lookup_app_r by lia.
      by replace (i - length pre) with 0 by lia. }
    apply elem_of_app in Hf as [Hf|Hf].
    + destruct (here_fields_case n a ex tg t (idx ++ [i]))
        as [m fs -> -> E| -> Hns E| -> -> E| -> -> -> E|c b e d -> -> Hne Hd He Hde E| -> -> Hne Hx E];
        rewrite E in Hh; try (injection Hh as <-); try (by apply elem_of_nil in Hf).
      * destruct v as [| | | | | | |ws|]; try done.
        destruct (IHt _ _ eq_refl (idx ++ [i]) 0 h root [] ws f) as (v & Hg & Hl & Ht); try done.
        exists v. split; [done|]. split; [by constructor|done].
      * apply elem_of_list_singleton in Hf as ->. exists v. simpl. split; [done|].
        split; [by constructor|done].
      * done.
    + destruct (IHr idx (S i) r root (pre ++ [v]) vs f) as (w & Hg & Hl & Ht); try done.
      * by rewrite <- app_assoc.
      * rewrite app_length; simpl; lia.
      * exists w. split; [done|]. split; [by constructor|done].
Qed.

Lemma leaf_fields fs idx i l root pre vs g v :
  fields_for fs idx i = Ok l ->
  get_path idx root = Some (VStruct (pre ++ vs)) -> length pre = i ->
  leaf_of fs vs g v ->
  exists f, f ∈ l /\ tf f = g /\ get_path (f_index f) root = Some v.
Proof.
  intros Hf Hp Hi Hl; revert idx i l root pre Hf Hp Hi.
  induction Hl as [n tg c b t rest v vs Hne Hd|n e tg m fs rest ws vs f v Hl IH|n a e tg t rest w vs f v Hl IH];
    intros idx i l root pre Hf Hp Hi; rewrite fields_for_cons in Hf;
    apply res_bind_ok in Hf as (h & Hh & Hf); apply res_bind_ok in Hf as (r & Hr & [= <-]).
  - assert (get_path (idx ++ [i]) root = Some v) as Hpv.
    { rewrite get_path_app, Hp. simpl. rewrite lookup_app_r by lia.
      by replace (i - length pre) with 0 by lia. }
    cbn [here_fields negb] in Hh.
    assert (parse_field_opts tg = Ok (Some (c, b))) as E by (by apply parse_opts_some).
    rewrite E in Hh.
    destruct (get_field_encoder t) as [e|]; [|done].
    destruct (get_field_decoder t) as [d|]; [|done]. injection Hh as <-.
    eexists. split; [apply elem_of_app; left; by apply elem_of_list_singleton|]. done.
  - assert (get_path (idx ++ [i]) root = Some (VStruct ws)) as Hpv.
    { rewrite get_path_app, Hp. simpl. rewrite lookup_app_r by lia.
      by replace (i - length pre) with 0 by lia. }
    cbn [here_fields] in Hh.
    destruct (IH _ _ _ root [] Hh Hpv eq_refl) as (f' & Hin & Ht & Hg).
    exists f'. split; [apply elem_of_app; by left|done].
  - destruct (IH idx (S i) r root (pre ++ [w])) as (f' & Hin & Ht & Hg); try done.
    + by rewrite <- app_assoc.
    + rewrite app_length; simpl; lia.
    + exists f'. split; [apply elem_of_app; by right|done].
Qed.

Lemma leaf_of_attribute fs vs g v l : attributes fs l -> leaf_of fs vs g v -> g ∈ l.
Proof.
  intros Ha; revert vs g v; induction Ha as [|n tg c b t rest l Hne Hd Hr IH|n t rest l Hr IH|n tg t rest l Hr IH
    |n e tg m fs rest l1 l2 Hf IHf Hr IHr|n e tg t rest l Hns Hr IH]; intros vs g v Hl; inversion Hl; subst; try done.
  - match goal with H : tag_denotes tg _ _ |- _ =>
      destruct (tag_denotes_fun _ _ _ _ _ Hne Hd H) as [-> ->] end. left.
  - right. by eapply IH.
  - by eapply IH.
  - by eapply IH.
  - apply elem_of_app; left. by eapply IHf.
  - apply elem_of_app; right. by eapply IHr.
  - exfalso. by eapply Hns.
  - by eapply IH.
Qed.

Lemma attribute_leaf fs vs l g :
  attributes fs l -> typed_fields fs vs -> g ∈ l -> exists v, leaf_of fs vs g v /\ typed (tf_type g) v.
Proof.
  intros Ha; revert vs g; induction Ha as [|n tg c b t rest l Hne Hd Hr IH|n t rest l Hr IH|n tg t rest l Hr IH
    |n e tg m fs rest l1 l2 Hf IHf Hr IHr|n e tg t rest l Hns Hr IH]; intros vs g Ht Hg.
  - by apply elem_of_nil in Hg.
  - destruct vs as [|v vs]; [done|]. destruct Ht as [Htv Ht].
    apply elem_of_cons in Hg as [->|Hg]; [exists v; split; [by constructor|done]|].
    destruct (IH _ _ Ht Hg) as (w & Hw & Htw). exists w; split; [by constructor|done].
  - destruct vs as [|v vs]; [done|]. destruct Ht as [Htv Ht].
    destruct (IH _ _ Ht Hg) as (w & Hw & Htw). exists w; split; [by constructor|done].
  - destruct vs as [|v vs]; [done|]. destruct Ht as [Htv Ht].
    destruct (IH _ _ Ht Hg) as (w & Hw & Htw). exists w; split; [by constructor|done].
  - destruct vs as [|v vs]; [done|]. destruct Ht as [Htv Ht].
    apply elem_of_app in Hg as [Hg|Hg].
    + destruct v as [| | | | | | |ws|]; try done.
      destruct (IHf _ _ Htv Hg) as (w & Hw & Htw). exists w; split; [by constructor|done].
    + destruct (IHr _ _ Ht Hg) as (w & Hw & Htw). exists w; split; [by constructor|done].
  - destruct vs as [|v vs]; [done|]. destruct Ht as [Htv Ht].
    destruct (IH _ _ Ht Hg) as (w & Hw & Htw). exists w; split; [by constructor|done].
Qed.

Lemma zero_typed_fields fs : typed_fields fs (zero_fields fs).
Proof.
  apply (gofields_mut (fun t => typed t (zero_value t)) (fun fs => typed_fields fs (zero_fields fs))); simpl; try done.
  intros []; done.
Qed.

(** ** Encoding field lists *)

Definition code_key (f : field) : akey := KU32 (f_code f).

(** A field whose value can be encoded. *)
Definition field_fine (root : goval) (f : field) : Prop :=
  exists v, get_path (f_index f) root = Some v /\
    (f_req f = true -> ~ empty_value v) /\
    (forall t, pointee v = VTime t -> t = zero_time \/ ~ before_epoch t).

Global Instance field_fine_dec root f : Decision (field_fine root f).
Proof.
  unfold field_fine. destruct (get_path (f_index f) root) as [v|] eqn:E;
    [|right; by intros (v & ? & _)].
  destruct (decide (f_req f = true -> ~ empty_value v)) as [H1|H1];
    [|right; intros (v' & [= <-] & ? & _); done].
  assert (Decision (match pointee v with
                    | VTime t => t = zero_time \/ ~ before_epoch t
                    | _ => True end)) as [H2|H2].
  { destruct (pointee v); try (left; exact I). unfold before_epoch. apply _. }
  - left. exists v. split; [done|]. split; [done|]. intros t Et. by rewrite Et in H2.
  - right. intros (v' & [= <-] & _ & H). apply H2. destruct (pointee v); try done. by apply H.
Defined.

Lemma enc_outcome_val v a : enc_outcome v = OutVal a -> ~ empty_value v /\ a = attr_of v.
Proof.
  unfold enc_outcome. case_bool_decide; [done|].
  destruct (pointee v); try (by intros [= <-]).
  case_bool_decide; [done|by intros [= <-]].
Qed.

Lemma enc_outcome_fine v :
  (forall t, pointee v = VTime t -> t = zero_time \/ ~ before_epoch t) ->
  enc_outcome v = if bool_decide (empty_value v) then OutNotSet else OutVal (attr_of v).
Proof.
  intros H. unfold enc_outcome. case_bool_decide as He; [done|].
  destruct (pointee v) eqn:E; try done.
  destruct (H _ eq_refl) as [->|Hb].
  - exfalso. apply He. unfold empty_value. by rewrite E.
  - by rewrite bool_decide_eq_false_2.
Qed.

Definition field_typed (root : goval) (f : field) : Prop :=
  exists v, get_path (f_index f) root = Some v /\ typed (f_type f) v /\ codecs_ok f /\
    (forall t, pointee v = VTime t -> fits_int64 t).

Lemma encode_fields_fine l root acc :
  Forall (field_typed root) l -> Forall (field_fine root) l ->
  exists a, encode_fields l root acc = EncOk a.
Proof.
  revert acc; induction l as [|f l IH]; intros acc Ht Hf; simpl; [eauto|].
  apply Forall_cons in Ht as [(v & Hg & Htv & [Hce Hcd] & Hfit) Ht].
  apply Forall_cons in Hf as [(v' & Hg' & Hreq & Htime) Hf].
  rewrite Hg in Hg'. injection Hg' as <-. rewrite Hg, (run_enc_spec _ _ _ Hce Htv Hfit).
  rewrite enc_outcome_fine by done. case_bool_decide as He.
  - destruct (f_req f); [|by apply IH]. by destruct Hreq.
  - assert (attr_of v <> ANil) as Hn.
    { eapply attr_of_not_nil; [|done..]. apply get_enc_supported; eauto. }
    destruct (attr_of v); by apply IH.
Qed.

Lemma encode_fields_not_fine l root acc :
  Forall (field_typed root) l -> ~ Forall (field_fine root) l ->
  exists p e, encode_fields l root acc = EncErr (Some p) e.
Proof.
  revert acc; induction l as [|f l IH]; intros acc Ht Hf; simpl; [by destruct Hf|].
  apply Forall_cons in Ht as [(v & Hg & Htv & [Hce Hcd] & Hfit) Ht].
  rewrite Hg, (run_enc_spec _ _ _ Hce Htv Hfit).
  destruct (decide (empty_value v)) as [He|He].
  - unfold enc_outcome. rewrite bool_decide_eq_true_2 by done.
    destruct (f_req f) eqn:Hr; [eauto|]. apply IH; [done|]. intros HF. apply Hf.
    constructor; [|done]. exists v. split; [done|]. split; [congruence|].
    intros t E. left. unfold empty_value in He. by rewrite E in He.
  - assert (attr_of v <> ANil) as Hn.
    { eapply attr_of_not_nil; [|done..]. apply get_enc_supported; eauto. }
    assert ((exists t, pointee v = VTime t /\ before_epoch t) \/
            (forall t, pointee v = VTime t -> t = zero_time \/ ~ before_epoch t)) as [(t & E & Hb)|Hall].
    { destruct (pointee v) eqn:E; try (right; congruence).
      destruct (decide (before_epoch t)); [left; eauto|right]. intros t' [= <-]. by right. }
    + unfold enc_outcome. rewrite bool_decide_eq_false_2 by done. rewrite E.
      rewrite bool_decide_eq_true_2 by done. eauto.
    + rewrite enc_outcome_fine by done. rewrite bool_decide_eq_false_2 by done.
      assert (~ Forall (field_fine root) l) as Hf'.
      { intros HF. apply Hf. constructor; [|done]. exists v. done. }
      destruct (attr_of v); by apply IH.
Qed.

Lemma encode_fields_lookup l root acc a :
  Forall (field_typed root) l -> NoDup (f_code <$> l) ->
  (forall f, f ∈ l -> acc !! code_key f = None) ->
  encode_fields l root acc = EncOk a ->
  forall k x, a !! k = Some x <->
    acc !! k = Some x \/
    exists f v, f ∈ l /\ k = code_key f /\ get_path (f_index f) root = Some v /\
      ~ empty_value v /\ x = attr_of v.
Proof.
  revert acc; induction l as [|f l IH]; intros acc Ht Hnd Hacc.
  { simpl. intros [= <-] k x. split; [by left|]. intros [?|(f & v & Hf & _)]; [done|].
    by apply elem_of_nil in Hf. }
  simpl. apply Forall_cons in Ht as [(v & Hg & Htv & [Hce Hcd] & Hfit) Ht].
  rewrite fmap_cons in Hnd. apply NoDup_cons in Hnd as [Hnin Hnd].
  rewrite Hg, (run_enc_spec _ _ _ Hce Htv Hfit).
  destruct (enc_outcome v) as [y| | |] eqn:Eo; try done.
  - apply enc_outcome_val in Eo as [He ->].
    assert (attr_of v <> ANil) as Hn.
    { eapply attr_of_not_nil; [|done..]. apply get_enc_supported; eauto. }
    intros H k x.
    assert (encode_fields l root (<[KU32 (f_code f) := attr_of v]> acc) = EncOk a) as H'.
    { destruct (attr_of v); done. }
    clear H. rewrite (IH _ Ht Hnd) with (2 := H').
    + split.
      * intros [H|(f' & v' & Hf & Hk & Hr)].
        -- apply lookup_insert_Some in H as [[<- <-]|[? ?]]; [|by left].
           right. exists f, v. split; [left|]. done.
        -- right. exists f', v'. split; [by right|done].
      * intros [H|(f' & v' & Hf & Hk & Hg' & Hr)].
        -- left. rewrite lookup_insert_ne; [done|]. intros <-.
           assert (acc !! code_key f = None) as HN by (apply Hacc; left).
           unfold code_key in HN. congruence.
        -- apply elem_of_cons in Hf as [->|Hf].
           ++ left. rewrite Hg in Hg'. injection Hg' as <-. destruct Hr as [_ ->].
              subst k. apply lookup_insert.
           ++ right. exists f', v'. done.
    + intros f' Hf'. unfold code_key. rewrite lookup_insert_ne.
      * apply Hacc. by right.
      * intros [= Heq]. apply Hnin. rewrite Heq. by apply elem_of_list_fmap_1.
  - assert (empty_value v) as He.
    { unfold enc_outcome in Eo. case_bool_decide; [done|].
      destruct (pointee v); try done. by case_bool_decide. }
    destruct (f_req f); [done|]. intros H k x.
    rewrite (IH _ Ht Hnd) with (2 := H).
    + split.
      * intros [H'|(f' & v' & Hf & Hr)]; [by left|]. right. exists f', v'. split; [by right|done].
      * intros [H'|(f' & v' & Hf & Hk & Hg' & Hne & Hr)]; [by left|].
        apply elem_of_cons in Hf as [->|Hf].
        -- rewrite Hg in Hg'. injection Hg' as <-. done.
        -- right. exists f', v'. done.
    + intros f' Hf'. apply Hacc. by right.
Qed.
