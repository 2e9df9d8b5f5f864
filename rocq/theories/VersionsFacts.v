(** Facts about programs that know different record types: what one encodes and
    another decodes. *)
From Coq Require Import ZArith NArith Ascii String Lia.
From stdpp Require Import base gmap strings list.
From Verif Require Import GoBase Encoding SpecEncoding EncodingFacts CodecFacts DecodeFacts CodecTop Records CodecLemmas BuiltinFacts Messages UserMessages.

Local Open Scope list_scope.

(** ** Specification *)

(** The record with fields [fs] and values [vs] carries value [v] for codepoint
    [c]; it carries none. *)
Definition carries (fs : gofields) (vs : list goval) (c : N) (v : goval) : Prop := exists f, leaf_of fs vs f v /\ tf_code f = c /\ ~ empty_value v.
Definition lacks (fs : gofields) (vs : list goval) (c : N) : Prop := forall v, ~ carries fs vs c v.

(** Every attribute of [l2] that [l1] has too has the same type, pointers aside;
    what [l2] requires [l1] requires. *)
Definition compatible (l1 l2 : list tfield) : Prop :=
  (forall f1 f2, f1 ∈ l1 -> f2 ∈ l2 -> tf_code f1 = tf_code f2 -> base_type (tf_type f1) = base_type (tf_type f2)) /\
  (forall f2, f2 ∈ l2 -> tf_req f2 = true -> exists f1, f1 ∈ l1 /\ tf_code f1 = tf_code f2 /\ tf_req f1 = true).

(** ** One record *)

Section two.
Context (reg1 reg2 : registry) (Hwf1 : reg_wf reg1) (Hwf2 : reg_wf reg2).
Context (by_ptr : bool) (n1 n2 : string) (fs1 fs2 : gofields) (vs : list goval) (c : N) (a : attrset).
Context (Hr1 : registered reg1 (GStruct n1 fs1) c) (Hr2 : registered reg2 (GStruct n2 fs2) c).
Context (Hty : typed_fields fs1 vs) (Hfit : times_fit fs1 vs) (Hz1 : no_zero_code fs1) (Hz2 : no_zero_code fs2).
Context (He : Encode reg1 (record_any by_ptr (GStruct n1 fs1) (VStruct vs)) = EncOk a).

Lemma enc_zero : a !! KU32 0 = Some (AU32 c).
Proof. apply (encode_exact _ _ _ _ _ _ _ Hwf1 Hr1 Hty Hfit Hz1 He). by left. Qed.

Lemma enc_carries k x : k <> 0%N -> a !! KU32 k = Some x <-> exists v, carries fs1 vs k v /\ x = attr_of v.
Proof.
  intros Hk. rewrite (encode_exact _ _ _ _ _ _ _ Hwf1 Hr1 Hty Hfit Hz1 He). split.
  - intros [[[= E] _]|(f & v & Hl & [= ->] & Hne & ->)]; [done|]. exists v. split; [by exists f|done].
  - intros (v & (f & Hl & <- & Hne) & ->). right. by exists f, v.
Qed.

Lemma carries_dec k : (exists v, carries fs1 vs k v) \/ lacks fs1 vs k.
Proof.
  destruct (decide (k = 0%N)) as [->|Hk].
  - right. intros v (f & Hl & E & _). destruct (registered_attributes _ _ _ _ Hwf1 Hr1) as (l & Hat & _). eapply Hz1; [exact Hat| |exact E]. by eapply leaf_of_attribute.
  - destruct (a !! KU32 k) as [x|] eqn:E; [left; apply enc_carries in E as (v & Hv & _); [by exists v|done]|].
    right. intros v Hv. assert (a !! KU32 k = Some (attr_of v)) as E' by (apply enc_carries; [done|by exists v]). congruence.
Qed.

Lemma enc_lacks k : k <> 0%N -> lacks fs1 vs k -> a !! KU32 k = None.
Proof. intros Hk Hl. destruct (a !! KU32 k) as [x|] eqn:E; [|done]. apply enc_carries in E as (v & Hv & _); [|done]. by apply Hl in Hv. Qed.

Lemma versions_accept l2 : attributes fs2 l2 ->
  ((exists r, Decode reg2 (Some a) = Ok r) <->
   forall f2, f2 ∈ l2 -> (forall v, carries fs1 vs (tf_code f2) v -> wire_type_ok (tf_type f2) (attr_of v)) /\ (tf_req f2 = true -> ~ lacks fs1 vs (tf_code f2))) /\
  Decode reg2 (Some a) <> Panic.
Proof.
  intros Hat. destruct (decode_strict reg2 n2 fs2 c l2 a Hwf2 Hr2 Hat enc_zero) as [Hok Hpanic]. split.
  - rewrite Hok. split; intros H f2 Hin; specialize (H f2 Hin); pose proof (Hz2 l2 f2 Hat Hin) as Hk.
    + unfold attr_fine in H. split.
      * intros v Hv. assert (a !! KU32 (tf_code f2) = Some (attr_of v)) as E by (apply enc_carries; [done|by exists v]). by rewrite E in H.
      * intros Hreq Hl. rewrite (enc_lacks _ Hk Hl) in H. congruence.
    + unfold attr_fine. destruct H as [H1 H2]. destruct (a !! KU32 (tf_code f2)) as [x|] eqn:E.
      * apply enc_carries in E as (v & Hv & ->); [|done]. by apply H1.
      * destruct (tf_req f2) eqn:Er; [|done]. exfalso. apply H2; [done|]. intros v Hv.
        assert (a !! KU32 (tf_code f2) = Some (attr_of v)) as E' by (apply enc_carries; [done|by exists v]). congruence.
  - intros Hp. apply Hpanic in Hp as (l1 & f & l3 & -> & _ & _ & E). assert (f ∈ l1 ++ f :: l3) as Hin by (apply elem_of_app; right; left).
    apply enc_carries in E as (v & (f1 & Hl & _ & Hne) & E); [|by eapply Hz2].
    destruct (registered_attributes _ _ _ _ Hwf1 Hr1) as (l & Hat1 & Hnd & Hsup). assert (f1 ∈ l) as Hin1 by (by eapply leaf_of_attribute).
    destruct (attribute_leaf _ _ _ _ Hat1 Hty Hin1) as (w & Hw & Htw). destruct (leaf_of_fun_code fs1 vs l f1 v f1 w Hat1 Hnd Hl Hw eq_refl) as [_ <-].
    destruct (attr_of_nonempty (tf_type f1) v) as [H _]; [by eapply (proj1 (Forall_forall _ _) Hsup)|done|done|]. by apply H.
Qed.

Lemma versions_value r : Decode reg2 (Some a) = Ok r ->
  exists ws, r = record_any true (GStruct n2 fs2) (VStruct ws) /\
    forall f2 w, leaf_of fs2 ws f2 w ->
      (forall v, carries fs1 vs (tf_code f2) v -> attr_of w = attr_of v) /\
      (lacks fs1 vs (tf_code f2) -> w = zero_value (tf_type f2)).
Proof.
  intros Hd. destruct (registered_attributes _ _ _ _ Hwf2 Hr2) as (l2 & Hat & Hnd & Hsup).
  rewrite (Decode_registered reg2 n2 fs2 c a Hwf2 Hr2 enc_zero) in Hd. destruct (dec_struct a fs2 (zero_fields fs2)) as [ws| |] eqn:Ews; try done. injection Hd as <-.
  exists ws. split; [done|]. intros f2 w Hl. pose proof (dec_struct_ok a fs2 ws l2 Hat Hsup Ews f2 w Hl) as Hok.
  assert (f2 ∈ l2) as Hin by (by eapply leaf_of_attribute). pose proof (Hz2 l2 f2 Hat Hin) as Hk. split.
  - intros v Hv. assert (a !! KU32 (tf_code f2) = Some (attr_of v)) as E by (apply enc_carries; [done|by exists v]). rewrite E in Hok. destruct Hok as [Hw ->].
    by apply dec_attr_value_attr.
  - intros Hla. rewrite (enc_lacks _ Hk Hla) in Hok. apply Hok.
Qed.

Lemma wire_of_typed t v : supported t -> typed t v -> ~ empty_value v -> (forall tm, pointee v = VTime tm -> fits_int64 tm /\ (tm = zero_time \/ ~ before_epoch tm)) -> wire_type_ok t (attr_of v).
Proof.
  intros Hs. revert v. induction Hs as [k| |t Hs IH]; intros v Hv Hne Htm.
  - destruct k, v; done.
  - destruct v; try done. cbn in *. destruct (Htm _ eq_refl) as [Hf [->|Hb]]; [destruct Hne; reflexivity|]. unfold fits_int64, before_epoch in *. lia.
  - destruct v as [| | | | | |[v'|]| |]; try done. exact (IH v' Hv Hne Htm).
Qed.

Lemma versions_compatible l1 l2 : attributes fs1 l1 -> attributes fs2 l2 -> compatible l1 l2 -> exists r, Decode reg2 (Some a) = Ok r.
Proof.
  intros Hat1 Hat2 [Hc1 Hc2]. apply (versions_accept l2 Hat2). intros f2 Hin2.
  destruct (registered_attributes _ _ _ _ Hwf1 Hr1) as (l & Hat & Hnd & Hsup). rewrite (attributes_fun _ _ _ Hat Hat1) in *. clear l Hat.
  destruct (encode_iff reg1 by_ptr n1 fs1 vs c Hwf1 Hr1 Hty Hfit) as [[Hi _] _]. specialize (Hi (ex_intro _ a He)). split.
  - intros v (f1 & Hl & Ec & Hne). assert (f1 ∈ l1) as Hin1 by (by eapply leaf_of_attribute).
    destruct (attribute_leaf _ _ _ _ Hat1 Hty Hin1) as (w & Hw & Htw). destruct (leaf_of_fun_code fs1 vs l1 f1 v f1 w Hat1 Hnd Hl Hw eq_refl) as [_ <-].
    assert (wire_type_ok (tf_type f1) (attr_of v)) as Hok.
    { apply wire_of_typed; [by eapply (proj1 (Forall_forall _ _) Hsup)|done|done|]. intros tm Et. split; [by eapply Hfit|]. destruct (Hi f1 v Hl) as [_ Hi']. by apply Hi'. }
    unfold wire_type_ok in *. by rewrite <- (Hc1 f1 f2 Hin1 Hin2 Ec).
  - intros Hreq. destruct (Hc2 f2 Hin2 Hreq) as (f1 & Hin1 & Ec & Hreq1). destruct (attribute_leaf _ _ _ _ Hat1 Hty Hin1) as (v & Hl & _).
    intros Hla. apply (Hla v). exists f1. split; [done|]. split; [done|]. destruct (Hi f1 v Hl) as [Hi' _]. by apply Hi'.
Qed.
End two.

(** ** Messages *)

Lemma user_encode_spec reg rs :
  (forall l, user_encode_records reg rs = Ok l <-> Forall2 (fun x e => exists a, e = EMap (Some a) /\ Encode reg x = EncOk a) rs l) /\
  ((forall l, user_encode_records reg rs <> Ok l) -> exists rs1 x rs2, rs = rs1 ++ x :: rs2 /\ (forall y, y ∈ rs1 -> exists a, Encode reg y = EncOk a) /\
     ((exists p e, Encode reg x = EncErr p e /\ user_encode_records reg rs = Err e) \/ Encode reg x = EncPanic /\ user_encode_records reg rs = Panic)).
Proof.
  induction rs as [|x rs [IH1 IH2]]; cbn [user_encode_records].
  - split; [intros l; split; [intros [= <-]; constructor|intros H; by inversion H]|]. intros H. by destruct (H []).
  - destruct (Encode reg x) as [a|p e|] eqn:Ex.
    + destruct (user_encode_records reg rs) as [l0|e|] eqn:Er; cbn [res_bind].
      * split; [|intros H; by destruct (H (EMap (Some a) :: l0))]. intros l. split.
        -- intros [= <-]. constructor; [by exists a|]. by apply IH1.
        -- intros H. inversion H as [|? e ? l' (a' & -> & E) HF]; subst. apply IH1 in HF. congruence.
      * split. { intros l. split; [done|]. intros H. inversion H as [|? e' ? l' (a' & -> & E) HF]; subst. by apply IH1 in HF. }
        intros _. destruct IH2 as (rs1 & y & rs2 & -> & Hall & Hcase); [done|]. exists (x :: rs1), y, rs2. split; [done|].
        split; [|exact Hcase]. intros z [->|Hz]%elem_of_cons; [by exists a|by apply Hall].
      * split. { intros l. split; [done|]. intros H. inversion H as [|? e' ? l' (a' & -> & E) HF]; subst. by apply IH1 in HF. }
        intros _. destruct IH2 as (rs1 & y & rs2 & -> & Hall & Hcase); [done|]. exists (x :: rs1), y, rs2. split; [done|].
        split; [|exact Hcase]. intros z [->|Hz]%elem_of_cons; [by exists a|by apply Hall].
    + split. { intros l. split; [done|]. intros H. inversion H as [|? e' ? l' (a' & _ & E) HF]; congruence. }
      intros _. exists [], x, rs. split; [done|]. split; [intros y Hy; by apply elem_of_nil in Hy|]. left. by exists p, e.
    + split. { intros l. split; [done|]. intros H. inversion H as [|? e' ? l' (a' & _ & E) HF]; congruence. }
      intros _. exists [], x, rs. split; [done|]. split; [intros y Hy; by apply elem_of_nil in Hy|]. by right.
Qed.

(** The element decodes to a record. *)
Definition elem_ok (reg : registry) (implements : gotype -> bool) (e : melem) (y : goany) : Prop :=
  exists a t v, e = EMap a /\ Decode reg a = Ok y /\ y = AnyVal t v /\ implements t = true.

Lemma user_decode_spec reg implements l acc :
  exists l1 rs l2, l = l1 ++ l2 /\ Forall2 (elem_ok reg implements) l1 rs /\
    ((l2 = [] /\ user_decode_list reg implements l acc = RDone (acc ++ rs) None) \/
     exists e l3, l2 = e :: l3 /\ (forall y, ~ elem_ok reg implements e y) /\
       ((exists a, e = EMap a /\ Decode reg a = Panic /\ user_decode_list reg implements l acc = RPanic) \/
        (forall a, e = EMap a -> Decode reg a <> Panic) /\ exists er, user_decode_list reg implements l acc = RDone (acc ++ rs) (Some er))).
Proof.
  revert acc. induction l as [|e l IH]; intros acc; cbn [user_decode_list].
  { exists [], [], []. split; [done|]. split; [constructor|]. left. by rewrite app_nil_r. }
  destruct e as [a|what].
  2:{ exists [], [], (EOther what :: l). split; [done|]. split; [constructor|]. right. exists (EOther what), l. split; [done|].
      split; [by intros y (a & t & v & H & _)|]. right. split; [done|]. rewrite app_nil_r. by eexists. }
  destruct (Decode reg a) as [x|er|] eqn:Ed.
  - destruct (is_a_record implements x) eqn:Ei.
    + destruct (IH (acc ++ [x])) as (l1 & rs & l2 & -> & HF & Hcase). exists (EMap a :: l1), (x :: rs), l2. split; [done|].
      split. { constructor; [|done]. destruct x as [|t v]; [discriminate Ei|]. by exists a, t, v. }
      replace (acc ++ x :: rs) with ((acc ++ [x]) ++ rs) by (by rewrite <- app_assoc). exact Hcase.
    + exists [], [], (EMap a :: l). split; [done|]. split; [constructor|]. right. exists (EMap a), l. split; [done|].
      split. { intros y (a' & t & v & [= <-] & E & -> & Hi). rewrite Ed in E. injection E as ->. cbn in Ei. congruence. }
      right. split; [intros a' [= <-]; congruence|]. rewrite app_nil_r. by eexists.
  - exists [], [], (EMap a :: l). split; [done|]. split; [constructor|]. right. exists (EMap a), l. split; [done|].
    split. { intros y (a' & t & v & [= <-] & E & _). congruence. }
    right. split; [intros a' [= <-]; congruence|]. rewrite app_nil_r. by eexists.
  - exists [], [], (EMap a :: l). split; [done|]. split; [constructor|]. right. exists (EMap a), l. split; [done|].
    split. { intros y (a' & t & v & [= <-] & E & _). congruence. }
    left. by exists a.
Qed.

(** ** The built-in registry *)

(** Pointers to records implement Record if the type does. *)
Definition builtin_implements (t : gotype) : bool :=
  match t with
  | GPtr t' => match get_type_meta t' with Some _ => true | None => false end
  | _ => match get_type_meta t with Some _ => true | None => false end
  end.

Lemma builtin_encode rs : user_encode_records vanflow_registry (record_iface <$> rs) = encode_records rs.
Proof. induction rs as [|r rs IH]; [done|]. cbn [user_encode_records fmap list_fmap encode_records]. destruct (Encode vanflow_registry (record_iface r)); [|done..]. by rewrite <- IH. Qed.

Lemma Decode_pointer reg a x : Decode reg a = Ok x -> exists t v, x = AnyVal (GPtr t) (VPtr (Some v)).
Proof.
  unfold Decode. destruct a as [a|]; [|done]. destruct (a !! type_of_record) as [[]|]; try done. destruct (decodings reg !! n) as [te|]; [|done].
  destruct (decode_fields (te_fields te) a (zero_value (te_t te))); [|done..]. intros [= <-]. by do 2 eexists.
Qed.

Lemma builtin_decode l acc : user_decode_list vanflow_registry builtin_implements l (record_iface <$> acc) =
  match decode_record_list l acc with RDone rs e => RDone (record_iface <$> rs) e | RPanic => RPanic end.
Proof.
  revert acc. induction l as [|e l IH]; intros acc; cbn [user_decode_list decode_record_list]; [done|]. destruct e as [a|what]; [|done].
  destruct (Decode vanflow_registry a) as [x|er|] eqn:Ed; [|done..]. apply Decode_pointer in Ed as (t & v & ->). cbn [is_a_record builtin_implements as_record].
  destruct (get_type_meta t); [|done]. rewrite <- IH, fmap_app. done.
Qed.

(** What Encode puts into a set is never nil. *)
Lemma Encode_no_nil reg x a : Encode reg x = EncOk a -> forall k, a !! k <> Some ANil.
Proof.
  assert (forall fs v acc b, encode_fields fs v acc = EncOk b -> (forall k, acc !! k <> Some ANil) -> forall k, b !! k <> Some ANil) as H.
  { induction fs as [|f fs IH]; intros v acc b E Hacc; cbn [encode_fields] in E; [by injection E as <-|].
    destruct (get_path (f_index f) v); [|done]. destruct (run_enc (f_enc f) g) as [y| | |]; [|destruct (f_req f); [done|by eapply IH]|done..].
    assert (y = ANil \/ (y <> ANil /\ encode_fields fs v (<[KU32 (f_code f) := y]> acc) = EncOk b)) as [->|[Hy E']] by (destruct y; first [by left|right; by split]).
    - by eapply IH.
    - eapply IH; [exact E'|]. intros k. destruct (decide (k = KU32 (f_code f))) as [->|Hne]; [rewrite lookup_insert; congruence|by rewrite lookup_insert_ne]. }
  assert (forall te v b, encode_with te v = EncOk b -> forall k, b !! k <> Some ANil) as Hw.
  { intros te v b. unfold encode_with. destruct (encode_fields (te_fields te) v ∅) as [b0|[]|] eqn:E; try done. intros [= <-] k.
    destruct (decide (k = type_of_record)) as [->|Hne]; [rewrite lookup_insert; congruence|rewrite lookup_insert_ne by done].
    eapply H; [exact E|]. intros k'. by rewrite lookup_empty. }
  destruct x as [|t v]; [done|]. cbn [Encode]. destruct (lookup_encoding t (encodings reg)); [apply Hw|]. destruct t; try done. destruct v as [| | | | | |[v'|]| |]; try done.
  destruct (lookup_encoding t (encodings reg)); [apply Hw|done].
Qed.
