(** What Encode and Decode do with attributes of user-defined types. *)
From Coq Require Import ZArith NArith String Lia.
From stdpp Require Import base gmap strings list.
From Verif Require Import GoBase Encoding SpecEncoding UserCodec.

(** * Specification *)

(** The type below all pointers, and how many pointers there are. *)
Fixpoint base_of (t : utype) : tdesc :=
  match t with UB d => d | UP t' => base_of t' end.
Fixpoint depth (t : utype) : nat :=
  match t with UB _ => 0 | UP t' => S (depth t') end.

(** What a value's pointers lead to; [None]: to a nil pointer. *)
Fixpoint reach (v : uv) : option bval :=
  match v with
  | VB b => Some b
  | VP None => None
  | VP (Some v') => reach v'
  end.

(** [n] non-nil pointers leading to [b]. *)
Fixpoint ptrs (n : nat) (b : bval) : uv :=
  match n with
  | 0 => VB b
  | S n' => VP (Some (ptrs n' b))
  end.

(** The kind of a string or number. *)
Definition of_kind (k : prim) (a : attr) : Prop :=
  match k, a with
  | PStr, AStr _ | PU64, AU64 _ | PI64, AI64 _
  | PU32, AU32 _ | PI32, AI32 _ => True
  | _, _ => False
  end.

Definition base_has (d : tdesc) (b : bval) : Prop :=
  match td_kind d, b with
  | TPrim k, BPrim a => of_kind k a
  | TIface, BIface _ => True
  | TOther, BOpaque _ => True
  | _, _ => False
  end.

(** Values of a type. *)
Fixpoint has_type (t : utype) (v : uv) : Prop :=
  match t, v with
  | UB d, VB b => base_has d b
  | UP _, VP None => True
  | UP t', VP (Some v') => has_type t' v'
  | _, _ => False
  end.

(** Interfaces have no pointer receivers. *)
Definition possible (d : tdesc) : Prop :=
  td_kind d = TIface -> td_enc d <> RPtr /\ td_dec d <> RPtr.

(** A field of this type is encoded by the type's own method: it has one on
    the value, or it has one on the pointer and the field is a pointer. *)
Definition own_enc (t : utype) : bool :=
  match td_enc (base_of t) with
  | RNo => false
  | RVal => true
  | RPtr => match depth t with 0 => false | S _ => true end
  end.

(** A field of this type is decoded by the type's own method: it has one. *)
Definition own_dec (t : utype) : bool :=
  match td_dec (base_of t) with RNo => false | _ => true end.

Definition raw_kind (t : utype) : bool :=
  match td_kind (base_of t) with TPrim _ => true | _ => false end.

Definition is_iface (t : utype) : bool :=
  match td_kind (base_of t) with TIface => true | _ => false end.

(** What Encode makes of a field. *)
Definition out_of (cs : codecs) (t : utype) (v : uv) : uout :=
  match reach v with
  | None => UONotSet
  | Some b =>
      if own_enc t then
        match b with
        | BIface None => UOPanic
        | _ => c_enc cs (td_name (base_of t)) b
        end
      else
        match b with
        | BPrim a =>
            if prim_is_zero a then UONotSet else UOVal (Dyn (td_name (base_of t)) a)
        | _ => UOPanic
        end
  end.

(** What Decode makes of an attribute: the contents the field's pointers lead
    to. *)
Definition in_of (cs : codecs) (t : utype) (a : dyn) : res unit bval :=
  let d := base_of t in
  if own_dec t then
    if is_iface t then Panic
    else
      match c_dec cs (td_name d) a (zero_base d) with
      | Ok b => match td_dec d with RVal => Ok (zero_base d) | _ => Ok b end
      | Err e => Err e
      | Panic => Panic
      end
  else
    match td_kind d with
    | TPrim k =>
        match dy_val a with
        | ANil => Panic
        | _ => if same_type d k a then Ok (BPrim (dy_val a)) else Err tt
        end
    | _ => Panic
    end.

(** A record's value: one value per field, each of the field's type. *)
Definition typed_record (fs : list ufield) (vs : list uv) : Prop :=
  Forall2 (fun f v => has_type (uf_type f) v) fs vs.

(** Every field's type is a type Go can have. *)
Definition possible_fields (fs : list ufield) : Prop :=
  Forall (fun f => possible (base_of (uf_type f))) fs.

Definition is_nil (a : dyn) : Prop := dy_val a = ANil.

(** * Registration *)

Lemma uget_enc_some t :
  possible (base_of t) ->
  uget_enc t <> None <-> own_enc t = true \/ raw_kind t = true.
Proof.
  unfold own_enc, raw_kind. induction t as [d|t IH]; intros Hp; cbn [base_of depth] in *.
  - cbn. destruct (td_enc d), (td_kind d); cbn; split; intuition congruence.
  - destruct t as [d|t].
    + cbn. destruct (td_kind d) eqn:Ek, (td_enc d) eqn:Ee; cbn;
        try (split; intuition congruence);
        try (rewrite Ek, Ee in Hp); try (rewrite Ek; cbn);
        try (split; intuition congruence).
      all: destruct (Hp Ek) as [Ha Hb]; cbn in Ha, Hb; congruence.
    + specialize (IH Hp). cbn [base_of depth] in *.
      assert (Hg : uget_enc (UP (UP t)) = match uget_enc (UP t) with
        | Some e => Some (EncPtr e) | None => None end) by reflexivity.
      rewrite Hg. transitivity (uget_enc (UP t) <> None).
      { destruct (uget_enc (UP t)); split; congruence. }
      exact IH.
Qed.

Lemma uget_dec_some t :
  possible (base_of t) ->
  uget_dec t <> None <-> own_dec t = true \/ raw_kind t = true.
Proof.
  unfold own_dec, raw_kind. induction t as [d|t IH]; intros Hp; cbn [base_of depth] in *.
  - cbn. destruct (td_kind d) eqn:Ek, (td_dec d) eqn:Ee; cbn; try (split; intuition congruence).
    destruct (Hp Ek) as [Ha Hb]; cbn in Ha, Hb; congruence.
  - destruct t as [d|t].
    + cbn. destruct (td_kind d) eqn:Ek, (td_dec d) eqn:Ee; cbn;
        try (split; intuition congruence).
      destruct (Hp Ek) as [Ha Hb]; cbn in Ha, Hb; congruence.
    + specialize (IH Hp). cbn [base_of depth] in *.
      assert (Hg : uget_dec (UP (UP t)) = match uget_dec (UP t) with
        | Some e => Some (DecPtr e) | None => None end) by reflexivity.
      rewrite Hg. transitivity (uget_dec (UP t) <> None).
      { destruct (uget_dec (UP t)); split; congruence. }
      exact IH.
Qed.

Lemma codes_spec fs seen :
  ucodes_distinct fs seen = true <->
  NoDup (map uf_code fs) /\ Forall (fun f => uf_code f ∉ seen) fs.
Proof.
  revert seen; induction fs as [|f fs IH]; intros seen; cbn.
  - split; [intros _; split; constructor | done].
  - case_bool_decide as Hin.
    + split; [discriminate|]. intros [_ H]. inversion H; subst. contradiction.
    + rewrite IH. rewrite NoDup_cons, Forall_cons. split.
      * intros [Hnd Hfa]. rewrite Forall_forall in Hfa. split; [split|split].
        -- rewrite elem_of_list_In, in_map_iff. intros [g [Hg Hgin]].
           apply elem_of_list_In in Hgin. destruct (Hfa g Hgin).
           rewrite Hg. apply elem_of_list_here.
        -- exact Hnd.
        -- exact Hin.
        -- rewrite Forall_forall. intros g Hg Hs. destruct (Hfa g Hg).
           apply elem_of_list_further, Hs.
      * intros [[Hn Hnd] [_ Hfa]]. split; [exact Hnd|].
        rewrite Forall_forall in *. intros g Hg Hs.
        apply elem_of_cons in Hs. destruct Hs as [Hs|Hs].
        -- apply Hn. rewrite elem_of_list_In, in_map_iff. exists g.
           split; [exact Hs|]. apply elem_of_list_In, Hg.
        -- exact (Hfa g Hg Hs).
Qed.

Lemma accepts fs :
  possible_fields fs ->
  uregister fs = true <->
  NoDup (map uf_code fs) /\
  Forall (fun f => raw_kind (uf_type f) = true \/
                   own_enc (uf_type f) = true /\ own_dec (uf_type f) = true) fs.
Proof.
  intros Hp. unfold uregister. rewrite andb_true_iff, codes_spec, forallb_forall.
  assert (Hfields : (forall f, In f fs ->
      match uget_enc (uf_type f), uget_dec (uf_type f) with
      | Some _, Some _ => true | _, _ => false end = true) <->
      Forall (fun f => raw_kind (uf_type f) = true \/
                   own_enc (uf_type f) = true /\ own_dec (uf_type f) = true) fs).
  { rewrite Forall_forall. unfold possible_fields in Hp. rewrite Forall_forall in Hp.
    split; intros H f Hf.
    - pose proof (uget_enc_some _ (Hp f Hf)) as He.
      pose proof (uget_dec_some _ (Hp f Hf)) as Hd.
      apply elem_of_list_In in Hf. specialize (H f Hf).
      destruct (uget_enc (uf_type f)); [|discriminate].
      destruct (uget_dec (uf_type f)); [|discriminate].
      destruct He as [He _]. destruct Hd as [Hd _].
      destruct He as [He|He]; [congruence| |left; exact He].
      destruct Hd as [Hd|Hd]; [congruence| |left; exact Hd].
      right; split; assumption.
    - apply elem_of_list_In in Hf. specialize (H f Hf).
      pose proof (uget_enc_some _ (Hp f Hf)) as [_ He].
      pose proof (uget_dec_some _ (Hp f Hf)) as [_ Hd].
      destruct H as [H|[H1 H2]].
      + specialize (He (or_intror H)). specialize (Hd (or_intror H)).
        destruct (uget_enc (uf_type f)); [|congruence].
        destruct (uget_dec (uf_type f)); [reflexivity|congruence].
      + specialize (He (or_introl H1)). specialize (Hd (or_introl H2)).
        destruct (uget_enc (uf_type f)); [|congruence].
        destruct (uget_dec (uf_type f)); [reflexivity|congruence]. }
  rewrite Hfields. split.
  - intros [H [Hnd _]]. split; assumption.
  - intros [Hnd H]. split; [exact H|]. split; [exact Hnd|].
    rewrite Forall_forall. intros f _ Hin. inversion Hin.
Qed.

(** * One field *)

Lemma run_enc_spec cs t e v :
  possible (base_of t) ->
  uget_enc t = Some e -> has_type t v -> urun_enc cs e t v = out_of cs t v.
Proof.
  unfold out_of, own_enc. revert e v.
  induction t as [d|t IH]; intros e v Hp He Hv; cbn [base_of depth] in *.
  - destruct v as [b|]; [|destruct Hv]. cbn in He, Hv. cbn [reach].
    unfold base_has in Hv.
    destruct (td_enc d), (td_kind d) eqn:Ek; inversion He; subst; cbn;
      destruct b as [| |[|]]; try destruct Hv; reflexivity.
  - destruct v as [|[v|]]; [destruct Hv| |].
    2:{ cbn [reach]. destruct t as [d|t]; cbn in He.
        - destruct (td_kind d), (td_enc d); inversion He; subst; reflexivity.
        - destruct (uget_enc (UP t)) eqn:Hsub; cbn in He, Hsub; rewrite Hsub in He;
            inversion He; subst; reflexivity. }
    cbn [has_type reach] in *. destruct t as [d|t].
    + destruct v as [b|]; [|destruct Hv]. cbn [has_type reach base_of depth] in *.
      cbn in He. unfold base_has in Hv.
      destruct (td_kind d) eqn:Ek, (td_enc d) eqn:Ee; inversion He; subst; cbn;
        destruct b as [| |[|]]; try destruct Hv; try reflexivity.
      all: try (destruct (Hp Ek) as [Ha Hb]; cbn in Ha, Hb; congruence).
    + assert (Hg : uget_enc (UP (UP t)) = match uget_enc (UP t) with
        | Some e => Some (EncPtr e) | None => None end) by reflexivity.
      rewrite Hg in He. destruct (uget_enc (UP t)) as [sub|] eqn:Hsub; [|discriminate].
      inversion He; subst. cbn [urun_enc].
      rewrite (IH sub v Hp eq_refl Hv). reflexivity.
Qed.

Definition wrap (n : nat) (r : res unit bval) : res unit uv :=
  match r with
  | Ok b => Ok (ptrs n b)
  | Err e => Err e
  | Panic => Panic
  end.

Lemma run_dec_spec cs t e a :
  possible (base_of t) ->
  uget_dec t = Some e ->
  urun_dec cs e t a (zero_uv t) = wrap (depth t) (in_of cs t a).
Proof.
  unfold in_of, own_dec, is_iface. revert e.
  induction t as [d|t IH]; intros e Hp He; cbn [base_of depth] in *.
  - cbn in He. destruct (td_dec d) eqn:Ed, (td_kind d) eqn:Ek; inversion He; subst; cbn;
      unfold zero_base, call_dec; rewrite ?Ek, ?Ed; cbn; try reflexivity;
      try (destruct (dy_val a); try reflexivity; destruct (same_type d k a); reflexivity);
      try (destruct (c_dec cs (td_name d) a _); reflexivity).
    all: try (destruct (Hp Ek) as [Ha Hb]; cbn in Ha, Hb; congruence).
  - destruct t as [d|t].
    + cbn in He. cbn [base_of depth zero_uv].
      destruct (td_kind d) eqn:Ek, (td_dec d) eqn:Ed; inversion He; subst; cbn;
        unfold zero_base, call_dec; rewrite ?Ek, ?Ed; cbn; try reflexivity;
        try (destruct (dy_val a); try reflexivity; destruct (same_type d k a); reflexivity);
        try (destruct (c_dec cs (td_name d) a _); reflexivity).
      all: try (destruct (Hp Ek) as [Ha Hb]; cbn in Ha, Hb; congruence).
    + assert (Hg : uget_dec (UP (UP t)) = match uget_dec (UP t) with
        | Some e => Some (DecPtr e) | None => None end) by reflexivity.
      rewrite Hg in He. destruct (uget_dec (UP t)) as [sub|] eqn:Hsub; [|discriminate].
      inversion He; subst. cbn [urun_dec zero_uv].
      change (VP None) with (zero_uv (UP t)).
      rewrite (IH sub Hp eq_refl). cbn [base_of depth].
      unfold wrap. destruct (if _ : bool then _ else _); reflexivity.
Qed.

(** * Whole records *)

Lemma registered_enc fs f :
  uregister fs = true -> f ∈ fs -> exists e, uget_enc (uf_type f) = Some e.
Proof.
  unfold uregister. rewrite andb_true_iff, forallb_forall. intros [H _] Hf.
  apply elem_of_list_In in Hf. specialize (H f Hf).
  destruct (uget_enc (uf_type f)) as [e|]; [exists e; reflexivity|discriminate].
Qed.

Lemma registered_dec fs f :
  uregister fs = true -> f ∈ fs -> exists e, uget_dec (uf_type f) = Some e.
Proof.
  unfold uregister. rewrite andb_true_iff, forallb_forall. intros [H _] Hf.
  apply elem_of_list_In in Hf. specialize (H f Hf).
  destruct (uget_enc (uf_type f)); [|discriminate].
  destruct (uget_dec (uf_type f)) as [e|]; [exists e; reflexivity|discriminate].
Qed.

Lemma registered_codes fs : uregister fs = true -> NoDup (map uf_code fs).
Proof.
  unfold uregister. rewrite andb_true_iff, codes_spec. intros [_ [H _]]. exact H.
Qed.

(** What a field leaves in the attribute set. *)
Definition left_by (o : uout) : option dyn :=
  match o with
  | UOVal (Dyn _ ANil) => None
  | UOVal a => Some a
  | _ => None
  end.

(** A field that does not make Encode fail. *)
Definition fine (req : bool) (o : uout) : Prop :=
  match o with
  | UOVal _ => True
  | UONotSet => req = false
  | UOErr | UOPanic => False
  end.

(** Fields chosen one by one. *)
Definition chosen (fs : list ufield) : Prop :=
  Forall (fun f => possible (base_of (uf_type f)) /\
                   (exists e, uget_enc (uf_type f) = Some e) /\
                   (exists e, uget_dec (uf_type f) = Some e)) fs.

Lemma registered_chosen fs :
  possible_fields fs -> uregister fs = true -> chosen fs.
Proof.
  intros Hp Hr. unfold chosen, possible_fields in *. rewrite Forall_forall in *.
  intros f Hf. split; [exact (Hp f Hf)|]. split.
  - exact (registered_enc fs f Hr Hf).
  - exact (registered_dec fs f Hr Hf).
Qed.

Lemma encode_fields_spec cs fs vs acc m :
  chosen fs -> typed_record fs vs -> NoDup (map uf_code fs) ->
  uencode_fields cs fs vs acc = UEncOk m ->
  (forall i f v, fs !! i = Some f -> vs !! i = Some v ->
     fine (uf_req f) (out_of cs (uf_type f) v) /\
     (m !! uf_code f = match left_by (out_of cs (uf_type f) v) with
                       | Some a => Some a
                       | None => acc !! uf_code f
                       end)) /\
  (forall c, c ∉ map uf_code fs -> m !! c = acc !! c).
Proof.
  revert vs acc; induction fs as [|f fs IH]; intros vs acc Hc Ht Hnd He.
  - cbn in He. inversion He; subst. split; [|reflexivity].
    intros i f v Hi. rewrite lookup_nil in Hi. discriminate.
  - inversion Ht as [|? v ? vs' Hv Ht' H1 H2]; subst.
    inversion Hc as [|? ? [Hpo [[e Hge] _]] Hc']; subst.
    cbn [map] in Hnd. apply NoDup_cons in Hnd. destruct Hnd as [Hn Hnd].
    cbn [uencode_fields] in He. rewrite Hge in He.
    rewrite (run_enc_spec cs _ _ _ Hpo Hge Hv) in He.
    destruct (out_of cs (uf_type f) v) as [a| | |] eqn:Ho; try discriminate.
    + assert (Hex : exists acc', uencode_fields cs fs vs' acc' = UEncOk m /\
          acc' !! uf_code f = match left_by (UOVal a) with
                              | Some a => Some a | None => acc !! uf_code f end /\
          (forall c, c <> uf_code f -> acc' !! c = acc !! c)).
      { destruct a as [n a]. destruct a;
          [exists (<[uf_code f := Dyn n (AStr s)]> acc)
          |exists (<[uf_code f := Dyn n (AU32 n0)]> acc)
          |exists (<[uf_code f := Dyn n (AU64 n0)]> acc)
          |exists (<[uf_code f := Dyn n (AI32 z)]> acc)
          |exists (<[uf_code f := Dyn n (AI64 z)]> acc)
          |exists acc
          |exists (<[uf_code f := Dyn n (AOther what)]> acc)];
          (split; [exact He|]); cbn [left_by];
          (split; [first [apply lookup_insert | reflexivity]
                  | intros c Hcne; first [apply lookup_insert_ne; congruence | reflexivity]]). }
      destruct Hex as [acc' [He' [Hacc Hother]]].
      destruct (IH vs' acc' Hc' Ht' Hnd He') as [IH1 IH2]. split.
      * intros i g w Hi Hw. destruct i as [|i].
        -- cbn in Hi, Hw. inversion Hi; inversion Hw; subst. rewrite Ho.
           split; [exact I|]. rewrite (IH2 (uf_code g) Hn). exact Hacc.
        -- cbn in Hi, Hw. destruct (IH1 i g w Hi Hw) as [Hf Hm]. split; [exact Hf|].
           rewrite Hm. destruct (left_by (out_of cs (uf_type g) w)); [reflexivity|].
           apply Hother. intros Heq. apply Hn. rewrite <- Heq.
           apply elem_of_list_In, in_map_iff. exists g. split; [reflexivity|].
           apply elem_of_list_In. exact (elem_of_list_lookup_2 _ _ _ Hi).
      * intros c Hcn. cbn [map] in Hcn. apply not_elem_of_cons in Hcn.
        destruct Hcn as [Hc1 Hc2]. rewrite (IH2 c Hc2). apply Hother, Hc1.
    + destruct (uf_req f) eqn:Hreq; [discriminate|].
      destruct (IH vs' acc Hc' Ht' Hnd He) as [IH1 IH2]. split.
      * intros i g w Hi Hw. destruct i as [|i].
        -- cbn in Hi, Hw. inversion Hi; inversion Hw; subst. rewrite Ho.
           split; [exact Hreq|]. cbn [left_by]. exact (IH2 (uf_code g) Hn).
        -- cbn in Hi, Hw. exact (IH1 i g w Hi Hw).
      * intros c Hcn. cbn [map] in Hcn. apply not_elem_of_cons in Hcn.
        destruct Hcn as [Hc1 Hc2]. exact (IH2 c Hc2).
Qed.

Lemma encode_fields_ok cs fs vs acc :
  chosen fs -> typed_record fs vs ->
  (forall i f v, fs !! i = Some f -> vs !! i = Some v ->
     fine (uf_req f) (out_of cs (uf_type f) v)) ->
  exists m, uencode_fields cs fs vs acc = UEncOk m.
Proof.
  revert vs acc; induction fs as [|f fs IH]; intros vs acc Hc Ht Hf.
  - exists acc. reflexivity.
  - inversion Ht as [|? v ? vs' Hv Ht' H1 H2]; subst.
    inversion Hc as [|? ? [Hpo [[e Hge] _]] Hc']; subst.
    cbn [uencode_fields]. rewrite Hge, (run_enc_spec cs _ _ _ Hpo Hge Hv).
    pose proof (Hf 0 f v eq_refl eq_refl) as H0.
    assert (Hrest : forall i g w, fs !! i = Some g -> vs' !! i = Some w ->
        fine (uf_req g) (out_of cs (uf_type g) w))
      by (intros i g w Hi Hw; exact (Hf (S i) g w Hi Hw)).
    destruct (out_of cs (uf_type f) v) as [a| | |]; cbn [fine] in H0; try contradiction.
    + destruct a as [n a]. destruct a; exact (IH vs' _ Hc' Ht' Hrest).
    + rewrite H0. exact (IH vs' _ Hc' Ht' Hrest).
Qed.

Lemma encode_spec cs code fs vs :
  possible_fields fs -> uregister fs = true -> typed_record fs vs ->
  (forall m, UEncode cs code fs vs = UEncOk m ->
     m !! 0%N = Some (Dyn None (AU32 code)) /\
     (forall i f v, fs !! i = Some f -> vs !! i = Some v -> uf_code f <> 0%N ->
        m !! uf_code f = left_by (out_of cs (uf_type f) v)) /\
     (forall c, c <> 0%N -> c ∉ map uf_code fs -> m !! c = None)) /\
  ((exists m, UEncode cs code fs vs = UEncOk m) <->
   (forall i f v, fs !! i = Some f -> vs !! i = Some v ->
      fine (uf_req f) (out_of cs (uf_type f) v))).
Proof.
  intros Hp Hr Ht. pose proof (registered_chosen fs Hp Hr) as Hc.
  pose proof (registered_codes fs Hr) as Hnd. split; [|split].
  - intros m Hm. unfold UEncode in Hm.
    destruct (uencode_fields cs fs vs ∅) as [a| |] eqn:He; try discriminate.
    inversion Hm; subst.
    destruct (encode_fields_spec cs fs vs ∅ a Hc Ht Hnd He) as [H1 H2].
    split; [apply lookup_insert|]. split.
    + intros i f v Hi Hv Hnz. rewrite lookup_insert_ne by congruence.
      destruct (H1 i f v Hi Hv) as [_ H]. rewrite H.
      destruct (left_by _); [reflexivity|]. apply lookup_empty.
    + intros c Hc0 Hcn. rewrite lookup_insert_ne by congruence.
      rewrite (H2 c Hcn). apply lookup_empty.
  - intros [m Hm] i f v Hi Hv. unfold UEncode in Hm.
    destruct (uencode_fields cs fs vs ∅) as [a| |] eqn:He; try discriminate.
    destruct (encode_fields_spec cs fs vs ∅ a Hc Ht Hnd He) as [H1 _].
    exact (proj1 (H1 i f v Hi Hv)).
  - intros Hf. destruct (encode_fields_ok cs fs vs ∅ Hc Ht Hf) as [a Ha].
    unfold UEncode. rewrite Ha. eexists. reflexivity.
Qed.

Lemma decode_fields_spec cs fs attrs vs :
  chosen fs ->
  udecode_fields cs fs attrs = Ok vs <->
  Forall2 (fun f v =>
    match attrs !! uf_code f with
    | None => uf_req f = false /\ v = zero_uv (uf_type f)
    | Some a => exists b, in_of cs (uf_type f) a = Ok b /\ v = ptrs (depth (uf_type f)) b
    end) fs vs.
Proof.
  revert vs; induction fs as [|f fs IH]; intros vs Hc.
  - cbn. split; [intros H; inversion H; constructor | intros H; inversion H; reflexivity].
  - inversion Hc as [|? ? [Hpo [_ [e Hge]]] Hc']; subst. cbn [udecode_fields].
    rewrite Hge.
    split.
    + intros H. destruct (attrs !! uf_code f) as [a|] eqn:Ha.
      * rewrite (run_dec_spec cs _ _ a Hpo Hge) in H.
        destruct (in_of cs (uf_type f) a) as [b| |] eqn:Hin; cbn [wrap] in H; try discriminate.
        destruct (udecode_fields cs fs attrs) as [vs'| |] eqn:Hd; try discriminate.
        inversion H; subst. constructor.
        -- rewrite Ha. exists b. split; [exact Hin|reflexivity].
        -- apply (IH vs' Hc'). reflexivity.
      * destruct (uf_req f) eqn:Hq; [discriminate|].
        destruct (udecode_fields cs fs attrs) as [vs'| |] eqn:Hd; try discriminate.
        inversion H; subst. constructor.
        -- rewrite Ha. split; reflexivity || exact Hq.
        -- apply (IH vs' Hc'). reflexivity.
    + intros H. inversion H as [|? v ? vs' Hv Hvs H1 H2]; subst.
      apply (IH vs' Hc') in Hvs. rewrite Hvs.
      destruct (attrs !! uf_code f) as [a|] eqn:Ha.
      * destruct Hv as [b [Hin ->]]. rewrite (run_dec_spec cs _ _ a Hpo Hge), Hin.
        reflexivity.
      * destruct Hv as [Hq ->]. rewrite Hq. reflexivity.
Qed.

Lemma decode_spec cs code fs attrs vs :
  possible_fields fs -> uregister fs = true ->
  UDecode cs code fs attrs = Ok vs <->
  attrs !! 0%N = Some (Dyn None (AU32 code)) /\
  Forall2 (fun f v =>
    match attrs !! uf_code f with
    | None => uf_req f = false /\ v = zero_uv (uf_type f)
    | Some a => exists b, in_of cs (uf_type f) a = Ok b /\ v = ptrs (depth (uf_type f)) b
    end) fs vs.
Proof.
  intros Hp Hr. pose proof (registered_chosen fs Hp Hr) as Hc. unfold UDecode.
  split.
  - intros H. destruct (attrs !! 0%N) as [[[n|] a]|]; try discriminate.
    destruct a as [s|c|n|z|z| |w]; try discriminate.
    destruct (N.eqb_spec c code) as [Hc'|Hc']; [|discriminate]. subst c.
    split; [reflexivity|]. apply (decode_fields_spec cs fs attrs vs Hc), H.
  - intros [H0 H]. rewrite H0, N.eqb_refl. apply (decode_fields_spec cs fs attrs vs Hc), H.
Qed.

(** A field is read without an error. *)
Definition readable (cs : codecs) (attrs : gmap N dyn) (f : ufield) : Prop :=
  match attrs !! uf_code f with
  | None => uf_req f = false
  | Some a => exists b, in_of cs (uf_type f) a = Ok b
  end.

Lemma decode_fields_panic cs fs attrs :
  chosen fs ->
  udecode_fields cs fs attrs = Panic <->
  exists fs1 f fs2 a, fs = fs1 ++ f :: fs2 /\ Forall (readable cs attrs) fs1 /\
    attrs !! uf_code f = Some a /\ in_of cs (uf_type f) a = Panic.
Proof.
  induction fs as [|f fs IH]; intros Hc.
  - split; [discriminate|]. intros (fs1 & f & fs2 & a & E & _). destruct fs1; discriminate E.
  - inversion Hc as [|? ? [Hpo [_ [e Hge]]] Hc']; subst. cbn [udecode_fields]. rewrite Hge.
    specialize (IH Hc'). split.
    + intros H. destruct (attrs !! uf_code f) as [a|] eqn:Ha.
      * rewrite (run_dec_spec cs _ _ a Hpo Hge) in H.
        destruct (in_of cs (uf_type f) a) as [b| |] eqn:Hin; cbn [wrap] in H; try discriminate.
        -- destruct (udecode_fields cs fs attrs) as [vs'| |] eqn:Hd; try discriminate.
           destruct (proj1 IH eq_refl) as (fs1 & g & fs2 & x & -> & HF & Hx & Hp).
           exists (f :: fs1), g, fs2, x. split; [reflexivity|]. split; [|split; assumption].
           constructor; [|exact HF]. unfold readable. rewrite Ha. exists b. exact Hin.
        -- exists [], f, fs, a. split; [reflexivity|]. split; [constructor|]. split; [exact Ha|exact Hin].
      * destruct (uf_req f) eqn:Hq; [discriminate|].
        destruct (udecode_fields cs fs attrs) as [vs'| |] eqn:Hd; try discriminate.
        destruct (proj1 IH eq_refl) as (fs1 & g & fs2 & x & -> & HF & Hx & Hp).
        exists (f :: fs1), g, fs2, x. split; [reflexivity|]. split; [|split; assumption].
        constructor; [|exact HF]. unfold readable. rewrite Ha. exact Hq.
    + intros (fs1 & g & fs2 & x & E & HF & Hx & Hp). destruct fs1 as [|f' fs1]; cbn in E.
      * injection E as -> ->. rewrite Hx, (run_dec_spec cs _ _ x Hpo Hge), Hp. reflexivity.
      * injection E as -> ->. inversion HF as [|? ? Hr HF']; subst. unfold readable in Hr.
        assert (udecode_fields cs (fs1 ++ g :: fs2) attrs = Panic) as Hd.
        { apply IH. exists fs1, g, fs2, x. repeat split; assumption. }
        rewrite Hd. destruct (attrs !! uf_code f') as [a|] eqn:Ha.
        -- destruct Hr as [b Hb]. rewrite (run_dec_spec cs _ _ a Hpo Hge), Hb. reflexivity.
        -- rewrite Hr. reflexivity.
Qed.

Lemma decode_panic cs code fs attrs :
  possible_fields fs -> uregister fs = true ->
  UDecode cs code fs attrs = Panic <->
  attrs !! 0%N = Some (Dyn None (AU32 code)) /\
  exists fs1 f fs2 a, fs = fs1 ++ f :: fs2 /\ Forall (readable cs attrs) fs1 /\
    attrs !! uf_code f = Some a /\ in_of cs (uf_type f) a = Panic.
Proof.
  intros Hp Hr. rewrite <- (decode_fields_panic cs fs attrs (registered_chosen fs Hp Hr)). unfold UDecode.
  split.
  - intros H. destruct (attrs !! 0%N) as [[[n|] a]|]; try discriminate.
    destruct a as [s|c|n|z|z| |w]; try discriminate.
    destruct (N.eqb_spec c code) as [Hc'|Hc']; [|discriminate]. subst c. split; [reflexivity|exact H].
  - intros [H0 H]. rewrite H0, N.eqb_refl. exact H.
Qed.

(** * Round trips *)

(** A type whose own methods, if any, are used in both directions, and which
    can receive what it decodes. *)
Definition two_way (t : utype) : Prop :=
  own_enc t = own_dec t /\
  (own_dec t = true -> td_dec (base_of t) = RPtr).

(** The author's promise for their methods: decoding what was encoded gives
    the value back, up to what [nf] says is lost. *)
Definition keeps (cs : codecs) (nf : option string -> bval -> bval) (d : tdesc) : Prop :=
  forall b a, base_has d b -> c_enc cs (td_name d) b = UOVal a -> ~ is_nil a ->
    c_dec cs (td_name d) a (zero_base d) = Ok (nf (td_name d) b).

(** What is left of a field's value. *)
Definition kept (cs : codecs) (nf : option string -> bval -> bval) (t : utype) (v : uv) : uv :=
  match left_by (out_of cs t v), reach v with
  | Some _, Some b =>
      ptrs (depth t) (if own_enc t then nf (td_name (base_of t)) b else b)
  | _, _ => zero_uv t
  end.

Lemma left_by_some o a :
  left_by o = Some a -> o = UOVal a /\ ~ is_nil a.
Proof.
  destruct o as [[n x]| | |]; try discriminate. unfold is_nil. cbn.
  destruct x; intros H; inversion H; subst; split; try reflexivity; discriminate.
Qed.

Lemma reach_has t v b : has_type t v -> reach v = Some b -> base_has (base_of t) b.
Proof.
  revert v; induction t as [d|t IH]; intros v Hv Hr.
  - destruct v as [c|]; [|destruct Hv]. cbn in *. inversion Hr; subst. exact Hv.
  - destruct v as [|[v|]]; [destruct Hv| |discriminate]. cbn in *. exact (IH v Hv Hr).
Qed.

Lemma field_round cs nf t v a :
  has_type t v -> possible (base_of t) -> two_way t ->
  (own_dec t = true -> keeps cs nf (base_of t)) ->
  left_by (out_of cs t v) = Some a ->
  exists b, in_of cs t a = Ok b /\ kept cs nf t v = ptrs (depth t) b.
Proof.
  intros Hv Hpo [Hsame Hrecv] Hk Hl. unfold kept. rewrite Hl.
  destruct (left_by_some _ _ Hl) as [Ho Hnn]. unfold out_of in Ho.
  destruct (reach v) as [b|] eqn:Hre; [|discriminate].
  pose proof (reach_has t v b Hv Hre) as Hb. unfold in_of. rewrite <- Hsame.
  destruct (own_enc t) eqn:Hown.
  - assert (Hr : td_dec (base_of t) = RPtr) by (apply Hrecv; congruence).
    assert (Hni : td_kind (base_of t) <> TIface).
    { intros Hi. destruct (Hpo Hi) as [_ H]. contradiction. }
    assert (Ho' : c_enc cs (td_name (base_of t)) b = UOVal a).
    { destruct b as [| |[|]]; try exact Ho. discriminate. }
    unfold is_iface. rewrite Hr.
    rewrite (Hk (eq_sym Hsame) b a Hb Ho' Hnn).
    destruct (td_kind (base_of t)); try contradiction; eexists; split; reflexivity.
  - destruct b as [x| |]; try discriminate.
    destruct (prim_is_zero x); [discriminate|]. inversion Ho; subst. cbn [dy_val].
    unfold base_has in Hb. destruct (td_kind (base_of t)) as [k| |] eqn:Ek; try destruct Hb.
    exists (BPrim x). split; [|reflexivity].
    unfold same_type. cbn [dy_name dy_val]. rewrite bool_decide_eq_true_2 by reflexivity.
    destruct k, x; cbn in Hb; try destruct Hb; reflexivity.
Qed.

Lemma round_trip cs nf code fs vs m :
  possible_fields fs -> uregister fs = true -> typed_record fs vs ->
  Forall (fun f => uf_code f <> 0%N /\ two_way (uf_type f) /\
    (own_dec (uf_type f) = true -> keeps cs nf (base_of (uf_type f))) /\
    (uf_req f = true -> own_enc (uf_type f) = true ->
       forall b a, c_enc cs (td_name (base_of (uf_type f))) b = UOVal a -> ~ is_nil a)) fs ->
  UEncode cs code fs vs = UEncOk m ->
  UDecode cs code fs m = Ok (zip_with (fun f v => kept cs nf (uf_type f) v) fs vs).
Proof.
  intros Hp Hr Ht Hf Hm. apply (decode_spec cs code fs m _ Hp Hr).
  destruct (encode_spec cs code fs vs Hp Hr Ht) as [Henc Hiff].
  destruct (Henc m Hm) as [H0 [Hat _]].
  assert (Hfine := proj1 Hiff (ex_intro _ m Hm)).
  split; [exact H0|].
  assert (Hlen : length fs = length vs) by (exact (Forall2_length _ _ _ Ht)).
  apply Forall2_same_length_lookup. split.
  { rewrite zip_with_length_l_eq; [reflexivity|exact Hlen]. }
  intros i f w Hi Hw. rewrite lookup_zip_with_Some in Hw.
  destruct Hw as [f' [v [-> [Hi' Hv]]]].
  rewrite Hi in Hi'. inversion Hi'; subst f'.
  unfold typed_record in Ht. pose proof (Forall2_lookup_lr _ _ _ _ _ _ Ht Hi Hv) as Hty. cbn in Hty.
  rewrite Forall_forall in Hf. pose proof (Hf f (elem_of_list_lookup_2 _ _ _ Hi)) as [Hnz [Htw [Hk Hq]]].
  unfold possible_fields in Hp. rewrite Forall_forall in Hp.
  pose proof (Hp f (elem_of_list_lookup_2 _ _ _ Hi)) as Hpo.
  pose proof (Hat i f v Hi Hv Hnz) as Hmf. rewrite Hmf.
  destruct (left_by (out_of cs (uf_type f) v)) as [a|] eqn:Hl.
  - destruct (field_round cs nf _ v a Hty Hpo Htw Hk Hl) as [b [Hin Hkept]].
    exists b. split; [exact Hin|exact Hkept].
  - split.
    + pose proof (Hfine i f v Hi Hv) as Hfi.
      destruct (out_of cs (uf_type f) v) as [a| | |] eqn:Ho; cbn [fine] in Hfi; try contradiction.
      * destruct (uf_req f) eqn:Hreq; [|reflexivity]. exfalso.
        unfold out_of in Ho. destruct (reach v) as [b|] eqn:Hre; [|discriminate].
        destruct (own_enc (uf_type f)) eqn:Hown.
        -- assert (Ho' : c_enc cs (td_name (base_of (uf_type f))) b = UOVal a).
           { destruct b as [| |[|]]; try exact Ho. discriminate. }
           apply (Hq eq_refl eq_refl b a Ho'). unfold is_nil.
           destruct a as [n x]; destruct x; cbn in Hl; try discriminate. reflexivity.
        -- destruct b as [x| |]; try discriminate.
           destruct (prim_is_zero x) eqn:Hz; [discriminate|].
           inversion Ho; subst a. cbn in Hl. destruct x; try discriminate.
           pose proof (reach_has _ v _ Hty Hre) as Hb. unfold base_has in Hb.
           destruct (td_kind (base_of (uf_type f))) as [k| |]; try destruct Hb.
           destruct k; destruct Hb.
      * exact Hfi.
    + unfold kept. rewrite Hl. reflexivity.
Qed.

(** * The types of Encoding.v are among these *)

(** vanflow.Time has its encoder on the value and its decoder on the pointer
    (base.go l.56, 67). *)
Fixpoint emb (t : gotype) : utype :=
  match t with
  | GPrim k => UB (TDesc None (TPrim k) RNo RNo)
  | GTime => UB (TDesc (Some "vanflow.Time"%string) TOther RVal RPtr)
  | GPtr t' => UP (emb t')
  | GStruct n _ => UB (TDesc (Some n) TOther RNo RNo)
  | GOther n => UB (TDesc (Some n) TOther RNo RNo)
  end.

(** Values, with times numbered by [f]. *)
Fixpoint emb_val (f : gotime -> N) (v : goval) : uv :=
  match v with
  | VStr s => VB (BPrim (AStr s))
  | VU64 n => VB (BPrim (AU64 n))
  | VI64 z => VB (BPrim (AI64 z))
  | VU32 n => VB (BPrim (AU32 n))
  | VI32 z => VB (BPrim (AI32 z))
  | VTime t => VB (BOpaque (f t))
  | VPtr None => VP None
  | VPtr (Some v') => VP (Some (emb_val f v'))
  | VStruct _ => VB (BOpaque 0)
  | VOther n => VB (BOpaque n)
  end.

Definition emb_out (o : attrout) : uout :=
  match o with
  | OutVal a => UOVal (Dyn None a)
  | OutNotSet => UONotSet
  | OutErr => UOErr
  | OutPanic => UOPanic
  end.

Definition emb_res (f : gotime -> N) (r : res unit goval) : res unit uv :=
  match r with
  | Ok v => Ok (emb_val f v)
  | Err e => Err e
  | Panic => Panic
  end.

(** The methods of vanflow.Time. *)
Definition time_codec (f : gotime -> N) (cs : codecs) : Prop :=
  f zero_time = 0%N /\
  (forall t, c_enc cs (Some "vanflow.Time"%string) (BOpaque (f t)) = emb_out (encode_time t)) /\
  (forall a b, c_dec cs (Some "vanflow.Time"%string) (Dyn None a) b =
     match decode_time a with Some t => Ok (BOpaque (f t)) | None => Err tt end).

Lemma emb_enc t : uget_enc (emb t) = get_field_encoder t.
Proof.
  induction t as [k| |t IH|n fs|n]; try reflexivity.
  destruct t as [k| |t|n fs|n]; try reflexivity.
  cbn [emb] in *.
  change (uget_enc (UP (UP (emb t)))) with
    (match uget_enc (UP (emb t)) with Some e => Some (EncPtr e) | None => None end).
  rewrite IH. reflexivity.
Qed.

Lemma emb_dec t : uget_dec (emb t) = get_field_decoder t.
Proof.
  induction t as [k| |t IH|n fs|n]; try reflexivity.
  destruct t as [k| |t|n fs|n]; try reflexivity.
  cbn [emb] in *.
  change (uget_dec (UP (UP (emb t)))) with
    (match uget_dec (UP (emb t)) with Some e => Some (DecPtr e) | None => None end).
  rewrite IH. reflexivity.
Qed.

Lemma emb_run_enc f cs t e v :
  time_codec f cs -> get_field_encoder t = Some e -> typed t v ->
  urun_enc cs e (emb t) (emb_val f v) = emb_out (run_enc e v).
Proof.
  intros [_ [Hcs _]]. revert e v. induction t as [k| |t IH|n fs|n]; intros e v He Hv.
  - destruct k, v; try destruct Hv; inversion He; subst; cbn;
      try (case_bool_decide; reflexivity);
      try (destruct (_ =? _)%N; reflexivity); destruct (_ =? _)%Z; reflexivity.
  - destruct v; try destruct Hv; inversion He; subst. cbn. apply Hcs.
  - destruct v as [| | | | | |[v|]| |]; try destruct Hv.
    + cbn [SpecEncoding.typed] in Hv. destruct t as [k| |t|n fs|n].
      * inversion He; subst. cbn [emb emb_val urun_enc run_enc].
        exact (IH EncRaw v eq_refl Hv).
      * destruct v; try destruct Hv. inversion He; subst. cbn. apply Hcs.
      * assert (Hg : get_field_encoder (GPtr (GPtr t)) = match get_field_encoder (GPtr t) with
          | Some e => Some (EncPtr e) | None => None end) by reflexivity.
        rewrite Hg in He. destruct (get_field_encoder (GPtr t)) as [sub|] eqn:Hsub; [|discriminate].
        inversion He; subst. cbn [emb emb_val urun_enc run_enc].
        exact (IH sub v eq_refl Hv).
      * discriminate.
      * discriminate.
    + cbn in He. destruct t as [k| |t|n fs|n]; cbn in He; try discriminate.
      * inversion He; subst. reflexivity.
      * inversion He; subst. reflexivity.
      * destruct (match t with GTime => _ | _ => _ end); [|discriminate].
        inversion He; subst. reflexivity.
  - discriminate.
  - discriminate.
Qed.

Lemma emb_zero f t e :
  f zero_time = 0%N -> get_field_decoder t = Some e ->
  zero_uv (emb t) = emb_val f (zero_value t).
Proof.
  intros Hf. destruct t as [k| |t|n fs|n]; try discriminate; intros _; try reflexivity.
  - destruct k; reflexivity.
  - cbn. rewrite Hf. reflexivity.
Qed.

Lemma emb_run_dec f cs t e a :
  time_codec f cs -> get_field_decoder t = Some e ->
  urun_dec cs e (emb t) (Dyn None a) (zero_uv (emb t)) =
  emb_res f (run_dec e t a (zero_value t)).
Proof.
  intros [Hf [_ Hcs]]. revert e. induction t as [k| |t IH|n fs|n]; intros e He.
  - destruct k, a; inversion He; subst; reflexivity.
  - inversion He; subst. cbn. unfold call_dec. cbn. rewrite Hcs.
    destruct (decode_time a); reflexivity.
  - destruct t as [k| |t|n fs|n]; try discriminate.
    + inversion He; subst. specialize (IH DecRaw eq_refl).
      cbn [emb urun_dec run_dec zero_uv zero_value] in *. rewrite IH.
      destruct (decode_raw (GPrim k) a); reflexivity.
    + inversion He; subst. cbn. unfold call_dec. cbn. rewrite Hcs.
      destruct (decode_time a); reflexivity.
    + assert (Hg : get_field_decoder (GPtr (GPtr t)) = match get_field_decoder (GPtr t) with
        | Some e => Some (DecPtr e) | None => None end) by reflexivity.
      rewrite Hg in He. destruct (get_field_decoder (GPtr t)) as [sub|] eqn:Hsub; [|discriminate].
      inversion He; subst. specialize (IH sub eq_refl).
      cbn [emb urun_dec run_dec zero_uv zero_value] in *. rewrite IH.
      destruct (run_dec sub (GPtr t) a (VPtr None)); reflexivity.
  - discriminate.
  - discriminate.
Qed.
