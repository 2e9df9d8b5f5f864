(** More codec lemmas: repeated round trips, registration histories, the
    built-in types, times. *)
From Coq Require Import ZArith NArith Ascii String Lia.
From stdpp Require Import base gmap strings list.
From Verif Require Import GoBase Encoding SpecEncoding EncodingFacts CodecFacts DecodeFacts CodecTop
  Records CodecLemmas.

Local Open Scope list_scope.

(** ** Repeated round trips *)

Lemma attr_of_in_range t v :
  supported t -> typed t v -> (forall tm, pointee v = VTime tm -> fits_int64 tm) ->
  attr_in_range (attr_of v).
Proof.
  intros Hs; revert v; induction Hs as [k| |t Hs IH]; intros v Hv Hf.
  - destruct k, v; done.
  - destruct v as [| | | | |tm| | |]; try done. specialize (Hf tm eq_refl). unfold fits_int64 in Hf.
    cbn [attr_of pointee attr_in_range]. unfold attr_of; simpl. lia.
  - destruct v as [| | | | | |[v'|]| |]; try done. exact (IH v' Hv Hf).
Qed.

(** A set produced by Encode is a fixed point of decode-then-encode. *)
Lemma reencode_fix reg n fs c l a r :
  reg_wf reg -> registered reg (GStruct n fs) c -> attributes fs l -> no_zero_code fs ->
  (forall k x, k <> KU32 0 -> a !! k = Some x -> attr_in_range x) ->
  a !! KU32 0 = Some (AU32 c) ->
  (forall k x, a !! k = Some x -> k <> KU32 0 ->
     exists f, f ∈ l /\ k = KU32 (tf_code f) /\ ~ empty_attr (tf_type f) x) ->
  Decode reg (Some a) = Ok r -> Encode reg r = EncOk a.
Proof.
  intros Hwf Hr Hat Hz Hrange H0 Hown Hdec.
  destruct (registered_attributes reg n fs c Hwf Hr) as (l' & Hat' & Hnd & _).
  rewrite (attributes_fun _ _ _ Hat' Hat) in Hnd. clear l' Hat'.
  destruct (reencode _ _ _ _ _ _ _ Hwf Hr Hat Hz Hrange H0 Hdec)
    as [(a' & -> & Hx)|[_ (f & x & Hin & _ & Hx & He)]].
  - f_equal. apply map_eq. intros k. apply option_eq. intros x. rewrite Hx. split.
    + intros [[-> ->]|(f & _ & -> & Ha & _)]; done.
    + intros Ha. destruct (decide (k = KU32 0)) as [->|Hk].
      * left. rewrite H0 in Ha. by injection Ha as <-.
      * right. destruct (Hown _ _ Ha Hk) as (f & Hin & Ek & Hne). exists f. rewrite Ek in *. done.
  - exfalso. destruct (Hown _ _ Hx) as (g & Hg & [= E] & Hne); [intros [= E]; by eapply Hz|].
    apply Hne. by rewrite <- (codes_unique l f g Hnd Hin Hg E).
Qed.

Lemma empty_attr_shape t x :
  x <> AStr "" -> x <> AU32 0 -> x <> AI32 0 -> x <> AI64 0 ->
  (x = AU64 0 -> base_type t = GTime) -> ~ empty_attr t x.
Proof.
  intros H1 H2 H3 H4 H5 H. unfold empty_attr in H.
  destruct (base_type t) eqn:E; try done.
  destruct H as [?|[?|[?|[?|?]]]]; try done. by specialize (H5 H).
Qed.

Lemma round_trip_stable reg b n fs vs a :
  reg_wf reg -> typed_fields fs vs -> times_fit fs vs -> no_zero_code fs ->
  Encode reg (record_any b (GStruct n fs) (VStruct vs)) = EncOk a ->
  exists ws, normal fs vs ws /\
    Decode reg (Some a) = Ok (record_any true (GStruct n fs) (VStruct ws)) /\
    Encode reg (record_any true (GStruct n fs) (VStruct ws)) = EncOk a.
Proof.
  intros Hwf Hty Hfit Hz He.
  destruct (round_trip _ _ _ _ _ _ Hwf Hty Hfit Hz He) as (ws & Hn & Hd).
  exists ws. split; [done|]. split; [done|].
  destruct (Encode_ok_registered _ _ _ _ _ _ Hwf He) as (te & Hl & _).
  assert (registered reg (GStruct n fs) (te_code te)) as Hr by (by exists te).
  destruct (registered_attributes _ _ _ _ Hwf Hr) as (l & Hat & Hnd & Hsup).
  destruct (encode_shape _ _ _ _ _ _ _ Hwf Hr Hty Hfit Hz He) as (H0 & _ & Hsh).
  eapply reencode_fix; try done.
  - intros k x Hk Hx. apply (encode_exact _ _ _ _ _ _ _ Hwf Hr Hty Hfit Hz He) in Hx
      as [[? _]|(f & v & Hlf & -> & _ & ->)]; [done|].
    assert (f ∈ l) as Hin by (by eapply leaf_of_attribute).
    destruct (attribute_leaf _ _ _ _ Hat Hty Hin) as (w & Hw & Htw).
    destruct (leaf_of_fun_code fs vs l f v f w Hat Hnd Hlf Hw eq_refl) as [_ <-].
    eapply attr_of_in_range; [|done|].
    + rewrite Forall_forall in Hsup. by apply Hsup.
    + intros tm Etm. by eapply Hfit.
  - intros k x Hx Hk. destruct (Hsh _ _ Hx Hk) as (l' & f & Hat' & Hin & -> & _ & H1 & H2 & H3 & H4 & H5).
    exists f. rewrite (attributes_fun _ _ _ Hat' Hat) in Hin. split; [done|]. split; [done|].
    by apply empty_attr_shape.
Qed.

Lemma reencode_stable reg n fs c l a r a' :
  reg_wf reg -> registered reg (GStruct n fs) c -> attributes fs l -> no_zero_code fs ->
  (forall k x, a !! k = Some x -> attr_in_range x) ->
  a !! KU32 0 = Some (AU32 c) -> Decode reg (Some a) = Ok r -> Encode reg r = EncOk a' ->
  exists r', Decode reg (Some a') = Ok r' /\ Encode reg r' = EncOk a'.
Proof.
  intros Hwf Hr Hat Hz Hrange H0 Hdec Henc.
  assert (forall k x, k <> KU32 0 -> a !! k = Some x -> attr_in_range x) as Hrange' by eauto.
  destruct (reencode _ _ _ _ _ _ _ Hwf Hr Hat Hz Hrange' H0 Hdec)
    as [(a2 & Ha2 & Hx)|[(p & e & He) _]]; [|congruence].
  rewrite Henc in Ha2. injection Ha2 as <-.
  assert (exists r', Decode reg (Some a') = Ok r') as [r' Hr'].
  { destruct (decode_strict _ _ _ _ _ a Hwf Hr Hat H0) as [[Hfine _] _].
    specialize (Hfine (ex_intro _ r Hdec)).
    assert (a' !! KU32 0 = Some (AU32 c)) as H0' by (apply Hx; by left).
    apply (decode_strict _ _ _ _ _ a' Hwf Hr Hat H0'). intros f Hin. unfold attr_fine.
    specialize (Hfine f Hin). unfold attr_fine in Hfine.
    destruct (registered_attributes _ _ _ _ Hwf Hr) as (l' & Hat' & Hnd & Hsup).
    rewrite (attributes_fun _ _ _ Hat' Hat) in *.
    destruct (a' !! KU32 (tf_code f)) as [x|] eqn:Ex.
    - apply Hx in Ex as [[[= E] _]|(g & Hg & [= E] & Ha & Hne)]; [by destruct (Hz l f Hat Hin)|].
      rewrite E in *. rewrite Ha in Hfine. done.
    - destruct (tf_req f) eqn:Ereq; [|done]. exfalso.
      destruct (a !! KU32 (tf_code f)) as [x|] eqn:Ea; [|done].
      (* required, present, but dropped: then it was empty and Encode fails *)
      rewrite (Decode_registered reg n fs c a Hwf Hr H0) in Hdec.
      destruct (dec_struct a fs (zero_fields fs)) as [ws| |] eqn:Ews; try done. injection Hdec as <-.
      assert (typed_fields fs ws) as Hty by exact (dec_struct_typed a fs ws l Hat Hsup Hrange Ews).
      destruct (attribute_leaf _ _ _ _ Hat Hty Hin) as (v & Hlf & Htv).
      pose proof (dec_struct_ok a fs ws l Hat Hsup Ews f v Hlf) as Hok. rewrite Ea in Hok.
      destruct Hok as [Hw ->].
      assert (~ empty_attr (tf_type f) x) as Hne.
      { intros Hem.
        assert (times_fit fs ws) as Hfit.
        { intros g w t Hg Et. pose proof (dec_struct_ok a fs ws l Hat Hsup Ews g w Hg) as Hok.
          assert (supported (tf_type g)) as Hs.
          { rewrite Forall_forall in Hsup. apply Hsup. by eapply leaf_of_attribute. }
          destruct (a !! KU32 (tf_code g)) as [y|].
          - destruct Hok as [Hw' ->]. rewrite pointee_dec_attr in Et. unfold wire_type_ok in Hw'.
            destruct (base_type (tf_type g)) as [[]| | | |]; destruct y; try done.
            cbn in Et. injection Et as <-. unfold fits_int64. rewrite micros_of_unix_micro. lia.
          - destruct Hok as [_ ->]. by apply zero_value_time in Et as ->. }
        destruct (encode_iff reg true n fs ws c Hwf Hr Hty Hfit) as [[Hi _] _].
        destruct (Hi (ex_intro _ a' Henc) f _ Hlf) as [Hq _]. apply (Hq Ereq).
        by apply dec_attr_value_empty. }
      assert (a' !! KU32 (tf_code f) = Some x) by (apply Hx; right; eauto 10). congruence. }
  exists r'. split; [done|]. eapply reencode_fix; try done.
  - intros k x Hk Ha. apply Hx in Ha as [[? _]|(f & _ & -> & Ha & _)]; [done|]. by eapply Hrange.
  - apply Hx. by left.
  - intros k x Ha Hk. apply Hx in Ha as [[? _]|(f & Hin & -> & Ha & Hne)]; [done|]. eauto.
Qed.

(** ** Registration histories *)

Lemma must_register_registered c x reg reg' t c' :
  reg_wf reg -> must_register c x reg = Ok reg' ->
  registered reg' t c' <-> registered reg t c' \/ (c' = c /\ holds x t).
Proof.
  intros Hwf H. split.
  - unfold must_register in H. destruct (decodings reg !! c) eqn:Ec; [done|].
    destruct (new_encoding_for_type c x) as [te| |] eqn:En; try done.
    destruct (lookup_encoding (te_t te) (encodings reg)) eqn:El; [done|]. injection H as <-.
    intros (te' & Hl & <-). simpl in Hl. destruct (gotype_eqb t (te_t te)) eqn:Et.
    + injection Hl as <-. right. apply gotype_eqb_eq in Et as ->.
      split; [by apply new_encoding_wf in En as [_ ?]|].
      destruct (proj1 (new_encoding_ok c x)) as (t' & Hh & _); [eauto|].
      by rewrite (new_encoding_type _ _ _ _ En Hh).
    + left. by exists te'.
  - intros [Hr|[-> Hh]]; [|by eapply must_register_effect].
    unfold must_register in H. destruct (decodings reg !! c) eqn:Ec; [done|].
    destruct (new_encoding_for_type c x) as [te| |] eqn:En; try done.
    destruct (lookup_encoding (te_t te) (encodings reg)) eqn:El; [done|]. injection H as <-.
    destruct Hr as (te' & Hl & <-). exists te'. split; [|done]. simpl.
    destruct (gotype_eqb t (te_t te)) eqn:Et; [|done]. apply gotype_eqb_eq in Et. congruence.
Qed.

Lemma registered_history calls t c :
  registered (register_all calls) t c <->
  exists pre x post reg', calls = pre ++ (c, x) :: post /\ holds x t /\
    must_register c x (register_all pre) = Ok reg'.
Proof.
  split.
  - induction calls as [|[c0 x] calls IH] using rev_ind.
    + intros (te & Hl & _). done.
    + rewrite register_all_snoc.
      destruct (must_register c0 x (register_all calls)) as [reg'| |] eqn:E; intros Hr.
      * apply (must_register_registered _ _ _ _ _ _ (register_all_wf calls) E) in Hr as [Hr|[-> Hh]].
        -- destruct (IH Hr) as (pre & y & post & reg'' & -> & Hh & Hm).
           exists pre, y, (post ++ [(c0, x)]), reg''. by rewrite <- app_assoc.
        -- by exists calls, x, [], reg'.
      * destruct (IH Hr) as (pre & y & post & reg'' & -> & Hh & Hm).
        exists pre, y, (post ++ [(c0, x)]), reg''. by rewrite <- app_assoc.
      * destruct (IH Hr) as (pre & y & post & reg'' & -> & Hh & Hm).
        exists pre, y, (post ++ [(c0, x)]), reg''. by rewrite <- app_assoc.
  - intros (pre & x & post & reg' & -> & Hh & Hm).
    replace (pre ++ (c, x) :: post) with ((pre ++ [(c, x)]) ++ post) by (by rewrite <- app_assoc).
    apply registered_mono. rewrite register_all_snoc, Hm.
    eapply must_register_effect; [apply register_all_wf|done|done].
Qed.

(** ** Built-in types *)

Lemma register_sequence calls r0 r :
  fold_left (fun r '(c, x) => res_bind r (must_register c x)) calls (Ok r0) = Ok r ->
  fold_left (fun reg '(c, r) => match must_register c r reg with Ok reg' => reg' | _ => reg end)
    calls r0 = r.
Proof.
  revert r0. induction calls as [|[c x] calls IH]; intros r0; simpl; [by intros [= ->]|].
  destruct (must_register c x r0) as [r1|e|] eqn:E; [by apply IH|..];
    intros H; exfalso; clear -H; induction calls as [|[? ?] calls IH]; simpl in H; try done; auto.
Qed.

Lemma init_registry_ok : init_registry = Ok vanflow_registry.
Proof.
  assert (match init_registry with Ok _ => true | _ => false end = true) as H
    by (vm_compute; reflexivity).
  unfold vanflow_registry, register_all, init_registry in *.
  destruct (fold_left _ builtin_calls (Ok empty_registry)) as [r|e|] eqn:E;
    [|discriminate H|discriminate H].
  f_equal. symmetry. exact (register_sequence _ _ _ E).
Qed.

Lemma vanflow_wf : reg_wf vanflow_registry.
Proof. unfold vanflow_registry. apply register_all_wf. Qed.

Local Opaque vanflow_registry.

Lemma builtin_registered c t : (c, t) ∈ builtin_types -> registered vanflow_registry t c.
Proof.
  assert (forallb (fun '(c, t) => match lookup_encoding t (encodings vanflow_registry) with
    | Some te => N.eqb (te_code te) c | None => false end) builtin_types = true) as H
    by (vm_compute; reflexivity).
  intros Hin. rewrite forallb_forall in H. apply elem_of_list_In in Hin. specialize (H _ Hin). cbv beta iota in H.
  destruct (lookup_encoding t (encodings vanflow_registry)) as [te|] eqn:E; [|done].
  exists te. split; [done|]. by apply N.eqb_eq.
Qed.

Lemma builtin_shape c t : (c, t) ∈ builtin_types ->
  exists n rest, t = record_type n rest.
Proof.
  intros Hin. unfold builtin_types in Hin.
  repeat (apply elem_of_cons in Hin as [[= -> ->]|Hin]; [eexists _, _; reflexivity|]).
  by apply elem_of_nil in Hin.
Qed.

(** A computed table of the attributes of a type. *)
Definition attr_table (t : gotype) : list tfield :=
  match t with
  | GStruct _ fs => match fields_for fs [] 0 with Ok l => tf <$> l | _ => [] end
  | _ => []
  end.

Lemma builtin_table c n fs l :
  (c, GStruct n fs) ∈ builtin_types -> attributes fs l -> attr_table (GStruct n fs) = l.
Proof.
  intros Hin Hat. destruct (registered_fields _ _ _ _ vanflow_wf (builtin_registered _ _ Hin))
    as (te & _ & _ & _ & _ & Hf & _ & Hat' & _).
  simpl. rewrite Hf. by eapply attributes_fun.
Qed.

Lemma builtin_no_zero c n fs : (c, GStruct n fs) ∈ builtin_types -> no_zero_code fs.
Proof.
  intros Hin l f Hat Hf. rewrite <- (builtin_table _ _ _ _ Hin Hat) in Hf.
  assert (forallb (fun '(_, t) => forallb (fun f => negb (N.eqb (tf_code f) 0)) (attr_table t)) builtin_types
    = true) as H by (vm_compute; reflexivity).
  rewrite forallb_forall in H. apply elem_of_list_In in Hin. specialize (H _ Hin). cbv beta iota in H.
  rewrite forallb_forall in H. apply elem_of_list_In in Hf. specialize (H _ Hf).
  apply negb_true_iff, N.eqb_neq in H. done.
Qed.

Lemma builtin_required c n fs l f :
  (c, GStruct n fs) ∈ builtin_types -> attributes fs l -> f ∈ l ->
  tf_req f = true <-> tf_code f = 1%N.
Proof.
  intros Hin Hat Hf. rewrite <- (builtin_table _ _ _ _ Hin Hat) in Hf.
  assert (forallb (fun '(_, t) => forallb (fun f => Bool.eqb (tf_req f) (N.eqb (tf_code f) 1)) (attr_table t))
    builtin_types = true) as H by (vm_compute; reflexivity).
  rewrite forallb_forall in H. apply elem_of_list_In in Hin. specialize (H _ Hin). cbv beta iota in H.
  rewrite forallb_forall in H. apply elem_of_list_In in Hf. specialize (H _ Hf).
  apply Bool.eqb_prop in H. rewrite H. apply N.eqb_eq.
Qed.

Lemma builtin_has_id c n fs l :
  (c, GStruct n fs) ∈ builtin_types -> attributes fs l ->
  TField "ID" 1 true (GPrim PStr) ∈ l.
Proof.
  intros Hin Hat. rewrite <- (builtin_table _ _ _ _ Hin Hat).
  unfold builtin_types in Hin.
  repeat (apply elem_of_cons in Hin as [[= -> -> ->]|Hin]; [vm_compute; constructor|]).
  by apply elem_of_nil in Hin.
Qed.

Lemma builtin_shared c n fs l f c' n' fs' l' f' :
  (c, GStruct n fs) ∈ builtin_types -> attributes fs l -> f ∈ l ->
  (c', GStruct n' fs') ∈ builtin_types -> attributes fs' l' -> f' ∈ l' ->
  tf_code f = tf_code f' -> tf_type f = tf_type f'.
Proof.
  intros Hin Hat Hf Hin' Hat' Hf' E.
  rewrite <- (builtin_table _ _ _ _ Hin Hat) in Hf. rewrite <- (builtin_table _ _ _ _ Hin' Hat') in Hf'.
  assert (forallb (fun f => forallb (fun f' => implb (N.eqb (tf_code f) (tf_code f'))
      (gotype_eqb (tf_type f) (tf_type f')))
    (concat ((fun '(_, t) => attr_table t) <$> builtin_types)))
    (concat ((fun '(_, t) => attr_table t) <$> builtin_types)) = true) as H by (vm_compute; reflexivity).
  assert (forall c n fs f, (c, GStruct n fs) ∈ builtin_types -> f ∈ attr_table (GStruct n fs) ->
    In f (concat ((fun '(_, t) => attr_table t) <$> builtin_types))) as Hc.
  { intros c0 n0 fs0 f0 H1 H2. apply in_concat. exists (attr_table (GStruct n0 fs0)).
    split; [|by apply elem_of_list_In]. apply elem_of_list_In, elem_of_list_fmap. eexists; split; [|done]. done. }
  rewrite forallb_forall in H. specialize (H _ (Hc _ _ _ _ Hin Hf)).
  rewrite forallb_forall in H. specialize (H _ (Hc _ _ _ _ Hin' Hf')).
  rewrite E, N.eqb_refl in H. by apply gotype_eqb_eq.
Qed.

Lemma builtin_id_leaf c n fs vs f v :
  (c, GStruct n fs) ∈ builtin_types -> typed_fields fs vs ->
  leaf_of fs vs f v -> tf_req f = true -> v = VStr (identity_of (VStruct vs)).
Proof.
  intros Hin Hty Hlf Hreq.
  destruct (registered_attributes _ _ _ _ vanflow_wf (builtin_registered _ _ Hin)) as (l & Hat & Hnd & _).
  assert (f ∈ l) as Hfl by (by eapply leaf_of_attribute).
  assert (tf_code f = 1%N) as Hc1 by (by apply (builtin_required _ _ _ _ _ Hin Hat Hfl)).
  destruct (builtin_shape _ _ Hin) as (m & rest & [= -> ->]).
  destruct vs as [|w vs]; [done|]. destruct Hty as [Hw Hty]. simpl in Hw.
  destruct w as [| | | | | | |ws|]; try done. destruct ws as [|w0 ws]; [done|].
  destruct Hw as [Hw0 _]. destruct w0 as [s| | | | | | | |]; try done. cbn.
  assert (leaf_of (FCons "BaseRecord" true true "" BaseRecord rest) (VStruct (VStr s :: ws) :: vs)
    (TField "ID" 1 true (GPrim PStr)) (VStr s)) as Hid.
  { apply leaf_embedded. apply leaf_here; [done|]. by apply parse_opts_some. }
  by destruct (leaf_of_fun_code _ _ l f v _ _ Hat Hnd Hlf Hid Hc1) as [_ ->].
Qed.

Lemma builtin_round_trip c n fs b vs :
  (c, GStruct n fs) ∈ builtin_types -> typed_fields fs vs -> times_fit fs vs ->
  identity_of (VStruct vs) <> ""%string ->
  (forall f v t, leaf_of fs vs f v -> pointee v = VTime t -> t = zero_time \/ ~ before_epoch t) ->
  exists a ws, Encode vanflow_registry (record_any b (GStruct n fs) (VStruct vs)) = EncOk a /\
    normal fs vs ws /\
    Decode vanflow_registry (Some a) = Ok (record_any true (GStruct n fs) (VStruct ws)).
Proof.
  intros Hin Hty Hfit Hid Htm.
  destruct (encode_iff _ b n fs vs c vanflow_wf (builtin_registered _ _ Hin) Hty Hfit) as [[_ Hi] _].
  destruct Hi as [a Ha].
  { intros f v Hlf. split; [|intros t; exact (Htm f v t Hlf)].
    intros Hreq. rewrite (builtin_id_leaf _ _ _ _ _ _ Hin Hty Hlf Hreq). done. }
  destruct (round_trip _ _ _ _ _ _ vanflow_wf Hty Hfit (builtin_no_zero _ _ _ Hin) Ha) as (ws & Hn & Hd).
  by exists a, ws.
Qed.

(** ** Times *)

Definition plus_micros (t : gotime) (d : Z) : gotime :=
  of_unix_micro (micros t + d).

Lemma wrap_i64_spec z : exists k, wrap_i64 z = (z + k * 2^64)%Z /\ (- 2^63 <= wrap_i64 z < 2^63)%Z.
Proof.
  unfold wrap_i64. exists (- ((z + 2^63) / 2^64))%Z.
  pose proof (Z.div_mod (z + 2^63) (2^64) ltac:(lia)).
  pose proof (Z.mod_pos_bound (z + 2^63) (2^64) ltac:(lia)). lia.
Qed.

Lemma unix_micro_spec t : unix_micro t = wrap_i64 (micros t).
Proof. unfold unix_micro, micros. by rewrite wrap_i64_add. Qed.


Lemma time_encode_iff t n :
  (0 <= t_nsec t < 1000000000)%Z ->
  encode_time t = OutVal (AU64 n) <->
  t <> zero_time /\ (n < 2^63)%N /\ exists k, Z.of_N n = (micros t + k * 2^64)%Z.
Proof.
  intros Hns. unfold encode_time, time_is_zero. rewrite unix_micro_spec.
  destruct (wrap_i64_spec (micros t)) as (k & Hk & Hb). split.
  - case_bool_decide; [done|]. destruct (Z.ltb_spec (wrap_i64 (micros t)) 0) as [?|Hge]; [done|].
    intros [= <-]. split; [done|]. unfold to_u64. rewrite Z.mod_small by lia.
    split; [lia|]. exists k. lia.
  - intros (Hne & Hn & k' & Hk'). case_bool_decide; [done|].
    assert (wrap_i64 (micros t) = Z.of_N n) as Heq by lia. rewrite Heq.
    destruct (Z.ltb_spec (Z.of_N n) 0); [lia|]. unfold to_u64. rewrite Z.mod_small by lia.
    by rewrite N2Z.id.
Qed.

Lemma time_round_trip t :
  (0 <= t_nsec t < 1000000000)%Z -> (0 <= micros t < 2^63)%Z ->
  exists n, encode_time t = OutVal (AU64 n) /\ decode_time (AU64 n) = Some (trunc_micro t).
Proof.
  intros Hns Hm. exists (Z.to_N (micros t)).
  assert (t <> zero_time) by (intros ->; pose proof zero_time_micros; lia). split.
  - apply time_encode_iff; [done|]. split; [done|]. split; [lia|]. exists 0%Z. lia.
  - unfold decode_time, maxint64. destruct (N.ltb_spec (2^63 - 1) (Z.to_N (micros t))) as [?|?]; [lia|].
    rewrite Z2N.id by lia. f_equal. by apply of_unix_micro_micros.
Qed.

Lemma time_decode_iff x t :
  decode_time x = Some t <-> exists n, x = AU64 n /\ (n < 2^63)%N /\ t = of_unix_micro (Z.of_N n).
Proof.
  unfold decode_time, maxint64. split.
  - destruct x; try done. destruct (N.ltb_spec (2^63 - 1) n); [done|]. intros [= <-].
    exists n. split; [done|]. split; [lia|done].
  - intros (n & -> & Hn & ->). destruct (N.ltb_spec (2^63 - 1) n); [lia|done].
Qed.
