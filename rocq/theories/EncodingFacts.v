(** Lemmas about the codec model. *)
From Coq Require Import ZArith NArith Ascii String Lia.
From stdpp Require Import base gmap strings list.
From Verif Require Import GoBase Encoding SpecEncoding.

Local Open Scope string_scope.
Local Open Scope list_scope.

(** ** Induction over field lists, through embedded structs *)

Section gofields_ind2.
  Variable Q : gofields -> Prop.
  Hypothesis Hnil : Q FNil.
  Hypothesis Hcons : forall n a e tg t rest,
    (forall m fs, t = GStruct m fs -> Q fs) -> Q rest -> Q (FCons n a e tg t rest).
  Fixpoint gofields_ind2 (fs : gofields) : Q fs :=
    match fs with
    | FNil => Hnil
    | FCons n a e tg t rest =>
        Hcons n a e tg t rest
          (match t as t0 return (forall m fs, t0 = GStruct m fs -> Q fs) with
           | GStruct m fs' => fun m' fs'' E =>
               match E in _ = t1 return
                 match t1 with GStruct _ f => Q f | _ => True end with
               | eq_refl => gofields_ind2 fs'
               end
           | GPrim _ => fun m' fs'' E => ltac:(discriminate)
           | GTime => fun m' fs'' E => ltac:(discriminate)
           | GPtr _ => fun m' fs'' E => ltac:(discriminate)
           | GOther _ => fun m' fs'' E => ltac:(discriminate)
           end)
          (gofields_ind2 rest)
    end.
End gofields_ind2.

(** ** Type equality *)

Scheme gotype_mut := Induction for gotype Sort Prop
  with gofields_mut := Induction for gofields Sort Prop.

Lemma gotype_eqb_eq t t' : gotype_eqb t t' = true <-> t = t'.
Proof.
  revert t'.
  apply (gotype_mut (fun t => forall t', gotype_eqb t t' = true <-> t = t')
                    (fun fs => forall fs', gofields_eqb fs fs' = true <-> fs = fs')).
  - intros k t'; destruct k, t' as [[]| | | |]; simpl; split; congruence.
  - intros t'; destruct t'; simpl; split; congruence.
  - intros t1 IH t'; destruct t'; simpl; try (split; congruence).
    rewrite IH; split; congruence.
  - intros n fs IH t'; destruct t'; simpl; try (split; congruence).
    rewrite andb_true_iff, bool_decide_eq_true, IH.
    split; [intros [-> ->]; done|by intros [= -> ->]].
  - intros n t'; destruct t'; simpl; try (split; congruence).
    rewrite bool_decide_eq_true; split; congruence.
  - intros fs'; destruct fs'; simpl; split; congruence.
  - intros n a e tg t1 IHt r IHr fs'; destruct fs'; simpl; try (split; congruence).
    rewrite !andb_true_iff, !bool_decide_eq_true, IHt, IHr.
    split; [intros [[[[[-> ->] ->] ->] ->] ->]; done|by intros [= -> -> -> -> -> ->]].
Qed.

Lemma gotype_eqb_refl t : gotype_eqb t t = true.
Proof. by apply gotype_eqb_eq. Qed.

Lemma gotype_eqb_neq t t' : gotype_eqb t t' = false <-> t <> t'.
Proof.
  rewrite <- gotype_eqb_eq. destruct (gotype_eqb t t'); split; congruence.
Qed.

Global Instance gotype_eq_dec : EqDecision gotype.
Proof.
  intros t t'. destruct (gotype_eqb t t') eqn:E.
  - left. by apply gotype_eqb_eq.
  - right. by apply gotype_eqb_neq.
Defined.

(** ** Tags *)

Lemma digit_of_Some c d : digit_of c = Some d <-> is_digit c /\ d = (N_of_ascii c - 48)%N.
Proof.
  unfold digit_of, is_digit.
  destruct ((48 <=? N_of_ascii c) && (N_of_ascii c <=? 57))%N%bool eqn:E.
  - apply andb_true_iff in E as [E1 E2].
    apply N.leb_le in E1. apply N.leb_le in E2. split.
    + intros [= <-]; done.
    + by intros [_ ->].
  - split; [done|]. intros [[H1 H2] _].
    apply N.leb_le in H1. apply N.leb_le in H2. by rewrite H1, H2 in E.
Qed.

Lemma parse_digits_Some s acc n :
  parse_digits s acc = Some n <->
  all_digits s /\ n = (acc * 10 ^ N.of_nat (String.length s) + dec_value s)%N.
Proof.
  revert acc n; induction s as [|c s IH]; intros acc n; cbn [parse_digits all_digits dec_value String.length].
  - rewrite N.pow_0_r, N.mul_1_r, N.add_0_r. split; [by intros [= ->]|by intros [_ ->]].
  - destruct (digit_of c) as [d|] eqn:E.
    + apply digit_of_Some in E as [Hd ->]. rewrite IH.
      rewrite Nat2N.inj_succ, N.pow_succ_r'.
      split.
      * intros [Hs ->]. split; [done|]. rewrite !N.mul_add_distr_r, !N.mul_assoc, N.add_assoc. lia.
      * intros [[_ Hs] ->]. split; [done|]. rewrite !N.mul_add_distr_r, !N.mul_assoc, N.add_assoc. lia.
    + split; [done|]. intros [[Hc _] _].
      assert (digit_of c = Some (N_of_ascii c - 48)%N) as E' by (by apply digit_of_Some).
      congruence.
Qed.

Lemma parse_uint32_Some s n :
  parse_uint32 s = Some n <->
  s <> "" /\ all_digits s /\ dec_value s = n /\ (n < 2^32)%N.
Proof.
  unfold parse_uint32. destruct s as [|c s]; [by split; [|intros [? _]]|].
  destruct (parse_digits (String c s) 0) as [m|] eqn:E.
  - apply parse_digits_Some in E as [Hd Hm]. rewrite N.mul_0_l, N.add_0_l in Hm. subst m.
    destruct (N.ltb_spec (dec_value (String c s)) (2^32)%N) as [Hlt|Hge].
    + split; [by intros [= <-]|]. intros (_ & _ & <- & _); done.
    + split; [done|]. intros (_ & _ & <- & Hlt). exfalso. by apply N.lt_nge in Hlt.
  - split; [done|]. intros (_ & Hd & _ & _).
    assert (parse_digits (String c s) 0 = Some (0 * 10 ^ N.of_nat (String.length (String c s)) + dec_value (String c s))%N)
      as E' by (by apply parse_digits_Some).
    congruence.
Qed.

Lemma not_digit_comma : ~ is_digit ","%char.
Proof. intros [H _]. by vm_compute in H. Qed.

Lemma cut_comma_app ds rest :
  all_digits ds -> cut_comma (ds ++ String "," rest)%string = (ds, rest).
Proof.
  induction ds as [|c ds IH]; [done|].
  - change (String c ds +:+ String "," rest) with (String c (ds +:+ String "," rest)).
    cbn [all_digits cut_comma]. intros [Hc Hds]. rewrite bool_decide_eq_false_2; [by rewrite IH|].
    intros ->. by apply not_digit_comma.
Qed.

Lemma cut_comma_digits ds : all_digits ds -> cut_comma ds = (ds, "").
Proof.
  induction ds as [|c ds IH]; simpl; [done|].
  intros [Hc Hds]. rewrite bool_decide_eq_false_2; [by rewrite IH|].
  intros ->. by apply not_digit_comma.
Qed.

Lemma cut_comma_inv s a b :
  cut_comma s = (a, b) -> (s = a /\ b = "") \/ s = (a ++ String "," b)%string.
Proof.
  revert a b; induction s as [|c s IH]; intros a b; cbn [cut_comma].
  - intros [= <- <-]; by left.
  - case_bool_decide as Hc.
    + intros [= <- <-]. right. by subst.
    + destruct (cut_comma s) as [a' b'] eqn:E. intros [= <- <-].
      destruct (IH _ _ eq_refl) as [[-> ->]| ->]; [by left|by right].
Qed.

Lemma append_nil_r' (s : string) : (s ++ "")%string = s.
Proof. induction s as [|c s IH]; [done|].
  change (String c s +:+ "") with (String c (s +:+ "")). by rewrite IH. Qed.

Lemma append_eq_nil (a b : string) : (a ++ b)%string = "" -> a = "".
Proof. by destruct a. Qed.

Lemma parse_opts_none tag : parse_field_opts tag = Ok None <-> tag = "".
Proof.
  unfold parse_field_opts. case_bool_decide as H; [done|].
  destruct (cut_comma tag) as [a b]. destruct (parse_uint32 a); [|done].
  repeat case_bool_decide; done.
Qed.

Lemma parse_opts_some tag c r :
  parse_field_opts tag = Ok (Some (c, r)) <-> tag <> "" /\ tag_denotes tag c r.
Proof.
  unfold parse_field_opts. case_bool_decide as Hne; [split; [done|by intros [? _]]|].
  destruct (cut_comma tag) as [a b] eqn:Ecut. split.
  - destruct (parse_uint32 a) as [n|] eqn:Ep; [|done].
    apply parse_uint32_Some in Ep as (Ha & Hd & Hv & Hlt).
    apply cut_comma_inv in Ecut.
    case_bool_decide as Hr.
    + intros [= -> <-]. split; [done|]. exists a. repeat split; try done.
      right; right. split; [|done]. destruct Ecut as [[_ ->]| ->]; [done|by subst].
    + case_bool_decide as Hb; [|done]. intros [= -> <-]. split; [done|]. exists a. repeat split; try done.
      destruct Ecut as [[-> _]| ->]; [by left|right; left; by subst].
  - intros [_ (ds & Hds & Hdig & Hv & Hlt & Htag)].
    assert (parse_uint32 ds = Some c) as Hp by (apply parse_uint32_Some; done).
    destruct Htag as [[-> ->]|[[-> ->]|[-> ->]]].
    + rewrite cut_comma_digits in Ecut by done. injection Ecut as <- <-. by rewrite Hp.
    + rewrite cut_comma_app in Ecut by done. injection Ecut as <- <-. by rewrite Hp.
    + change ",required" with (String "," "required") in Ecut.
      rewrite cut_comma_app in Ecut by done. injection Ecut as <- <-. by rewrite Hp.
Qed.

Lemma parse_opts_total tag :
  parse_field_opts tag = Panic \/ exists o, parse_field_opts tag = Ok o.
Proof.
  unfold parse_field_opts. case_bool_decide; [eauto|].
  destruct (cut_comma tag) as [a b]. destruct (parse_uint32 a); [|eauto].
  repeat case_bool_decide; eauto.
Qed.

Lemma tag_denotes_fun tag c r c' r' :
  tag <> "" -> tag_denotes tag c r -> tag_denotes tag c' r' -> c = c' /\ r = r'.
Proof.
  intros Hne H1 H2.
  assert (parse_field_opts tag = Ok (Some (c, r))) as E1 by (by apply parse_opts_some).
  assert (parse_field_opts tag = Ok (Some (c', r'))) as E2 by (by apply parse_opts_some).
  rewrite E1 in E2. by injection E2.
Qed.

(** ** Supported types have codecs *)

Lemma get_enc_ptr t :
  get_field_encoder (GPtr t) =
  match t with
  | GTime => Some EncAttr
  | _ => EncPtr <$> get_field_encoder t
  end.
Proof. by destruct t. Qed.

Lemma get_dec_ptr t :
  get_field_decoder (GPtr t) =
  match t with
  | GTime => Some DecAttr
  | _ => DecPtr <$> get_field_decoder t
  end.
Proof. by destruct t. Qed.

Lemma get_enc_supported t : supported t <-> exists e, get_field_encoder t = Some e.
Proof.
  split.
  - induction 1 as [k| |t H [e IH]]; simpl; eauto.
    destruct t; rewrite ?IH; eauto.
  - induction t as [k| |t IH|n fs|n]; intros [e He]; try done; try by constructor.
    constructor. rewrite get_enc_ptr in He. apply IH.
    destruct (get_field_encoder t) eqn:E; [eauto|]. by destruct t.
Qed.

Lemma get_dec_supported t : supported t <-> exists e, get_field_decoder t = Some e.
Proof.
  split.
  - induction 1 as [k| |t H [e IH]]; simpl; eauto.
    destruct t; rewrite ?IH; eauto.
  - induction t as [k| |t IH|n fs|n]; intros [e He]; try done; try by constructor.
    constructor. rewrite get_dec_ptr in He. apply IH.
    destruct (get_field_decoder t) eqn:E; [eauto|]. by destruct t.
Qed.

(** ** Times *)

Ltac Zify.zify_post_hook ::= Z.div_mod_to_equations.

Lemma wrap_i64_id z : (- 2^63 <= z < 2^63)%Z -> wrap_i64 z = z.
Proof. intros H. unfold wrap_i64. rewrite Z.mod_small; lia. Qed.

Lemma wrap_i64_add a b : wrap_i64 (wrap_i64 a + b) = wrap_i64 (a + b).
Proof.
  unfold wrap_i64. f_equal.
  replace ((a + 2^63) mod 2^64 - 2^63 + b + 2^63)%Z with ((a + 2^63) mod 2^64 + b)%Z by lia.
  rewrite Zplus_mod_idemp_l. f_equal. lia.
Qed.

Lemma unix_micro_fits t : fits_int64 t -> unix_micro t = micros t.
Proof.
  intros H. unfold unix_micro. rewrite wrap_i64_add. by apply wrap_i64_id.
Qed.

Lemma of_unix_micro_micros t :
  (0 <= t_nsec t < 1000000000)%Z -> of_unix_micro (micros t) = trunc_micro t.
Proof.
  destruct t as [s n]; unfold of_unix_micro, micros, trunc_micro; simpl. intros H.
  f_equal; lia.
Qed.

Lemma micros_of_unix_micro u : micros (of_unix_micro u) = u.
Proof. unfold micros, of_unix_micro; simpl. lia. Qed.

Lemma of_unix_micro_nsec u : (0 <= t_nsec (of_unix_micro u) < 1000000000)%Z.
Proof. unfold of_unix_micro; simpl. lia. Qed.

Lemma zero_time_micros : (micros zero_time < 0)%Z.
Proof. done. Qed.

Lemma trunc_zero_time : trunc_micro zero_time = zero_time.
Proof. done. Qed.

(** ** One field *)

Lemma empty_value_ptr v : empty_value (VPtr (Some v)) <-> empty_value v.
Proof. done. Qed.

Definition enc_outcome (v : goval) : attrout :=
  if bool_decide (empty_value v) then OutNotSet
  else match pointee v with
       | VTime t => if bool_decide (before_epoch t) then OutErr else OutVal (attr_of v)
       | _ => OutVal (attr_of v)
       end.

Global Instance before_epoch_dec t : Decision (before_epoch t).
Proof. unfold before_epoch. apply _. Defined.

Lemma encode_time_spec t :
  fits_int64 t ->
  encode_time t = enc_outcome (VTime t).
Proof.
  intros Hf. unfold encode_time, enc_outcome, time_is_zero. cbn [pointee].
  destruct (decide (t = zero_time)) as [->|Hz]; [done|].
  rewrite bool_decide_eq_false_2 by done. rewrite (bool_decide_eq_false_2 (empty_value _)) by done.
  cbn zeta.
  rewrite unix_micro_fits by done. unfold before_epoch.
  destruct (Z.ltb_spec (micros t) 0).
  - by rewrite bool_decide_eq_true_2 by done.
  - rewrite bool_decide_eq_false_2 by lia.
    unfold attr_of, to_u64; cbn [pointee]. rewrite Z.mod_small; [done|].
    destruct Hf. lia.
Qed.

Lemma run_enc_spec t e v :
  get_field_encoder t = Some e -> typed t v ->
  (forall tm, pointee v = VTime tm -> fits_int64 tm) ->
  run_enc e v = enc_outcome v.
Proof.
  revert e v; induction t as [k| |t IH|n fs|n]; intros e v He Hv Hf; try done.
  - injection He as <-.
    destruct k, v as [s|n|z|n|z|?|?|?|?]; try done; cbn [run_enc encode_raw]; unfold enc_outcome.
    + destruct (N.eqb_spec n 0) as [->|Hs]; [done|]. by rewrite bool_decide_eq_false_2 by done.
    + destruct (Z.eqb_spec z 0) as [->|Hs]; [done|]. by rewrite bool_decide_eq_false_2 by done.
    + destruct (N.eqb_spec n 0) as [->|Hs]; [done|]. by rewrite bool_decide_eq_false_2 by done.
    + destruct (Z.eqb_spec z 0) as [->|Hs]; [done|]. by rewrite bool_decide_eq_false_2 by done.
  - injection He as <-. destruct v; try done. cbn [run_enc]. apply encode_time_spec. by apply Hf.
  - rewrite get_enc_ptr in He. destruct v as [| | | | | |[v'|]| |]; try done.
    + assert (enc_outcome (VPtr (Some v')) = enc_outcome v') as -> by done.
      destruct t; try (destruct (get_field_encoder _) eqn:E; [|done]; injection He as <-;
        cbn [run_enc]; by apply IH).
      injection He as <-. destruct v'; try done. cbn [run_enc]. apply encode_time_spec. by apply Hf.
    + by destruct t; try (destruct (get_field_encoder _) eqn:E; [|done]); injection He as <-.
Qed.

Lemma attr_of_not_nil t v : supported t -> typed t v -> ~ empty_value v -> attr_of v <> ANil.
Proof.
  intros Hs; revert v; induction Hs as [k| |t Hs IH]; intros v Hv He.
  - destruct k, v; done.
  - destruct v; done.
  - destruct v as [| | | | | |[v'|]| |]; try done. exact (IH v' Hv He).

Qed.

Lemma decode_time_attr t :
  (0 <= t_nsec t < 1000000000)%Z -> fits_int64 t -> ~ before_epoch t ->
  decode_time (AU64 (Z.to_N (micros t))) = Some (trunc_micro t).
Proof.
  intros Hn Hf Hb. unfold decode_time, maxint64. unfold fits_int64, before_epoch in *.
  destruct (N.ltb_spec (2^63 - 1)%N (Z.to_N (micros t))) as [H|H].
  - exfalso. lia.
  - rewrite Z2N.id by lia. by rewrite of_unix_micro_micros.
Qed.

Lemma run_dec_roundtrip t d v :
  get_field_decoder t = Some d -> typed t v -> ~ empty_value v ->
  (forall tm, pointee v = VTime tm -> fits_int64 tm /\ ~ before_epoch tm) ->
  run_dec d t (attr_of v) (zero_value t) = Ok (normal_value v).
Proof.
  revert d v; induction t as [k| |t IH|n fs|n]; intros d v Hd Hv He Ht; try done.
  - injection Hd as <-. by destruct k, v.
  - injection Hd as <-. destruct v; try done. cbn [run_dec].
    destruct (Ht _ eq_refl). unfold attr_of; cbn [pointee]. by rewrite decode_time_attr.
  - rewrite get_dec_ptr in Hd. destruct v as [| | | | | |[v'|]| |]; try done.
    + cbn [normal_value]. rewrite bool_decide_eq_false_2 by done.
      assert (attr_of (VPtr (Some v')) = attr_of v') as -> by done.
      destruct t; try (destruct (get_field_decoder _) eqn:E; [|done]; injection Hd as <-;
        cbn [run_dec zero_value]; rewrite IH; done).
      injection Hd as <-. destruct v'; try done. cbn [run_dec].
      destruct (Ht _ eq_refl). unfold attr_of; cbn [pointee]. by rewrite decode_time_attr.
Qed.

Lemma normal_value_empty t v :
  supported t -> typed t v -> empty_value v -> normal_value v = zero_value t.
Proof.
  intros Hs. destruct Hs as [k| |t Hs]; intros Hv He.
  - destruct k, v; try done; unfold empty_value in He; cbn in He; by subst.
  - destruct v; try done. unfold empty_value in He; cbn in He; by subst.
  - destruct v as [| | | | | |[v'|]| |]; try done. cbn [normal_value zero_value].
    by rewrite bool_decide_eq_true_2.
Qed.

(** General decoding of one field: what the wire type check means. *)

Definition dec_attr_value (t : gotype) (a : attr) : goval :=
  (fix go t := match t with
   | GPtr t' => VPtr (Some (go t'))
   | GTime => match a with AU64 n => VTime (of_unix_micro (Z.of_N n)) | _ => VOther 0 end
   | _ => match a with
          | AStr s => VStr s | AU64 n => VU64 n | AU32 n => VU32 n
          | AI64 z => VI64 z | AI32 z => VI32 z | _ => VOther 0 end
   end) t.

Lemma wire_type_ok_ptr t a : wire_type_ok (GPtr t) a = wire_type_ok t a.
Proof. done. Qed.

Lemma decode_time_spec a :
  decode_time a = match a with
                  | AU64 n => if bool_decide (n < 2^63)%N then Some (of_unix_micro (Z.of_N n)) else None
                  | _ => None end.
Proof.
  destruct a; try done. unfold decode_time, maxint64.
  case_bool_decide as H.
  - destruct (N.ltb_spec (2^63 - 1)%N n); [lia|done].
  - destruct (N.ltb_spec (2^63 - 1)%N n); [done|lia].
Qed.

Global Instance wire_type_ok_dec t a : Decision (wire_type_ok t a).
Proof. unfold wire_type_ok. destruct (base_type t) as [[]| | | |], a; apply _. Defined.

Lemma run_dec_spec t d a :
  get_field_decoder t = Some d ->
  run_dec d t a (zero_value t) =
    if bool_decide (wire_type_ok t a) then Ok (dec_attr_value t a)
    else if bool_decide (a = ANil /\ base_type t <> GTime) then Panic else Err tt.
Proof.
  revert d; induction t as [k| |t IH|n fs|n]; intros d Hd; try done.
  - injection Hd as <-. cbn [run_dec]. destruct k, a; cbn [decode_raw]; try done;
      (rewrite bool_decide_eq_false_2 by (intros []); rewrite ?bool_decide_eq_false_2 by (intros [? ?]; done); done).
  - injection Hd as <-. cbn [run_dec]. rewrite decode_time_spec.
    destruct a; try done; cbn [wire_type_ok base_type].
    all: try (rewrite bool_decide_eq_false_2 by (by intros []);
              rewrite bool_decide_eq_false_2 by (intros [? ?]; done); done).
    destruct (decide (n < 2^63)%N).
    + rewrite bool_decide_eq_true_2 by done. by rewrite bool_decide_eq_true_2 by done.
    + rewrite bool_decide_eq_false_2 by done. rewrite bool_decide_eq_false_2 by done.
      by rewrite bool_decide_eq_false_2 by (intros [? ?]; done).
  - rewrite get_dec_ptr in Hd.
    assert (forall d', get_field_decoder t = Some d' ->
      run_dec (DecPtr d') (GPtr t) a (zero_value (GPtr t)) =
      (if bool_decide (wire_type_ok (GPtr t) a) then Ok (dec_attr_value (GPtr t) a)
      else if bool_decide (a = ANil ∧ base_type (GPtr t) ≠ GTime) then Panic else Err tt)) as Hgen.
    { intros d' E. cbn [run_dec zero_value]. rewrite (IH _ E).
      destruct (decide (wire_type_ok t a)).
      { rewrite bool_decide_eq_true_2 by done. by rewrite bool_decide_eq_true_2 by done. }
      rewrite bool_decide_eq_false_2 by done. rewrite (bool_decide_eq_false_2 (wire_type_ok (GPtr t) a)) by done.
      by destruct (decide (a = ANil /\ base_type t <> GTime)) as [H|H];
        [rewrite bool_decide_eq_true_2 by done; try rewrite bool_decide_eq_true_2 by done
        |rewrite bool_decide_eq_false_2 by done; try rewrite bool_decide_eq_false_2 by done]. }
    destruct t; try (destruct (get_field_decoder _) eqn:E; [|done]; injection Hd as <-; by apply Hgen).
    injection Hd as <-. cbn [run_dec]. rewrite decode_time_spec.
    destruct a; try done; cbn [wire_type_ok base_type].
    all: try (rewrite bool_decide_eq_false_2 by (by intros []);
              rewrite bool_decide_eq_false_2 by (intros [? ?]; done); done).
    destruct (decide (n < 2^63)%N).
    + rewrite bool_decide_eq_true_2 by done. by rewrite bool_decide_eq_true_2 by done.
    + rewrite bool_decide_eq_false_2 by done. rewrite bool_decide_eq_false_2 by done.
      by rewrite bool_decide_eq_false_2 by (intros [? ?]; done).
Qed.

Lemma pointee_dec_attr t a :
  pointee (dec_attr_value t a) = dec_attr_value (base_type t) a.
Proof.
  induction t as [[]| |t IH|n fs|n]; by destruct a.
Qed.

Lemma dec_attr_value_attr t a :
  wire_type_ok t a -> attr_of (dec_attr_value t a) = a.
Proof.
  unfold wire_type_ok, attr_of. rewrite pointee_dec_attr.
  destruct (base_type t) as [[]| | | |], a; try done; intros H; cbn.
  rewrite micros_of_unix_micro. by rewrite N2Z.id.
Qed.

Lemma dec_attr_value_empty t a :
  wire_type_ok t a -> empty_value (dec_attr_value t a) <-> empty_attr t a.
Proof.
  unfold wire_type_ok, empty_value, empty_attr. rewrite pointee_dec_attr.
  destruct (base_type t) as [[]| | | |], a; try done; intros H; cbn.
  - split; [intros ->; by left|]. intros [[=]|[|[|[|]]]]; done.
  - split; [intros ->; right; by left|]. intros [|[[=]|[|[|]]]]; done.
  - split; [intros ->; auto|]. intros [|[|[|[[=]|]]]]; done.
  - split; [intros ->; auto|]. intros [|[|[[=]|[|]]]]; done.
  - split; [intros ->; auto|]. intros [|[|[|[|[=]]]]]; done.
  - split; [|done]. intros Hz.
    assert (micros (of_unix_micro (Z.of_N n)) < 0)%Z as Hm by (rewrite Hz; apply zero_time_micros).
    rewrite micros_of_unix_micro in Hm. lia.
Qed.

Lemma zero_value_empty t : supported t -> empty_value (zero_value t).
Proof. intros []; [destruct k|..]; done. Qed.

Lemma zero_value_time t tm : supported t -> pointee (zero_value t) = VTime tm -> tm = zero_time.
Proof. intros []; [destruct k|..]; cbn; congruence. Qed.
