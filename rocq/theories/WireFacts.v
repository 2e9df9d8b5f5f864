(** Facts behind C121. *)
From Coq Require Import ZArith NArith Ascii String Lia.
From stdpp Require Import base gmap strings list.
From Verif Require Import GoBase Encoding SpecEncoding EncodingFacts CodecFacts DecodeFacts CodecTop
  Records CodecLemmas BuiltinFacts CodecExamples WireTable.

Local Open Scope list_scope.

Definition as_field : N * string * wkind -> tfield :=
  fun '(p, name, k) => TField name p (N.eqb p 1) (wtype k).

(** The table against the transcription. *)
Lemma table_agrees :
  ((fun '(c, t) => (c, attr_table t)) <$> builtin_types) =
  ((fun '(c, n, l) => (c, as_field <$> all_fields l)) <$> wire_table) /\
  ((fun '(c, t) => (c, match t with GStruct n _ => n | _ => ""%string end)) <$> builtin_types) =
  ((fun '(c, n, l) => (c, n)) <$> wire_table).
Proof. split; vm_compute; reflexivity. Qed.

Lemma row_names c n l : (c, n, l) ∈ wire_table ->
  NoDup ((fun x => x.1.2) <$> all_fields l).
Proof.
  assert (forallb (fun '(_, _, l) => bool_decide (NoDup ((fun x => x.1.2) <$> all_fields l))) wire_table = true)
    as H by (vm_compute; reflexivity).
  rewrite forallb_forall in H. intros Hin. apply elem_of_list_In in Hin. specialize (H _ Hin).
  cbv beta iota in H. by apply bool_decide_eq_true in H.
Qed.

Lemma row_of_type c t : (c, t) ∈ builtin_types ->
  exists n fs l, t = GStruct n fs /\ (c, n, l) ∈ wire_table /\ attributes fs (as_field <$> all_fields l).
Proof.
  intros Hin. pose proof Hin as Hin'.
  destruct (builtin_facts _ _ Hin) as (_ & n & fs & al & -> & Hat & _).
  apply elem_of_list_lookup in Hin as [i Hi]. destruct table_agrees as [H1 H2].
  assert (((fun '(c, t) => (c, attr_table t)) <$> builtin_types) !! i = Some (c, al)) as E1.
  { rewrite list_lookup_fmap, Hi. by rewrite <- (builtin_table _ _ _ _ Hin' Hat). }
  assert (((fun '(c, t) => (c, match t with GStruct n _ => n | _ => ""%string end)) <$> builtin_types) !! i
    = Some (c, n)) as E2.
  { by rewrite list_lookup_fmap, Hi. }
  rewrite H1, list_lookup_fmap in E1. rewrite H2, list_lookup_fmap in E2.
  destruct (wire_table !! i) as [[[c' n'] l]|] eqn:Ei; [|done].
  cbn [fmap option_fmap option_map] in E1, E2. injection E1 as -> <-. injection E2 as ->.
  exists n, fs, l. split; [done|]. split; [by eapply elem_of_list_lookup_2|done].
Qed.

Lemma type_of_row c n l : (c, n, l) ∈ wire_table -> exists fs, (c, GStruct n fs) ∈ builtin_types /\
  attributes fs (as_field <$> all_fields l).
Proof.
  intros Hin. apply elem_of_list_lookup in Hin as [i Hi]. destruct table_agrees as [H1 H2].
  assert (exists t, builtin_types !! i = Some (c, t)) as [t Ht].
  { assert (((fun '(c, n, l) => (c, n)) <$> wire_table) !! i = Some (c, n)) as E by (by rewrite list_lookup_fmap, Hi).
    rewrite <- H2, list_lookup_fmap in E. destruct (builtin_types !! i) as [[c' t]|]; [|done].
    cbn in E. injection E as -> _. by exists t. }
  assert ((c, t) ∈ builtin_types) as Hb by (by eapply elem_of_list_lookup_2).
  destruct (builtin_facts _ _ Hb) as (_ & n' & fs & al & -> & Hat & _).
  assert (n' = n) as ->.
  { assert (((fun '(c, n, l) => (c, n)) <$> wire_table) !! i = Some (c, n)) as E by (by rewrite list_lookup_fmap, Hi).
    rewrite <- H2, list_lookup_fmap, Ht in E. cbn in E. by injection E. }
  exists fs. split; [done|].
  assert (((fun '(c, n, l) => (c, as_field <$> all_fields l)) <$> wire_table) !! i = Some (c, as_field <$> all_fields l))
    as E by (by rewrite list_lookup_fmap, Hi).
  rewrite <- H1, list_lookup_fmap, Ht in E. cbn [fmap option_fmap option_map] in E.
  rewrite (builtin_table _ _ _ _ Hb Hat) in E. injection E as ->. done.
Qed.

(** Nothing else is registered. *)
Lemma registered_builtin c t : registered vanflow_registry t c -> (c, t) ∈ builtin_types.
Proof.
  unfold vanflow_registry. intros H.
  destruct (proj1 (registered_history builtin_calls t c) H) as (pre & x & post & reg' & E & Hh & _). clear H.
  assert ((c, x) ∈ builtin_calls) as Hin by (rewrite E; apply elem_of_app; right; apply elem_of_list_here).
  unfold builtin_calls in Hin. apply elem_of_list_fmap in Hin as ([c' t'] & [= -> ->] & Hin).
  assert (exists n fs, t' = GStruct n fs) as (n & fs & ->).
  { destruct (builtin_facts _ _ Hin) as (_ & n & fs & _ & -> & _). by exists n, fs. }
  destruct Hh as [(v & Ev & _)|(v & Ev)].
  - injection Ev as Et _. rewrite <- Et. exact Hin.
  - discriminate Ev.
Qed.

Lemma wire_types c t :
  registered vanflow_registry t c <->
  exists n fs l, (c, n, l) ∈ wire_table /\ t = GStruct n fs /\ (c, t) ∈ builtin_types /\
    attributes fs ((fun '(p, name, k) => TField name p (N.eqb p 1) (wtype k)) <$> all_fields l).
Proof.
  split.
  - intros H. apply registered_builtin in H. destruct (row_of_type _ _ H) as (n & fs & l & -> & Hr & Hat).
    by exists n, fs, l.
  - intros (n & fs & l & _ & -> & Hb & _). by apply builtin_registered.
Qed.

(** A row and the type registered under its name and code. *)
Lemma row_type c n l fs : (c, n, l) ∈ wire_table -> registered vanflow_registry (GStruct n fs) c ->
  (c, GStruct n fs) ∈ builtin_types /\ attributes fs (as_field <$> all_fields l).
Proof.
  intros Hin Hr. destruct (type_of_row _ _ _ Hin) as (fs' & Hb & Hat).
  assert (GStruct n fs = GStruct n fs') as [= ->].
  { eapply registered_code_inj; [apply vanflow_wf|done|by apply builtin_registered]. }
  done.
Qed.

Lemma field_here l p name k : (p, name, k) ∈ all_fields l ->
  TField name p (N.eqb p 1) (wtype k) ∈ as_field <$> all_fields l.
Proof. intros H. by apply (elem_of_list_fmap_1 as_field) in H. Qed.

Lemma by_name c n l f p name k : (c, n, l) ∈ wire_table -> (p, name, k) ∈ all_fields l ->
  f ∈ as_field <$> all_fields l -> tf_name f = name -> f = TField name p (N.eqb p 1) (wtype k).
Proof.
  intros Hin Hp Hf En. apply elem_of_list_fmap in Hf as ([[p' name'] k'] & -> & Hf). cbn in En. subst name'.
  apply row_names in Hin. apply elem_of_list_lookup in Hp as [i Hi]. apply elem_of_list_lookup in Hf as [j Hj].
  assert (i = j) as ->.
  { eapply (NoDup_lookup _ i j name Hin); by rewrite list_lookup_fmap, ?Hi, ?Hj. }
  rewrite Hi in Hj. by injection Hj as -> ->.
Qed.

Lemma wire_fields c n l fs vs p name k :
  (c, n, l) ∈ wire_table -> registered vanflow_registry (GStruct n fs) c -> typed_fields fs vs ->
  (p, name, k) ∈ all_fields l ->
  exists v, field_value fs vs name v /\ typed (wtype k) v /\
    forall w, field_value fs vs name w -> w = v.
Proof.
  intros Hin Hr Hty Hp. destruct (row_type _ _ _ _ Hin Hr) as [Hb Hat].
  destruct (registered_attributes _ _ _ _ vanflow_wf Hr) as (l' & Hat' & Hnd & _).
  rewrite (attributes_fun _ _ _ Hat' Hat) in Hnd. clear l' Hat'.
  destruct (attribute_leaf _ _ _ _ Hat Hty (field_here _ _ _ _ Hp)) as (v & Hlf & Hv).
  exists v. split; [by eexists|]. split; [done|]. intros w (f & Hf & En).
  assert (f ∈ as_field <$> all_fields l) as Hfl by (by eapply leaf_of_attribute).
  rewrite (by_name _ _ _ _ _ _ _ Hin Hp Hfl En) in Hf.
  by destruct (leaf_of_fun_code _ _ _ _ _ _ _ Hat Hnd Hf Hlf eq_refl) as [_ ->].
Qed.

Lemma sent_spec k v : typed (wtype k) v ->
  sent v = if bool_decide (empty_value v) then None else Some (attr_of v).
Proof.
  intros Hv. destruct k; cbn in Hv.
  - destruct v; try done. unfold empty_value, attr_of; cbn. destruct (String.eqb_spec s "").
    + by rewrite bool_decide_eq_true_2.
    + by rewrite bool_decide_eq_false_2.
  - destruct v as [| | | | | |[v|]| |]; try done. destruct v; try done. unfold empty_value, attr_of; cbn.
    destruct (String.eqb_spec s "").
    + by rewrite bool_decide_eq_true_2.
    + by rewrite bool_decide_eq_false_2.
  - destruct v as [| | | | | |[v|]| |]; try done. destruct v; try done. unfold empty_value, attr_of; cbn.
    destruct (N.eqb_spec n 0).
    + by rewrite bool_decide_eq_true_2.
    + by rewrite bool_decide_eq_false_2.
  - destruct v as [| | | | | |[v|]| |]; try done. destruct v; try done.
Qed.

Lemma wire_sent c n l fs by_ptr vs a :
  (c, n, l) ∈ wire_table -> registered vanflow_registry (GStruct n fs) c ->
  typed_fields fs vs -> times_fit fs vs ->
  Encode vanflow_registry (record_any by_ptr (GStruct n fs) (VStruct vs)) = EncOk a ->
  a !! KU32 0 = Some (AU32 c) /\
  (forall p name k v, (p, name, k) ∈ all_fields l -> field_value fs vs name v ->
     a !! KU32 p = sent v) /\
  (forall key, is_Some (a !! key) ->
     key = KU32 0 \/ exists p name k, key = KU32 p /\ (p, name, k) ∈ all_fields l).
Proof.
  intros Hin Hr Hty Hfit He. destruct (row_type _ _ _ _ Hin Hr) as [Hb Hat].
  pose proof (builtin_no_zero _ _ _ Hb) as Hz.
  destruct (registered_attributes _ _ _ _ vanflow_wf Hr) as (l' & Hat' & Hnd & _).
  rewrite (attributes_fun _ _ _ Hat' Hat) in Hnd. clear l' Hat'.
  pose proof (encode_exact _ _ _ _ _ _ _ vanflow_wf Hr Hty Hfit Hz He) as Hx.
  split; [apply Hx; by left|]. split.
  - intros p name k v Hp (f & Hlf & En).
    assert (f ∈ as_field <$> all_fields l) as Hfl by (by eapply leaf_of_attribute).
    pose proof (by_name _ _ _ _ _ _ _ Hin Hp Hfl En) as Ef.
    assert (typed (wtype k) v) as Hv.
    { destruct (attribute_leaf _ _ _ _ Hat Hty Hfl) as (w & Hw & Hwt).
      destruct (leaf_of_fun_code _ _ _ _ _ _ _ Hat Hnd Hlf Hw eq_refl) as [_ ->]. by rewrite Ef in Hwt. }
    assert (p <> 0%N) as Hp0.
    { intros ->. apply (Hz _ f Hat Hfl). by rewrite Ef. }
    rewrite (sent_spec k v Hv). case_bool_decide as Hemp.
    + destruct (a !! KU32 p) as [x|] eqn:E; [|done]. exfalso.
      apply Hx in E as [[[= E] _]|(g & w & Hg & [= Eg] & Hne & _)]; [done|].
      destruct (leaf_of_fun_code _ _ _ f v g w Hat Hnd Hlf Hg) as [_ ->]; [by rewrite Ef|]. done.
    + apply Hx. right. exists f, v. split; [done|]. by rewrite Ef.
  - intros key [x E]. apply Hx in E as [[-> _]|(g & w & Hg & -> & _)]; [by left|right].
    assert (g ∈ as_field <$> all_fields l) as Hgl by (by eapply leaf_of_attribute).
    apply elem_of_list_fmap in Hgl as ([[p name] k] & -> & Hp). by exists p, name, k.
Qed.

Lemma got_spec k p (x : option attr) :
  k = FString <-> p = 1%N ->
  got k x = match x with
    | None => if N.eqb p 1 then None else Some (zero_value (wtype k))
    | Some y => if bool_decide (wire_type_ok (wtype k) y) then Some (dec_attr_value (wtype k) y) else None
    end.
Proof.
  intros Hk. destruct x as [y|].
  - destruct k; destruct y; try done; cbn [got wtype].
    + (* time *)
      destruct (N.ltb_spec n (2^63)).
      * rewrite bool_decide_eq_true_2 by done. cbn. do 4 f_equal. unfold of_unix_micro.
        f_equal; [by rewrite N2Z.inj_div|]. by rewrite N2Z.inj_mul, N2Z.inj_mod.
      * rewrite bool_decide_eq_false_2; [done|]. cbn. lia.
  - destruct (N.eqb_spec p 1) as [E|E].
    + by rewrite (proj2 Hk E).
    + destruct k; try done. exfalso. by apply E, Hk.
Qed.

Lemma row_string c n l p name k : (c, n, l) ∈ wire_table -> (p, name, k) ∈ all_fields l ->
  k = FString <-> p = 1%N.
Proof.
  assert (forallb (fun '(_, _, l) => forallb (fun '(p, _, k) =>
      match k with FString => N.eqb p 1 | _ => negb (N.eqb p 1) end) (all_fields l)) wire_table = true)
    as H by (vm_compute; reflexivity).
  rewrite forallb_forall in H. intros Hin Hp. apply elem_of_list_In in Hin, Hp. specialize (H _ Hin).
  cbv beta iota in H. rewrite forallb_forall in H. specialize (H _ Hp). cbv beta iota in H.
  destruct k; [apply N.eqb_eq in H|apply negb_true_iff, N.eqb_neq in H..]; done.
Qed.

Lemma wire_received c n l fs a r :
  (c, n, l) ∈ wire_table -> registered vanflow_registry (GStruct n fs) c ->
  a !! KU32 0 = Some (AU32 c) -> Decode vanflow_registry (Some a) = Ok r ->
  exists vs, r = record_any true (GStruct n fs) (VStruct vs) /\
    forall p name k v, (p, name, k) ∈ all_fields l -> field_value fs vs name v ->
      got k (a !! KU32 p) = Some v.
Proof.
  intros Hin Hr H0 Hd. destruct (row_type _ _ _ _ Hin Hr) as [Hb Hat].
  destruct (registered_attributes _ _ _ _ vanflow_wf Hr) as (l' & Hat' & Hnd & Hsup).
  rewrite (attributes_fun _ _ _ Hat' Hat) in Hnd, Hsup. clear l' Hat'.
  rewrite (Decode_registered _ n fs c a vanflow_wf Hr H0) in Hd.
  destruct (dec_struct a fs (zero_fields fs)) as [ws| |] eqn:Ews; try done. injection Hd as <-.
  exists ws. split; [done|]. intros p name k v Hp (f & Hlf & En).
  assert (f ∈ as_field <$> all_fields l) as Hfl by (by eapply leaf_of_attribute).
  pose proof (by_name _ _ _ _ _ _ _ Hin Hp Hfl En) as Ef.
  pose proof (dec_struct_ok a fs ws _ Hat Hsup Ews f v Hlf) as Hok. rewrite Ef in Hok.
  cbn [tf_code tf_req tf_type] in Hok.
  rewrite (got_spec k p _ (row_string _ _ _ _ _ _ Hin Hp)).
  destruct (a !! KU32 p) as [x|].
  - destruct Hok as [Hw ->]. by rewrite bool_decide_eq_true_2.
  - destruct Hok as [-> ->]. done.
Qed.

Lemma wire_accepted c n l fs a :
  (c, n, l) ∈ wire_table -> registered vanflow_registry (GStruct n fs) c ->
  a !! KU32 0 = Some (AU32 c) ->
  (exists r, Decode vanflow_registry (Some a) = Ok r) <->
  (forall p name k, (p, name, k) ∈ all_fields l -> got k (a !! KU32 p) <> None).
Proof.
  intros Hin Hr H0. destruct (row_type _ _ _ _ Hin Hr) as [Hb Hat].
  rewrite (decode_ok_iff _ _ _ _ _ _ vanflow_wf Hr Hat H0). unfold attr_fine. split.
  - intros H p name k Hp. specialize (H _ (field_here _ _ _ _ Hp)). cbn [tf_code tf_req tf_type] in H.
    rewrite (got_spec k p _ (row_string _ _ _ _ _ _ Hin Hp)).
    destruct (a !! KU32 p) as [x|].
    + by rewrite bool_decide_eq_true_2.
    + by rewrite H.
  - intros H f Hf. apply elem_of_list_fmap in Hf as ([[p name] k] & -> & Hp).
    specialize (H p name k Hp). cbn [as_field tf_code tf_req tf_type].
    rewrite (got_spec k p _ (row_string _ _ _ _ _ _ Hin Hp)) in H.
    destruct (a !! KU32 p) as [x|].
    + case_bool_decide; done.
    + by destruct (N.eqb p 1).
Qed.

Definition host_fields : gofields :=
  match HostRecord with GStruct _ fs => fs | _ => FNil end.
Definition host_vals : list goval :=
  [VStruct [VStr "h1"; VPtr (Some (VTime (GoTime 7 5000))); VPtr None];
   VPtr (Some (VStr "aws")); VPtr (Some (VStr ""))].

Lemma host_attr : attributes host_fields
  (as_field <$> all_fields [(10%N, "Provider"%string, FStringPtr); (30%N, "Name"%string, FStringPtr)]).
Proof.
  assert ((13%N, GStruct "HostRecord" host_fields) ∈ builtin_types) as Hb
    by (apply elem_of_list_lookup; by exists 13).
  destruct (builtin_facts _ _ Hb) as (_ & n & fs & l & Eq & Hat & _).
  assert (fs = host_fields) as -> by (by injection Eq).
  rewrite <- (builtin_table _ _ _ _ Hb Hat) in Hat. exact Hat.
Qed.

Lemma host_encode :
  match Encode vanflow_registry (record_any false (GStruct "HostRecord" host_fields) (VStruct host_vals)) with
  | EncOk a => bool_decide (a =
      {[ KU32 0 := AU32 13; KU32 1 := AStr "h1"; KU32 3 := AU64 7000005; KU32 10 := AStr "aws" ]})
  | _ => false
  end = true.
Proof. vm_compute. reflexivity. Qed.

Lemma ex_wire :
  exists fs, registered vanflow_registry (GStruct "HostRecord" fs) 13 /\
  (13%N, "HostRecord"%string, [(10%N, "Provider"%string, FStringPtr); (30%N, "Name"%string, FStringPtr)])
    ∈ wire_table /\
  let vs := [VStruct [VStr "h1"; VPtr (Some (VTime (GoTime 7 5000))); VPtr None];
             VPtr (Some (VStr "aws")); VPtr (Some (VStr ""))] in
  typed_fields fs vs /\ times_fit fs vs /\
  Encode vanflow_registry (record_any false (GStruct "HostRecord" fs) (VStruct vs)) =
    EncOk {[ KU32 0 := AU32 13; KU32 1 := AStr "h1"; KU32 3 := AU64 7000005; KU32 10 := AStr "aws" ]} /\
  field_value fs vs "Provider" (VPtr (Some (VStr "aws"))).
Proof.
  exists host_fields.
  assert ((13%N, GStruct "HostRecord" host_fields) ∈ builtin_types) as Hb
    by (apply elem_of_list_lookup; by exists 13).
  split; [by apply builtin_registered|].
  split; [apply elem_of_list_lookup; by exists 13|]. cbv zeta. fold host_vals.
  assert (typed_fields host_fields host_vals) as Hty.
  { unfold host_fields, host_vals. cbn. repeat split; lia. }
  split; [exact Hty|]. split.
  - intros f v t Hlf Et.
    unfold host_fields, host_vals, HostRecord, record_type, BaseRecord, base_fields, pstr in Hlf.
    repeat (match goal with H : leaf_of _ _ _ _ |- _ => inversion H; subst; clear H end;
            try (cbn in Et; discriminate Et)).
    cbn in Et. injection Et as <-. unfold fits_int64, micros. cbn. lia.
  - split.
    + pose proof host_encode as H.
      destruct (Encode vanflow_registry (record_any false (GStruct "HostRecord" host_fields) (VStruct host_vals)))
        as [a| |]; try discriminate H. apply bool_decide_eq_true in H. by rewrite H.
    + assert (TField "Provider" 10 false (GPtr (GPrim PStr)) ∈ as_field <$>
        all_fields [(10%N, "Provider"%string, FStringPtr); (30%N, "Name"%string, FStringPtr)]) as Hf
        by (apply elem_of_list_lookup; by exists 3).
      destruct (attribute_leaf _ _ _ _ host_attr Hty Hf) as (v & Hlf & _).
      exists (TField "Provider" 10 false (GPtr (GPrim PStr))). split; [|reflexivity].
      unfold host_fields, host_vals, HostRecord, record_type, BaseRecord, base_fields, pstr in *.
      repeat (match goal with H : leaf_of _ _ _ _ |- _ => inversion H; subst; clear H end; try done).
      apply leaf_later. by apply leaf_here.
Qed.
