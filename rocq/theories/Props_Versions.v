(** Programs that know different record types, and types of the user in record
    messages: C117.  The vocabulary is that of C01-C10 (SpecEncoding.v) and the
    top of VersionsFacts.v; [elem_ok] is not used in statements. *)
From Coq Require Import ZArith NArith Ascii String Lia.
From stdpp Require Import base gmap strings list.
From Verif Require Import GoBase Encoding SpecEncoding EncodingFacts CodecFacts DecodeFacts CodecTop Records CodecLemmas BuiltinFacts CodecExamples Messages UserMessages VersionsFacts.

Local Open Scope list_scope.

(** ** C117 *)

(** One program encodes a record of its type with codepoint [c]; another, whose
    type with that codepoint is any other, decodes it: exactly if what the record
    carries has the type the other expects and nothing is missing that the other
    requires.  It does not crash. *)
Theorem C117_accepts calls1 calls2 by_ptr n1 n2 fs1 fs2 l2 vs c a :
  registered (register_all calls1) (GStruct n1 fs1) c -> registered (register_all calls2) (GStruct n2 fs2) c ->
  typed_fields fs1 vs -> times_fit fs1 vs -> no_zero_code fs1 -> no_zero_code fs2 -> attributes fs2 l2 ->
  Encode (register_all calls1) (record_any by_ptr (GStruct n1 fs1) (VStruct vs)) = EncOk a ->
  ((exists r, Decode (register_all calls2) (Some a) = Ok r) <->
     forall f2, f2 ∈ l2 -> (forall v, carries fs1 vs (tf_code f2) v -> wire_type_ok (tf_type f2) (attr_of v)) /\ (tf_req f2 = true -> ~ lacks fs1 vs (tf_code f2))) /\
  Decode (register_all calls2) (Some a) <> Panic.
Proof. intros. eapply versions_accept; [apply register_all_wf|apply register_all_wf|eassumption..]. Qed.

(** The record decoded has the other's type, holds for each codepoint what the
    first one carried for it, and is zero for the others. *)
Theorem C117_values calls1 calls2 by_ptr n1 n2 fs1 fs2 vs c a r :
  registered (register_all calls1) (GStruct n1 fs1) c -> registered (register_all calls2) (GStruct n2 fs2) c ->
  typed_fields fs1 vs -> times_fit fs1 vs -> no_zero_code fs1 -> no_zero_code fs2 ->
  Encode (register_all calls1) (record_any by_ptr (GStruct n1 fs1) (VStruct vs)) = EncOk a ->
  Decode (register_all calls2) (Some a) = Ok r ->
  exists ws, r = record_any true (GStruct n2 fs2) (VStruct ws) /\
    forall f2 w, leaf_of fs2 ws f2 w ->
      (forall v, carries fs1 vs (tf_code f2) v -> attr_of w = attr_of v) /\ (lacks fs1 vs (tf_code f2) -> w = zero_value (tf_type f2)).
Proof. intros. eapply versions_value; [apply register_all_wf|apply register_all_wf|eassumption..]. Qed.

(** So versions of a type that agree on the types of the attributes they share
    can be mixed if the receiver requires nothing the sender does not. *)
Theorem C117_compatible calls1 calls2 by_ptr n1 n2 fs1 fs2 l1 l2 vs c a :
  registered (register_all calls1) (GStruct n1 fs1) c -> registered (register_all calls2) (GStruct n2 fs2) c ->
  typed_fields fs1 vs -> times_fit fs1 vs -> no_zero_code fs1 -> no_zero_code fs2 -> attributes fs1 l1 -> attributes fs2 l2 -> compatible l1 l2 ->
  Encode (register_all calls1) (record_any by_ptr (GStruct n1 fs1) (VStruct vs)) = EncOk a ->
  exists r, Decode (register_all calls2) (Some a) = Ok r.
Proof. intros. eapply (versions_compatible (register_all calls1) (register_all calls2)); [apply register_all_wf|apply register_all_wf|eassumption..]. Qed.

(** What becomes of record [x] of a sender at a receiver. *)
Definition arrives_as (reg1 reg2 : registry) (implements : gotype -> bool) (x y : goany) : Prop :=
  exists a t v, Encode reg1 x = EncOk a /\ Decode reg2 (Some a) = Ok y /\ y = AnyVal t v /\ implements t = true.

(** A record message between any two programs arrives with its records up to the
    first that does not arrive, and an error if there is one; whatever the types,
    receiving it does not crash. *)
Theorem C117_message calls1 calls2 implements to rs am :
  user_encode_msg (register_all calls1) to rs = Ok am ->
  exists rs1 ys rs2, rs = rs1 ++ rs2 /\ Forall2 (arrives_as (register_all calls1) (register_all calls2) implements) rs1 ys /\
    ((rs2 = [] /\ user_decode_msg (register_all calls2) implements am = RDone (to, "RECORD"%string, ys) None) \/
     exists x rs3 er, rs2 = x :: rs3 /\ (forall y, ~ arrives_as (register_all calls1) (register_all calls2) implements x y) /\
       user_decode_msg (register_all calls2) implements am = RDone (to, "RECORD"%string, ys) (Some er)).
Proof.
  unfold user_encode_msg. intros H. apply res_bind_ok in H as (l & Hl & [= <-]). cbn [user_decode_msg am_props am_value ap_to ap_subject deref].
  apply user_encode_spec in Hl. destruct (user_decode_spec (register_all calls2) implements l []) as (l1 & ys & l2 & -> & HF & Hcase).
  apply Forall2_app_inv_r in Hl as (rs1 & rs2 & Hl1 & Hl2 & ->). exists rs1, ys, rs2. split; [done|]. split.
  { clear -HF Hl1. revert ys HF. induction Hl1 as [|x e rs1 l1 (a & -> & He) Hl1 IH]; intros ys HF; inversion HF as [|? y ? ys' Hy HF']; subst; constructor; [|by apply IH].
    destruct Hy as (a' & t & v & [= <-] & Hd & -> & Hi). by exists a, t, v. }
  destruct Hcase as [[-> E]|(e & l3 & -> & Hno & Hcase)].
  - left. inversion Hl2. split; [done|]. cbn [app] in E. by rewrite E.
  - right. inversion Hl2 as [|x ? rs3 ? (a & -> & He) Hl3]; subst. destruct Hcase as [(a' & [= <-] & Hp & _)|[_ [er E]]].
    + exfalso. revert Hp. apply (decode_no_nil_no_panic _ _ (register_all_wf calls2)). intros a' [= <-]. by eapply Encode_no_nil.
    + exists x, rs3, er. split; [done|]. split; [|cbn [app] in E; by rewrite E]. intros y (a' & t & v & He' & Hd & -> & Hi).
      rewrite He in He'. injection He' as <-. apply (Hno (AnyVal t v)). by exists (Some a), t, v.
Qed.

(** Encoding a message succeeds exactly if every record encodes; otherwise the
    first that does not decides: an error or a crash. *)
Theorem C117_encode calls to rs :
  ((exists am, user_encode_msg (register_all calls) to rs = Ok am) <-> forall x, x ∈ rs -> exists a, Encode (register_all calls) x = EncOk a) /\
  (forall rs1 x rs2, rs = rs1 ++ x :: rs2 -> (forall y, y ∈ rs1 -> exists a, Encode (register_all calls) y = EncOk a) ->
     (forall p e, Encode (register_all calls) x = EncErr p e -> user_encode_msg (register_all calls) to rs = Err e) /\
     (Encode (register_all calls) x = EncPanic -> user_encode_msg (register_all calls) to rs = Panic)).
Proof.
  split.
  - split.
    + intros [am H]. unfold user_encode_msg in H. apply res_bind_ok in H as (l & Hl & _). apply user_encode_spec in Hl.
      intros x Hx. apply elem_of_list_lookup in Hx as [i Hi]. destruct (Forall2_lookup_l _ _ _ _ _ Hl Hi) as (e & _ & a & _ & E). by exists a.
    + intros H. unfold user_encode_msg. destruct (user_encode_records (register_all calls) rs) as [l| |] eqn:E; [by eexists|..]; exfalso.
      all: destruct (proj2 (user_encode_spec (register_all calls) rs)) as (rs1 & x & rs2 & -> & _ & Hc); [by rewrite E|].
      all: destruct (H x) as [a Ha]; [apply elem_of_app; right; left|]; destruct Hc as [(p & e' & Hc & _)|[Hc _]]; congruence.
  - intros rs1 x rs2 -> Hall.
    assert (forall r, (forall p e, Encode (register_all calls) x = EncErr p e -> r = Err e) -> (Encode (register_all calls) x = EncPanic -> r = Panic) -> (forall a, Encode (register_all calls) x <> EncOk a) ->
      user_encode_records (register_all calls) (rs1 ++ x :: rs2) = r) as Hr.
    { intros r H1 H2 H3. induction rs1 as [|y rs1 IH]; cbn [app user_encode_records].
      - destruct (Encode (register_all calls) x) as [a|p e|]; [by destruct (H3 a)|by erewrite H1|by rewrite H2].
      - destruct (Hall y) as [a ->]; [left|]. rewrite IH; [|intros z Hz; apply Hall; by right].
        destruct (Encode (register_all calls) x) as [a'|p e|]; [by destruct (H3 a')|by rewrite (H1 _ _ eq_refl)|by rewrite H2]. }
    split; [intros p e E|intros E]; unfold user_encode_msg.
    + rewrite (Hr (Err e)); [done|congruence..].
    + rewrite (Hr Panic); [done|congruence..].
Qed.

(** A nil pointer is such a crash, of a registered type or not: a record
    message that holds one crashes the program that encodes it. *)
Theorem C117_typed_nil calls t to rs1 rs2 : (forall y, y ∈ rs1 -> exists a, Encode (register_all calls) y = EncOk a) ->
  user_encode_msg (register_all calls) to (rs1 ++ AnyVal (GPtr t) (VPtr None) :: rs2) = Panic.
Proof.
  intros Hall. destruct (C117_encode calls to (rs1 ++ AnyVal (GPtr t) (VPtr None) :: rs2)) as [_ H]. eapply H; [reflexivity|exact Hall|].
  cbn [Encode]. by rewrite (lookup_ptr_none _ _ (register_all_wf calls)).
Qed.

(** Messages of built-in records (C13, C14) are the special case of the built-in
    registry. *)
Theorem C117_builtin :
  (forall m, user_encode_msg vanflow_registry (mp_to (rm_props m)) (record_iface <$> rm_records m) = encode_record_msg m) /\
  (forall am, user_decode_msg vanflow_registry builtin_implements am =
     match decode_record_msg am with RDone m e => RDone (mp_to (rm_props m), mp_subject (rm_props m), record_iface <$> rm_records m) e | RPanic => RPanic end).
Proof.
  split.
  - intros m. unfold user_encode_msg, encode_record_msg. by rewrite builtin_encode.
  - intros am. unfold user_decode_msg, decode_record_msg, decode_records. destruct (am_props am); [|done]. destruct (am_value am) as [l|]; [|done].
    pose proof (builtin_decode l []) as E. cbn [fmap list_fmap] in E. rewrite E. by destruct (decode_record_list l []).
Qed.

(** An older and a newer version of a type: one attribute dropped, one added, one
    no longer a pointer. *)
Definition ex_new_fields : gofields := FCons "Name" false true "1,required" (GPtr (GPrim PStr)) (FCons "N" false true "7" (GPrim PU64) (FCons "More" false true "9" (GPrim PStr) FNil)).
Definition ex_new : gotype := GStruct "ExNew" ex_new_fields.
Definition ex_new_attrs : list tfield := [TField "Name" 1 true (GPtr (GPrim PStr)); TField "N" 7 false (GPrim PU64); TField "More" 9 false (GPrim PStr)].
Definition ex_new_calls : list (N * goany) := [(20%N, AnyVal ex_new (zero_value ex_new))].
Lemma ex_new_attributes : attributes ex_new_fields ex_new_attrs.
Proof. do 3 (apply at_tagged; [done|by apply parse_opts_some|]). constructor. Qed.
Example C117_example :
  typed_fields ex_fields ex_vals /\ times_fit ex_fields ex_vals /\ no_zero_code ex_fields /\ no_zero_code ex_new_fields /\
  attributes ex_fields ex_attrs /\ attributes ex_new_fields ex_new_attrs /\
  registered (register_all ex_calls) ex_type 20 /\ registered (register_all ex_new_calls) ex_new 20 /\ compatible ex_attrs ex_new_attrs /\
  exists am, user_encode_msg (register_all ex_calls) "mc/sfe.x" [record_any true ex_type (VStruct ex_vals)] = Ok am /\
    user_decode_msg (register_all ex_new_calls) (fun _ => true) am =
      RDone ("mc/sfe.x"%string, "RECORD"%string, [record_any true ex_new (VStruct [VPtr (Some (VStr "a")); VU64 9; VStr ""])]) None.
Proof.
  split; [apply ex_typed|]. split; [apply ex_fit|]. split; [apply ex_no_zero|]. split.
  { intros l f Hat Hf. rewrite (attributes_fun _ _ _ Hat ex_new_attributes) in Hf. unfold ex_new_attrs in Hf.
    repeat (apply elem_of_cons in Hf as [->|Hf]; [done|]). by apply elem_of_nil in Hf. }
  split; [apply ex_attributes|]. split; [apply ex_new_attributes|].
  split; [eexists; split; vm_compute; reflexivity|]. split; [eexists; split; vm_compute; reflexivity|]. split.
  - split.
    + intros f1 f2 H1 H2 E. repeat (apply elem_of_cons in H1 as [->|H1]); try (by apply elem_of_nil in H1);
        repeat (apply elem_of_cons in H2 as [->|H2]); try (by apply elem_of_nil in H2); try discriminate E; reflexivity.
    + intros f2 H2 Hr. repeat (apply elem_of_cons in H2 as [->|H2]); try (by apply elem_of_nil in H2); try discriminate Hr.
      exists (TField "ID" 1 true (GPrim PStr)). split; [left|done].
  - eexists. split; [vm_compute; reflexivity|]. vm_compute. reflexivity.
Qed.

(** A receiver that requires "More" gets nothing. *)
Definition ex_strict : gotype := GStruct "ExStrict" (FCons "More" false true "9,required" (GPrim PStr) FNil).
Example C117_example_refused :
  exists am, user_encode_msg (register_all ex_calls) "mc/sfe.x" [record_any true ex_type (VStruct ex_vals)] = Ok am /\
    exists er, user_decode_msg (register_all [(20%N, AnyVal ex_strict (zero_value ex_strict))]) (fun _ => true) am = RDone ("mc/sfe.x"%string, "RECORD"%string, []) (Some er).
Proof. eexists. split; [vm_compute; reflexivity|]. eexists. vm_compute. reflexivity. Qed.

Print Assumptions C117_accepts.
Print Assumptions C117_values.
Print Assumptions C117_compatible.
Print Assumptions C117_message.
Print Assumptions C117_encode.
Print Assumptions C117_typed_nil.
Print Assumptions C117_builtin.
