(** C112: records with attributes of user-defined types. *)
From Coq Require Import ZArith NArith String Lia.
From stdpp Require Import base gmap strings list.
From Verif Require Import GoBase Encoding SpecEncoding UserCodec UserCodecFacts.

(** MustRegisterRecord takes a struct exactly if no two fields share a
    codepoint and every field's type is, below its pointers, over a string or
    one of the four integer kinds, or has an encoder the field can use and a
    decoder.  A method on the pointer serves fields that are pointers, and for
    decoding all fields. *)
Theorem C112_registers fs :
  possible_fields fs ->
  uregister fs = true <->
  NoDup (map uf_code fs) /\
  Forall (fun f => raw_kind (uf_type f) = true \/
                   own_enc (uf_type f) = true /\ own_dec (uf_type f) = true) fs.
Proof. exact (accepts fs). Qed.

(** Encode: what each field leaves in the attribute set, that nothing else is
    in it, and when it fails. *)
Theorem C112_encode cs code fs vs :
  possible_fields fs -> uregister fs = true -> typed_record fs vs ->
  (forall m, UEncode cs code fs vs = UEncOk m ->
     m !! 0%N = Some (Dyn None (AU32 code)) /\
     (forall i f v, fs !! i = Some f -> vs !! i = Some v -> uf_code f <> 0%N ->
        m !! uf_code f = left_by (out_of cs (uf_type f) v)) /\
     (forall c, c <> 0%N -> c ∉ map uf_code fs -> m !! c = None)) /\
  ((exists m, UEncode cs code fs vs = UEncOk m) <->
   (forall i f v, fs !! i = Some f -> vs !! i = Some v ->
      fine (uf_req f) (out_of cs (uf_type f) v))).
Proof. exact (encode_spec cs code fs vs). Qed.

(** Decode: exactly which attribute sets it takes and what it makes of them. *)
Theorem C112_decode cs code fs attrs vs :
  possible_fields fs -> uregister fs = true ->
  UDecode cs code fs attrs = Ok vs <->
  attrs !! 0%N = Some (Dyn None (AU32 code)) /\
  Forall2 (fun f v =>
    match attrs !! uf_code f with
    | None => uf_req f = false /\ v = zero_uv (uf_type f)
    | Some a => exists b, in_of cs (uf_type f) a = Ok b /\ v = ptrs (depth (uf_type f)) b
    end) fs vs.
Proof. exact (decode_spec cs code fs attrs vs). Qed.

(** Decode crashes exactly if it reaches an attribute whose field crashes on it. *)
Theorem C112_decode_panic cs code fs attrs :
  possible_fields fs -> uregister fs = true ->
  UDecode cs code fs attrs = Panic <->
  attrs !! 0%N = Some (Dyn None (AU32 code)) /\
  exists fs1 f fs2 a, fs = fs1 ++ f :: fs2 /\ attrs !! uf_code f = Some a /\
    in_of cs (uf_type f) a = Panic /\
    Forall (fun g =>
      match attrs !! uf_code g with
      | None => uf_req g = false
      | Some x => exists b, in_of cs (uf_type g) x = Ok b
      end) fs1.
Proof.
  intros Hp Hr. rewrite (decode_panic cs code fs attrs Hp Hr). split.
  - intros [H0 (fs1 & f & fs2 & a & E & HF & Ha & Hi)]. split; [exact H0|].
    exists fs1, f, fs2, a. repeat split; assumption.
  - intros [H0 (fs1 & f & fs2 & a & E & Ha & Hi & HF)]. split; [exact H0|].
    exists fs1, f, fs2, a. repeat split; assumption.
Qed.

(** A set without a type code, with one of another type, or with the code of
    another record is refused with an error, whatever else it holds. *)
Theorem C112_refuses cs code fs attrs :
  (attrs !! 0%N = None -> UDecode cs code fs attrs = Err ENoTypeCode) /\
  (forall a, attrs !! 0%N = Some a -> (forall c, a <> Dyn None (AU32 c)) ->
     UDecode cs code fs attrs = Err EBadTypeCode) /\
  (forall c, attrs !! 0%N = Some (Dyn None (AU32 c)) -> c <> code ->
     UDecode cs code fs attrs = Err EUnknownType).
Proof.
  unfold UDecode. split; [intros ->; reflexivity|]. split.
  - intros [[n|] a] -> Ha; [reflexivity|]. destruct a as [s|c|n|z|z| |w]; try reflexivity.
    exfalso. exact (Ha c eq_refl).
  - intros c -> Hc. apply N.eqb_neq in Hc. rewrite Hc. reflexivity.
Qed.

(** If every field either uses no methods of its type, or uses them both ways
    with the decoder on the pointer and its author keeps their promise, then a
    record that could be encoded is decoded to itself, up to what [kept] says:
    fields that left no attribute are zero, the others lose what their methods
    lose. *)
Theorem C112_round_trip cs nf code fs vs m :
  possible_fields fs -> uregister fs = true -> typed_record fs vs ->
  Forall (fun f => uf_code f <> 0%N /\ two_way (uf_type f) /\
    (own_dec (uf_type f) = true -> keeps cs nf (base_of (uf_type f))) /\
    (uf_req f = true -> own_enc (uf_type f) = true ->
       forall b a, c_enc cs (td_name (base_of (uf_type f))) b = UOVal a -> ~ is_nil a)) fs ->
  UEncode cs code fs vs = UEncOk m ->
  UDecode cs code fs m = Ok (zip_with (fun f v => kept cs nf (uf_type f) v) fs vs).
Proof. exact (round_trip cs nf code fs vs m). Qed.

Lemma decoded_field cs code fs attrs vs i f a :
  possible_fields fs -> uregister fs = true ->
  UDecode cs code fs attrs = Ok vs ->
  fs !! i = Some f -> attrs !! uf_code f = Some a ->
  exists b, in_of cs (uf_type f) a = Ok b /\ vs !! i = Some (ptrs (depth (uf_type f)) b).
Proof.
  intros Hp Hr Hd Hi Ha. apply (decode_spec cs code fs attrs vs Hp Hr) in Hd.
  destruct Hd as [_ Hd]. destruct (Forall2_lookup_l _ _ _ _ _ Hd Hi) as [v [Hv H]].
  cbn in H. rewrite Ha in H. destruct H as [b [Hin ->]].
  exists b. split; [exact Hin|exact Hv].
Qed.

(** A field of a defined type (type Name string) without a decoder cannot be
    received: whatever string or number arrives for it, Decode gives no
    record. *)
Theorem C112_defined_not_received cs code fs attrs f n a :
  possible_fields fs -> uregister fs = true -> f ∈ fs ->
  td_name (base_of (uf_type f)) = Some n -> own_dec (uf_type f) = false ->
  attrs !! uf_code f = Some (Dyn None a) ->
  forall vs, UDecode cs code fs attrs <> Ok vs.
Proof.
  intros Hp Hr Hf Hn Hown Ha vs Hd. apply elem_of_list_lookup in Hf. destruct Hf as [i Hi].
  destruct (decoded_field _ _ _ _ _ _ _ _ Hp Hr Hd Hi Ha) as [b [Hin _]].
  unfold in_of in Hin. rewrite Hown in Hin.
  destruct (td_kind (base_of (uf_type f))) as [k| |]; try discriminate.
  unfold same_type in Hin. rewrite Hn in Hin. cbn [dy_name dy_val] in Hin.
  rewrite bool_decide_eq_false_2 in Hin by discriminate. cbn in Hin.
  destruct a; discriminate.
Qed.

(** Nor is it sent as a string or number: Encode leaves a value of the defined
    type itself in the attribute set. *)
Theorem C112_defined_not_plain cs code fs vs m i f v n a :
  possible_fields fs -> uregister fs = true -> typed_record fs vs ->
  UEncode cs code fs vs = UEncOk m ->
  fs !! i = Some f -> vs !! i = Some v -> uf_code f <> 0%N ->
  td_name (base_of (uf_type f)) = Some n -> own_enc (uf_type f) = false ->
  reach v = Some (BPrim a) -> prim_is_zero a = false ->
  m !! uf_code f = Some (Dyn (Some n) a).
Proof.
  intros Hp Hr Ht Hm Hi Hv Hnz Hn Hown Hre Hz.
  destruct (encode_spec cs code fs vs Hp Hr Ht) as [Henc _].
  destruct (Henc m Hm) as [_ [Hat _]]. rewrite (Hat i f v Hi Hv Hnz).
  unfold out_of. rewrite Hre, Hown, Hz, Hn. cbn [left_by].
  assert (Hty := Forall2_lookup_lr _ _ _ _ _ _ Ht Hi Hv). cbn in Hty.
  pose proof (reach_has _ v _ Hty Hre) as Hb. unfold base_has in Hb.
  destruct a; try reflexivity.
  destruct (td_kind (base_of (uf_type f))) as [k| |]; try destruct Hb.
  destruct k; destruct Hb.
Qed.

(** A decoder declared on the value is called and its result is lost: the
    field is zero (or points to zero) whatever was received. *)
Theorem C112_value_receiver cs code fs attrs vs i f a :
  possible_fields fs -> uregister fs = true ->
  td_dec (base_of (uf_type f)) = RVal ->
  fs !! i = Some f -> attrs !! uf_code f = Some a ->
  UDecode cs code fs attrs = Ok vs ->
  vs !! i = Some (ptrs (depth (uf_type f)) (zero_base (base_of (uf_type f)))).
Proof.
  intros Hp Hr Hval Hi Ha Hd.
  destruct (decoded_field _ _ _ _ _ _ _ _ Hp Hr Hd Hi Ha) as [b [Hin Hv]]. rewrite Hv.
  unfold in_of, own_dec in Hin. rewrite Hval in Hin.
  destruct (is_iface (uf_type f)); [discriminate|].
  destruct (c_dec cs (td_name (base_of (uf_type f))) a (zero_base (base_of (uf_type f))));
    try discriminate.
  inversion Hin; subst. reflexivity.
Qed.

(** A field of an interface type can be registered and cannot be received;
    sending it while it holds nothing fails. *)
Theorem C112_interface cs code fs f :
  possible_fields fs -> uregister fs = true -> f ∈ fs ->
  td_kind (base_of (uf_type f)) = TIface ->
  (forall attrs a, attrs !! uf_code f = Some a ->
     forall vs, UDecode cs code fs attrs <> Ok vs) /\
  (forall vs i v m, typed_record fs vs -> fs !! i = Some f -> vs !! i = Some v ->
     reach v = Some (BIface None) -> UEncode cs code fs vs <> UEncOk m).
Proof.
  intros Hp Hr Hf Hk. split.
  - intros attrs a Ha vs Hd. apply elem_of_list_lookup in Hf. destruct Hf as [i Hi].
    destruct (decoded_field _ _ _ _ _ _ _ _ Hp Hr Hd Hi Ha) as [b [Hin _]].
    unfold in_of, is_iface in Hin. rewrite Hk in Hin.
    destruct (own_dec (uf_type f)); discriminate.
  - intros vs i v m Ht Hi Hv Hre Hm.
    destruct (encode_spec cs code fs vs Hp Hr Ht) as [_ [Hfine _]].
    pose proof (Hfine (ex_intro _ m Hm) i f v Hi Hv) as H.
    unfold out_of in H. rewrite Hre in H. destruct (own_enc (uf_type f)); exact H.
Qed.

(** ** Types that look right and are not *)

(** Methods that write "x" before the string and take it off. *)
Definition tagging : codecs := Codecs
  (fun _ b => match b with
              | BPrim (AStr s) => UOVal (Dyn None (AStr (String.append "x" s)))
              | _ => UOErr
              end)
  (fun _ a _ => match a with
                | Dyn None (AStr (String _ s)) => Ok (BPrim (AStr s))
                | _ => Err tt
                end).

(** A type over string with both methods on the pointer. *)
Definition tagged : tdesc := TDesc (Some "Tagged"%string) (TPrim PStr) RPtr RPtr.

Lemma tagging_keeps d : td_kind d = TPrim PStr -> keeps tagging (fun _ b => b) d.
Proof.
  intros Hk b a Hb Ho Hn. unfold base_has in Hb. rewrite Hk in Hb.
  destruct b as [x| |]; try destruct Hb. destruct x; try destruct Hb.
  cbn in Ho. inversion Ho; subst. reflexivity.
Qed.

(** So it is not enough that a type has both methods and they fit together:
    with both on the pointer and the field not a pointer, Encode passes over
    the method that Decode relies on, and the record does not come back. *)
Theorem C112_pointer_receiver_refuted :
  ~ (forall cs d v m,
       possible d -> td_enc d <> RNo -> td_dec d <> RNo -> keeps cs (fun _ b => b) d ->
       uregister [UField "A" 1 true (UB d)] = true ->
       typed_record [UField "A" 1 true (UB d)] [v] ->
       UEncode cs 7 [UField "A" 1 true (UB d)] [v] = UEncOk m ->
       exists vs, UDecode cs 7 [UField "A" 1 true (UB d)] m = Ok vs).
Proof.
  intros H. destruct (H tagging tagged (VB (BPrim (AStr "a")))
    (<[0%N := Dyn None (AU32 7)]> {[1%N := Dyn (Some "Tagged"%string) (AStr "a")]})) as [vs Hvs].
  - intros Hk; discriminate.
  - discriminate.
  - discriminate.
  - apply tagging_keeps. reflexivity.
  - reflexivity.
  - repeat constructor.
  - reflexivity.
  - vm_compute in Hvs. discriminate.
Qed.

(** As a pointer, or with the encoder on the value, it does. *)
Theorem C112_pointer_receiver_remedy cs nf code name c req d v m :
  possible d -> (c <> 0)%N -> keeps cs nf d -> td_dec d = RPtr ->
  (forall b a, c_enc cs (td_name d) b = UOVal a -> ~ is_nil a) ->
  let t := match td_enc d with RVal => UB d | _ => UP (UB d) end in
  td_enc d <> RNo -> has_type t v ->
  UEncode cs code [UField name c req t] [v] = UEncOk m ->
  UDecode cs code [UField name c req t] m = Ok [kept cs nf t v].
Proof.
  intros Hp Hc Hk Hd Hn t He Ht Hm.
  assert (Hbase : base_of t = d) by (unfold t; destruct (td_enc d); reflexivity).
  assert (Hown : own_enc t = true)
    by (unfold t, own_enc; destruct (td_enc d) eqn:E; cbn; rewrite E; congruence).
  assert (Hod : own_dec t = true) by (unfold own_dec; rewrite Hbase, Hd; reflexivity).
  assert (Hpf : possible_fields [UField name c req t]).
  { constructor; [|constructor]. cbn. rewrite Hbase. exact Hp. }
  assert (Hr : uregister [UField name c req t] = true).
  { apply (accepts _ Hpf). split; [cbn; apply NoDup_singleton|].
    constructor; [|constructor]. right. split; assumption. }
  refine (round_trip cs nf code _ [v] m Hpf Hr _ _ Hm).
  - constructor; [exact Ht|constructor].
  - constructor; [|constructor]. cbn. split; [exact Hc|]. split; [split|split].
    + rewrite Hown, Hod. reflexivity.
    + intros _. rewrite Hbase. exact Hd.
    + intros _. rewrite Hbase. exact Hk.
    + intros _ _. rewrite Hbase. exact Hn.
Qed.

(** An encoder that returns nil without an error. *)
Definition silent : codecs := Codecs (fun _ _ => UOVal (Dyn None ANil)) (fun _ _ b => Ok b).

(** Encode does not make sure that required fields are there: if the encoder
    of a required field returns nil and no error, the field is left out, and
    no Decode takes the result. *)
Theorem C112_required_refuted :
  ~ (forall cs code fs vs m f,
       possible_fields fs -> uregister fs = true -> typed_record fs vs ->
       UEncode cs code fs vs = UEncOk m ->
       f ∈ fs -> uf_req f = true -> m !! uf_code f <> None).
Proof.
  intros H. set (t := UB (TDesc (Some "T"%string) TOther RVal RPtr)).
  apply (H silent 7%N [UField "A" 1 true t] [VB (BOpaque 5)]
    {[0%N := Dyn None (AU32 7)]} (UField "A" 1 true t)).
  - constructor; [|constructor]. intros Hk; discriminate.
  - reflexivity.
  - repeat constructor.
  - reflexivity.
  - apply elem_of_list_here.
  - reflexivity.
  - reflexivity.
Qed.

(** Only such encoders can do that. *)
Theorem C112_required_unless_nil cs code fs vs m i f v :
  possible_fields fs -> uregister fs = true -> typed_record fs vs ->
  UEncode cs code fs vs = UEncOk m ->
  fs !! i = Some f -> vs !! i = Some v -> uf_code f <> 0%N -> uf_req f = true ->
  m !! uf_code f = None ->
  own_enc (uf_type f) = true /\
  exists b a, reach v = Some b /\ c_enc cs (td_name (base_of (uf_type f))) b = UOVal a /\ is_nil a.
Proof.
  intros Hp Hr Ht Hm Hi Hv Hnz Hq Hnone.
  destruct (encode_spec cs code fs vs Hp Hr Ht) as [Henc [Hfine _]].
  destruct (Henc m Hm) as [_ [Hat _]]. rewrite (Hat i f v Hi Hv Hnz) in Hnone.
  pose proof (Hfine (ex_intro _ m Hm) i f v Hi Hv) as Hfi. rewrite Hq in Hfi.
  assert (Hty := Forall2_lookup_lr _ _ _ _ _ _ Ht Hi Hv). cbn in Hty.
  unfold out_of in *. destruct (reach v) as [b|] eqn:Hre; [|discriminate Hfi].
  pose proof (reach_has _ v _ Hty Hre) as Hb.
  destruct (own_enc (uf_type f)).
  - split; [reflexivity|].
    assert (Ho : exists a, c_enc cs (td_name (base_of (uf_type f))) b = UOVal a /\ is_nil a).
    { assert (Hc : fine true (c_enc cs (td_name (base_of (uf_type f))) b) /\
                   left_by (c_enc cs (td_name (base_of (uf_type f))) b) = None).
      { destruct b as [| |[|]]; try (split; assumption). destruct Hfi. }
      destruct Hc as [H1 H2].
      destruct (c_enc cs (td_name (base_of (uf_type f))) b) as [[n a]| | |]; cbn in H1;
        try contradiction; try discriminate.
      exists (Dyn n a). split; [reflexivity|]. unfold is_nil. cbn in *.
      destruct a; try discriminate. reflexivity. }
    destruct Ho as [a [Ho Hnil]]. exists b, a. split; [reflexivity|]. split; assumption.
  - exfalso. destruct b as [x| |]; try exact Hfi.
    destruct (prim_is_zero x); [discriminate Hfi|]. cbn in Hnone.
    unfold base_has in Hb. destruct x; try discriminate.
    destruct (td_kind (base_of (uf_type f))) as [k| |]; try destruct Hb.
    destruct k; destruct Hb.
Qed.

(** The codec of Encoding.v is this one at the types the library ships. *)
Theorem C112_extends f cs t :
  time_codec f cs ->
  uget_enc (emb t) = get_field_encoder t /\
  uget_dec (emb t) = get_field_decoder t /\
  (forall e v, get_field_encoder t = Some e -> typed t v ->
     urun_enc cs e (emb t) (emb_val f v) = emb_out (run_enc e v)) /\
  (forall e a, get_field_decoder t = Some e ->
     urun_dec cs e (emb t) (Dyn None a) (zero_uv (emb t)) =
     emb_res f (run_dec e t a (zero_value t))).
Proof.
  intros Hcs. split; [apply emb_enc|]. split; [apply emb_dec|]. split.
  - intros e v He Hv. exact (emb_run_enc f cs t e v Hcs He Hv).
  - intros e a He. exact (emb_run_dec f cs t e a Hcs He).
Qed.

(** ** Examples *)

(** A record with a string, a pointer to a tagged string and a pointer to a
    pointer to a number of a defined type. *)
Definition ex_fields : list ufield :=
  [UField "ID" 1 true (UB (TDesc None (TPrim PStr) RNo RNo));
   UField "Tag" 2 false (UP (UB tagged));
   UField "Level" 3 false (UP (UP (UB (TDesc (Some "Level"%string) (TPrim PU32) RNo RNo))))].
Definition ex_values : list uv :=
  [VB (BPrim (AStr "r")); VP (Some (VB (BPrim (AStr "t"))));
   VP (Some (VP (Some (VB (BPrim (AU32 4))))))].

Lemma ex_possible : possible_fields ex_fields.
Proof. repeat (constructor; [intros Hk; discriminate|]). constructor. Qed.

Example C112_example :
  possible_fields ex_fields /\ uregister ex_fields = true /\ typed_record ex_fields ex_values /\
  Forall (fun f => uf_code f <> 0%N /\ two_way (uf_type f)) ex_fields /\
  keeps tagging (fun _ b => b) tagged /\
  match UEncode tagging 7 ex_fields ex_values with
  | UEncOk m =>
      m !! 2%N = Some (Dyn None (AStr "xt")) /\
      m !! 3%N = Some (Dyn (Some "Level"%string) (AU32 4)) /\
      UDecode tagging 7 ex_fields m = Ok ex_values
  | _ => False
  end.
Proof.
  split; [exact ex_possible|]. split; [reflexivity|]. split; [repeat constructor|].
  split; [|split].
  - repeat (constructor; [split; [discriminate|split; [reflexivity|intros H; try discriminate; reflexivity]]|]).
    constructor.
  - apply tagging_keeps. reflexivity.
  - vm_compute. repeat split; reflexivity.
Qed.

(** A peer's record with a plain number for the defined type: no record. *)
Example C112_example_received :
  UDecode tagging 7 ex_fields
    (<[0%N := Dyn None (AU32 7)]> (<[1%N := Dyn None (AStr "r")]> {[3%N := Dyn None (AU32 4)]}))
  = Err (EFieldDecode "Level").
Proof. vm_compute. reflexivity. Qed.

(** A decoder on the value: received "a", the field stays empty. *)
Example C112_example_value_receiver :
  let f := UField "A" 1 true (UB (TDesc (Some "T"%string) (TPrim PStr) RVal RVal)) in
  uregister [f] = true /\
  UDecode tagging 7 [f] (<[0%N := Dyn None (AU32 7)]> {[1%N := Dyn None (AStr "xa")]})
  = Ok [VB (BPrim (AStr ""))].
Proof. split; vm_compute; reflexivity. Qed.

(** An interface with both methods: registered, its decoding panics. *)
Example C112_example_interface :
  let f := UField "A" 1 true (UB (TDesc (Some "I"%string) TIface RVal RVal)) in
  uregister [f] = true /\
  UDecode tagging 7 [f] (<[0%N := Dyn None (AU32 7)]> {[1%N := Dyn None (AStr "xa")]}) = Panic /\
  UEncode tagging 7 [f] [VB (BIface None)] = UEncPanic.
Proof. split; [|split]; vm_compute; reflexivity. Qed.

(** Times can be numbered as C112_extends wants it. *)
Definition num_time (t : gotime) : N :=
  if decide (t = zero_time) then 0%N else Npos (encode (t_sec t, t_nsec t)).
Definition time_num (n : N) : gotime :=
  match n with
  | 0%N => zero_time
  | Npos p => match decode p with Some (s, ns) => GoTime s ns | None => zero_time end
  end.
Definition time_methods : codecs := Codecs
  (fun _ b => match b with BOpaque n => emb_out (encode_time (time_num n)) | _ => UOPanic end)
  (fun _ a _ => match decode_time (dy_val a) with
                | Some t => Ok (BOpaque (num_time t)) | None => Err tt end).

Example C112_example_extends : time_codec num_time time_methods.
Proof.
  split; [|split].
  - unfold num_time. destruct (decide _); [reflexivity|congruence].
  - intros t. cbn. f_equal. f_equal. unfold num_time.
    destruct (decide (t = zero_time)) as [->|Hne]; [reflexivity|].
    unfold time_num. rewrite decode_encode. destruct t; reflexivity.
  - intros a b. reflexivity.
Qed.

Print Assumptions C112_registers.
Print Assumptions C112_encode.
Print Assumptions C112_decode.
Print Assumptions C112_decode_panic.
Print Assumptions C112_refuses.
Print Assumptions C112_round_trip.
Print Assumptions C112_defined_not_received.
Print Assumptions C112_defined_not_plain.
Print Assumptions C112_value_receiver.
Print Assumptions C112_interface.
Print Assumptions C112_pointer_receiver_refuted.
Print Assumptions C112_pointer_receiver_remedy.
Print Assumptions C112_required_refuted.
Print Assumptions C112_required_unless_nil.
Print Assumptions C112_extends.
