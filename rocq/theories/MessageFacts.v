(** Proofs about messages. *)
From Coq Require Import ZArith NArith Ascii String Lia.
From stdpp Require Import base gmap strings list.
From Verif Require Import GoBase Encoding SpecEncoding EncodingFacts CodecFacts CodecTop Records CodecLemmas
  BuiltinFacts CodecExamples Messages SpecMessages.

Local Open Scope list_scope.
Local Opaque vanflow_registry.

Lemma lookup_one {A} (k : string) (x : A) : ({[k := x]} : gmap string A) !! k = Some x.
Proof. apply lookup_singleton. Qed.

Lemma beacon_round_trip b :
  decode_msg (Some (encode_beacon b)) =
  RDone (Some (MsgBeacon (Beacon (MsgProps "mc/sfe.all" "BEACON" "") (bc_version b) (bc_source_type b)
    (bc_address b) (bc_direct b) (bc_identity b)))) None.
Proof. reflexivity. Qed.

Lemma heartbeat_round_trip h :
  decode_msg (Some (encode_heartbeat h)) =
  RDone (Some (MsgHeartbeat (Heartbeat (MsgProps (String.append "mc/sfe." (hb_identity h)) "HEARTBEAT" "")
    (hb_identity h) (hb_version h) (hb_now h)))) None.
Proof. reflexivity. Qed.

Lemma flush_round_trip f :
  decode_msg (Some (encode_flush f)) =
  RDone (Some (MsgFlush (Flush (MsgProps (mp_to (fl_props f)) "FLUSH" (mp_reply_to (fl_props f)))))) None.
Proof. reflexivity. Qed.

Lemma app_string_reads m k s : app_string m k = s <-> reads_string m k s.
Proof.
  unfold app_string, reads_string. destruct (am_app m !! k) as [[]|]; split;
    try (intros <-; right; split; [done|done]); try (intros [?|[-> _]]; [congruence|done]).
  - intros <-. by left.
  - intros [[= ->]|[-> H]]; [done|]. by destruct (H s0).
Qed.
Lemma app_u32_reads m k s : app_u32 m k = s <-> reads_u32 m k s.
Proof.
  unfold app_u32, reads_u32. destruct (am_app m !! k) as [[]|]; split;
    try (intros <-; right; split; [done|done]); try (intros [?|[-> _]]; [congruence|done]).
  - intros <-. by left.
  - intros [[= ->]|[-> H]]; [done|]. by destruct (H n).
Qed.
Lemma app_u64_reads m k s : app_u64 m k = s <-> reads_u64 m k s.
Proof.
  unfold app_u64, reads_u64. destruct (am_app m !! k) as [[]|]; split;
    try (intros <-; right; split; [done|done]); try (intros [?|[-> _]]; [congruence|done]).
  - intros <-. by left.
  - intros [[= ->]|[-> H]]; [done|]. by destruct (H n).
Qed.
Lemma deref_carries o : carries o (deref o).
Proof. unfold carries, deref. destruct o; simpl; auto. Qed.

Lemma decode_beacon_spec m p :
  has_subject m p "BEACON" ->
  exists b, decode_msg (Some m) = RDone (Some (MsgBeacon b)) None /\
    mp_subject (bc_props b) = "BEACON"%string /\ carries (ap_to p) (mp_to (bc_props b)) /\
    carries (ap_reply_to p) (mp_reply_to (bc_props b)) /\
    reads_u32 m "v" (bc_version b) /\ reads_string m "sourceType" (bc_source_type b) /\
    reads_string m "address" (bc_address b) /\ reads_string m "direct" (bc_direct b) /\
    reads_string m "id" (bc_identity b).
Proof.
  intros [Hp Hs]. eexists. unfold decode_msg, decode_beacon. rewrite Hp, Hs. simpl.
  split; [reflexivity|]. simpl. split; [done|].
  split; [apply deref_carries|]. split; [apply deref_carries|].
  repeat split; try (by apply app_string_reads). by apply app_u32_reads.
Qed.

Lemma decode_heartbeat_spec m p :
  has_subject m p "HEARTBEAT" ->
  exists h, decode_msg (Some m) = RDone (Some (MsgHeartbeat h)) None /\
    mp_subject (hb_props h) = "HEARTBEAT"%string /\ carries (ap_to p) (mp_to (hb_props h)) /\
    mp_reply_to (hb_props h) = ""%string /\
    reads_string m "id" (hb_identity h) /\ reads_u32 m "v" (hb_version h) /\ reads_u64 m "now" (hb_now h).
Proof.
  intros [Hp Hs]. eexists. unfold decode_msg, decode_heartbeat. rewrite Hp, Hs. simpl.
  split; [reflexivity|]. simpl. split; [done|].
  split; [apply deref_carries|]. split; [done|].
  repeat split; [by apply app_string_reads|by apply app_u32_reads|by apply app_u64_reads].
Qed.

Lemma decode_flush_spec m p :
  has_subject m p "FLUSH" ->
  exists f, decode_msg (Some m) = RDone (Some (MsgFlush f)) None /\
    mp_subject (fl_props f) = "FLUSH"%string /\ carries (ap_to p) (mp_to (fl_props f)) /\
    carries (ap_reply_to p) (mp_reply_to (fl_props f)).
Proof.
  intros [Hp Hs]. eexists. unfold decode_msg, decode_flush. rewrite Hp, Hs. simpl.
  split; [reflexivity|]. simpl. split; [done|].
  split; apply deref_carries.
Qed.

Lemma decode_rejects m :
  (forall m' p s, m = Some m' -> has_subject m' p s ->
     s <> "BEACON" /\ s <> "HEARTBEAT" /\ s <> "FLUSH" /\ s <> "RECORD")%string ->
  exists e, decode_msg m = RDone None (Some e).
Proof.
  intros H. unfold decode_msg. destruct m as [m|]; [|eauto].
  destruct (am_props m) as [p|] eqn:Ep; [|eauto]. destruct (ap_subject p) as [s|] eqn:Es; [|eauto].
  destruct (H m p s eq_refl (conj Ep Es)) as (H1 & H2 & H3 & H4).
  repeat (rewrite bool_decide_eq_false_2 by done). eauto.
Qed.

Lemma decode_kind m x e :
  decode_msg m = RDone (Some x) e ->
  exists m' p s, m = Some m' /\ has_subject m' p s /\
    match x with
    | MsgBeacon _ => s = "BEACON" | MsgHeartbeat _ => s = "HEARTBEAT"
    | MsgFlush _ => s = "FLUSH" | MsgRecord _ => s = "RECORD"
    end%string.
Proof.
  unfold decode_msg. destruct m as [m|]; [|done].
  destruct (am_props m) as [p|] eqn:Ep; [|done]. destruct (ap_subject p) as [s|] eqn:Es; [|done].
  intros H. exists m, p, s. split; [done|]. split; [done|].
  unfold decode_beacon, decode_heartbeat, decode_flush, decode_record_msg in H. rewrite Ep in H.
  case_bool_decide; [by injection H as <- _|]. case_bool_decide; [by injection H as <- _|].
  case_bool_decide; [by injection H as <- _|]. case_bool_decide; [|done].
  destruct (decode_records m); [|done]. by injection H as <- _.
Qed.

(** ** Records *)

Lemma existsb_record t : existsb (gotype_eqb t) record_types = true <-> t ∈ record_types.
Proof.
  rewrite existsb_exists. split.
  - intros (t' & Hin & E). apply gotype_eqb_eq in E as ->. by apply elem_of_list_In.
  - intros H. exists t. split; [by apply elem_of_list_In|apply gotype_eqb_refl].
Qed.

Lemma record_types_struct t : t ∈ record_types -> exists n rest, t = record_type n rest.
Proof.
  intros Hin. unfold record_types in Hin.
  repeat (apply elem_of_cons in Hin as [->|Hin]; [eexists _, _; reflexivity|]).
  by apply elem_of_nil in Hin.
Qed.

Lemma record_types_builtin t : t ∈ record_types -> exists c, (c, t) ∈ builtin_types.
Proof.
  intros Hin.
  assert (forallb (fun t => existsb (fun '(_, t') => gotype_eqb t t') builtin_types) record_types = true) as H
    by (vm_compute; reflexivity).
  rewrite forallb_forall in H. apply elem_of_list_In in Hin. specialize (H _ Hin).
  apply existsb_exists in H as ([c t'] & H1 & H2). apply gotype_eqb_eq in H2 as <-.
  exists c. by apply elem_of_list_In.
Qed.

Lemma get_type_meta_Some t m :
  get_type_meta t = Some m <-> t ∈ record_types /\ exists n fs, t = GStruct n fs /\ m = TypeMeta "flow/v1" n.
Proof.
  unfold get_type_meta. destruct (existsb (gotype_eqb t) record_types) eqn:E.
  - apply existsb_record in E. destruct t; try (split; [done|by intros [_ (? & ? & ? & _)]]).
    split; [intros [= <-]; eauto|]. intros (_ & n & fs' & [= -> ->] & ->). done.
  - split; [done|]. intros [H _]. apply existsb_record in H. congruence.
Qed.

Lemma get_type_meta_None t : get_type_meta t = None <-> t ∉ record_types.
Proof.
  destruct (get_type_meta t) as [m|] eqn:E.
  - apply get_type_meta_Some in E as [H _]. split; [done|]. intros H'. done.
  - split; [|done]. intros _ H. destruct (record_types_struct _ H) as (n & rest & ->).
    assert (get_type_meta (record_type n rest) = Some (TypeMeta "flow/v1" n)) as H'.
    { apply get_type_meta_Some. split; [done|]. eexists _, _. split; reflexivity. }
    congruence.
Qed.

Lemma as_record_ptr t v :
  as_record (record_any true t v) =
  if decide (t ∈ record_types) then Some (VRec true t v) else None.
Proof.
  simpl. destruct (get_type_meta t) eqn:E.
  - apply get_type_meta_Some in E as [H _]. by rewrite decide_True.
  - apply get_type_meta_None in E. by rewrite decide_False.
Qed.

Lemma Decode_ptr reg a x :
  Decode reg a = Ok x -> exists t v, x = record_any true t v.
Proof.
  unfold Decode. destruct a as [a|]; [|done].
  destruct (a !! type_of_record) as [[]|]; try done. destruct (decodings reg !! n) as [te|]; [|done].
  destruct (decode_fields (te_fields te) a (zero_value (te_t te))); try done. intros [= <-].
  by eexists _, _.
Qed.

Lemma elem_decodes_fun e r r' : elem_decodes e r -> elem_decodes e r' -> r = r'.
Proof.
  intros (a & -> & Hp & _ & Hd) (a' & [= <-] & Hp' & _ & Hd'). rewrite Hd in Hd'.
  destruct r, r'; simpl in *; subst. by injection Hd' as <- <-.
Qed.

Lemma decode_record_list_spec l acc :
  exists l1 rs l2, l = l1 ++ l2 /\ Forall2 elem_decodes l1 rs /\
   ((l2 = [] /\ decode_record_list l acc = RDone (acc ++ (Some <$> rs)) None) \/
    exists e l3, l2 = e :: l3 /\ (forall r, ~ elem_decodes e r) /\
      ((exists a, e = EMap (Some a) /\ Decode vanflow_registry (Some a) = Panic /\
          decode_record_list l acc = RPanic) \/
       ((forall a, e = EMap (Some a) -> Decode vanflow_registry (Some a) <> Panic) /\
        exists er, decode_record_list l acc = RDone (acc ++ (Some <$> rs)) (Some er)))).
Proof.
  revert acc; induction l as [|e l IH]; intros acc.
  { exists [], [], []. split; [done|]. split; [constructor|]. left. simpl. by rewrite app_nil_r. }
  assert ((exists r, elem_decodes e r) \/
    ((forall r, ~ elem_decodes e r) /\
      ((exists a, e = EMap (Some a) /\ Decode vanflow_registry (Some a) = Panic /\
          decode_record_list (e :: l) acc = RPanic) \/
       ((forall a, e = EMap (Some a) -> Decode vanflow_registry (Some a) <> Panic) /\
        exists er, decode_record_list (e :: l) acc = RDone acc (Some er))))) as [[r Hr]|H].
  { destruct e as [[a|]|w].
    - cbn [decode_record_list]. destruct (Decode vanflow_registry (Some a)) as [x|er|] eqn:E.
      + destruct (Decode_ptr _ _ _ E) as (t & v & ->). rewrite as_record_ptr.
        destruct (decide (t ∈ record_types)) as [Ht|Ht].
        * left. exists (VRec true t v). exists a. done.
        * right. split; [|right; split; [|eauto]].
          -- intros r (a' & [= <-] & _ & Hin & Hd). rewrite E in Hd. injection Hd as Et _. by rewrite <- Et in Hin.
          -- intros a' [= <-]. congruence.
      + right. split; [|right; split; [|eauto]].
        * intros r (a' & [= <-] & _ & _ & Hd). congruence.
        * intros a' [= <-]. congruence.
      + right. split; [|left; eauto]. intros r (a' & [= <-] & _ & _ & Hd). congruence.
    - right. split; [by intros r (a' & ? & _)|right]. split; [done|]. simpl. eauto.
    - right. split; [by intros r (a' & ? & _)|right]. split; [done|]. simpl. eauto. }
  - destruct (IH (acc ++ [Some r])) as (l1 & rs & l2 & -> & HF & Hrest).
    assert (decode_record_list (e :: (l1 ++ l2)) acc = decode_record_list (l1 ++ l2) (acc ++ [Some r])) as Estep.
    { destruct Hr as (a & -> & Hp & Hin & Hd). cbn [decode_record_list]. rewrite Hd, as_record_ptr.
      rewrite decide_True by done. destruct r as [p t v]; simpl in *. by subst p. }
    exists (e :: l1), (r :: rs), l2. split; [done|]. split; [by constructor|].
    rewrite Estep. rewrite <- app_assoc in Hrest. exact Hrest.
  - exists [], [], (e :: l). split; [done|]. split; [constructor|]. right. exists e, l.
    split; [done|]. destruct H as [H1 H2]. split; [done|].
    change (Some <$> []) with (@nil (option vrec)). rewrite app_nil_r. exact H2.
Qed.

Lemma decode_records_prefix m p :
  has_subject m p "RECORD" ->
  match am_value m with
  | MOther _ => exists rm er, decode_msg (Some m) = RDone (Some (MsgRecord rm)) (Some er) /\ rm_records rm = []
  | MList l =>
    exists l1 rs l2, l = l1 ++ l2 /\ Forall2 elem_decodes l1 rs /\
     ((l2 = [] /\ exists rm, decode_msg (Some m) = RDone (Some (MsgRecord rm)) None /\
          rm_records rm = Some <$> rs) \/
      exists e l3, l2 = e :: l3 /\ (forall r, ~ elem_decodes e r) /\
        ((exists a, e = EMap (Some a) /\ Decode vanflow_registry (Some a) = Panic /\
            decode_msg (Some m) = RPanic) \/
         ((forall a, e = EMap (Some a) -> Decode vanflow_registry (Some a) <> Panic) /\
          exists rm er, decode_msg (Some m) = RDone (Some (MsgRecord rm)) (Some er) /\
            rm_records rm = Some <$> rs)))
  end.
Proof.
  intros [Hp Hs]. unfold decode_msg, decode_record_msg, decode_records. rewrite Hp, Hs. simpl.
  destruct (am_value m) as [l|w]; [|by eexists _, _].
  destruct (decode_record_list_spec l []) as (l1 & rs & l2 & -> & HF & H).
  exists l1, rs, l2. split; [done|]. split; [done|].
  destruct H as [[-> E]|(e & l3 & -> & Hn & [(a & Ha & Hd & E)|(Hd & er & E)])].
  - left. split; [done|]. rewrite E. by eexists.
  - right. exists e, l3. split; [done|]. split; [done|]. left. exists a. by rewrite E.
  - right. exists e, l3. split; [done|]. split; [done|]. right. split; [done|]. rewrite E. by eexists _, _.
Qed.

(** No nil attribute values, no panic. *)
Lemma decode_msg_no_panic m :
  (forall m' l a k, m = Some m' -> am_value m' = MList l -> EMap (Some a) ∈ l -> a !! k <> Some ANil) ->
  decode_msg m <> RPanic.
Proof.
  intros H. destruct m as [m|]; [|done]. unfold decode_msg.
  destruct (am_props m) as [p|] eqn:Ep; [|done]. destruct (ap_subject p) as [s|] eqn:Es; [|done].
  unfold decode_beacon, decode_heartbeat, decode_flush, decode_record_msg. rewrite Ep.
  repeat (case_bool_decide; [try done|]); [|done].
  unfold decode_records. destruct (am_value m) as [l|w] eqn:Ev; [|done].
  destruct (decode_record_list_spec l []) as (l1 & rs & l2 & -> & HF & Hx).
  destruct Hx as [[-> ->]|(e & l3 & -> & Hn & [(a & -> & Hd & E)|(Hd & er & ->)])]; try done.
  exfalso. revert Hd. apply (decode_no_nil_no_panic _ _ vanflow_wf). intros a' [= <-] k.
  eapply H; [done|done|]. set_solver.
Qed.

(** ** Encoding record messages *)

Lemma good_encode r :
  good_record r ->
  (exists a, Encode vanflow_registry (vrec_any r) = EncOk a) \/
  (exists p e, Encode vanflow_registry (vrec_any r) = EncErr p e).
Proof.
  intros (n & fs & vs & Et & Ev & Hin & Hty & Hfit). unfold vrec_any. rewrite Et, Ev in *.
  destruct (record_types_builtin _ Hin) as [c Hc].
  destruct (encode_iff _ (vr_ptr r) _ _ _ _ vanflow_wf (builtin_registered _ _ Hc) Hty Hfit) as [_ Hp].
  destruct (Encode vanflow_registry _); eauto. done.
Qed.

Lemma elem_round_trip r a :
  good_record r -> Encode vanflow_registry (vrec_any r) = EncOk a ->
  exists r', normal_record r r' /\ elem_decodes (EMap (Some a)) r'.
Proof.
  intros (n & fs & vs & Et & Ev & Hin & Hty & Hfit) He. unfold vrec_any in He. rewrite Et, Ev in He. rewrite Et in Hin.
  destruct (record_types_builtin _ Hin) as [c Hc].
  destruct (round_trip _ _ _ _ _ _ vanflow_wf Hty Hfit (builtin_no_zero _ _ _ Hc) He) as (ws & Hn & Hd).
  exists (VRec true (GStruct n fs) (VStruct ws)). split; [by exists n, fs, vs, ws|].
  exists a. done.
Qed.

Lemma encode_records_iff rs :
  Forall good_record rs ->
  (exists l, encode_records (Some <$> rs) = Ok l) <->
  Forall (fun r => exists a, Encode vanflow_registry (vrec_any r) = EncOk a) rs.
Proof.
  induction rs as [|r rs IH]; intros HG; [split; [constructor|by eexists]|].
  apply Forall_cons in HG as [Hg HG]. rewrite Forall_cons, <- (IH HG). clear IH.
  cbn [fmap list_fmap encode_records record_iface].
  destruct (good_encode r Hg) as [[a E]|(p & e & E)]; rewrite E.
  - split.
    + intros [l Hl]. split; [eauto|]. apply res_bind_ok in Hl as (l' & Hl' & _). eauto.
    + intros [_ [l Hl]]. change (list_fmap vrec (option vrec) Some rs) with (Some <$> rs).
      rewrite Hl. simpl. eauto.
  - split; [by intros [? ?]|]. intros [[a Ha] _]. congruence.
Qed.

Lemma encode_records_decode rs l acc :
  Forall good_record rs -> encode_records (Some <$> rs) = Ok l ->
  exists rs', Forall2 normal_record rs rs' /\ decode_record_list l acc = RDone (acc ++ (Some <$> rs')) None.
Proof.
  revert l acc. induction rs as [|r rs IH]; intros l acc HG Hl.
  - injection Hl as <-. exists []. split; [constructor|]. simpl. by rewrite app_nil_r.
  - apply Forall_cons in HG as [Hg HG]. cbn [fmap list_fmap encode_records record_iface] in Hl.
    destruct (Encode vanflow_registry (vrec_any r)) as [a| |] eqn:E; try done.
    apply res_bind_ok in Hl as (l' & Hl' & [= <-]).
    destruct (elem_round_trip r a Hg E) as (r' & Hn & (a' & [= <-] & Hp & Hin & Hd)).
    destruct (IH l' (acc ++ [Some r']) HG Hl') as (rs' & HF & Hdec).
    exists (r' :: rs'). split; [by constructor|]. cbn [decode_record_list]. rewrite Hd, as_record_ptr.
    rewrite decide_True by done. destruct r' as [b t v]; simpl in Hp; subst b. cbn [vr_type vr_val]. rewrite Hdec.
    by rewrite <- app_assoc.
Qed.

Lemma record_msg_round_trip m am rs :
  rm_records m = Some <$> rs -> Forall good_record rs ->
  encode_record_msg m = Ok am ->
  exists rs', Forall2 normal_record rs rs' /\
    decode_msg (Some am) = RDone (Some (MsgRecord
      (RecordMsg (MsgProps (mp_to (rm_props m)) "RECORD" "") (Some <$> rs')))) None.
Proof.
  intros Hr HG He. unfold encode_record_msg in He. rewrite Hr in He.
  apply res_bind_ok in He as (l & Hl & [= <-]).
  destruct (encode_records_decode rs l [] HG Hl) as (rs' & HF & Hd).
  exists rs'. split; [done|]. unfold decode_msg, decode_record_msg, decode_records. simpl. by rewrite Hd.
Qed.

Lemma record_msg_encode_iff m rs :
  rm_records m = Some <$> rs -> Forall good_record rs ->
  (exists am, encode_record_msg m = Ok am) <->
  Forall (fun r => exists a, Encode vanflow_registry (vrec_any r) = EncOk a) rs.
Proof.
  intros Hr HG. rewrite <- (encode_records_iff rs HG). unfold encode_record_msg. rewrite Hr. split.
  - intros [am H]. apply res_bind_ok in H as (l & Hl & _). eauto.
  - intros [l ->]. simpl. eauto.
Qed.

Lemma record_msg_encode_nil m :
  None ∈ rm_records m -> forall am, encode_record_msg m <> Ok am.
Proof.
  unfold encode_record_msg. intros Hin am H. apply res_bind_ok in H as (l & Hl & _).
  revert l Hl. induction (rm_records m) as [|r rs IH]; intros l Hl; [by apply elem_of_nil in Hin|].
  cbn [encode_records] in Hl. apply elem_of_cons in Hin as [<-|Hin].
  - simpl in Hl. done.
  - destruct (Encode vanflow_registry (record_iface r)); try done.
    apply res_bind_ok in Hl as (l' & Hl' & _). by eapply IH.
Qed.

(** ** Witnesses *)

Definition ex_site (id : string) : vrec :=
  VRec false SiteRecord (VStruct [VStruct [VStr id; VPtr None; VPtr None];
    VPtr None; VPtr (Some (VStr "aws")); VPtr None; VPtr None; VPtr (Some (VStr "east")); VPtr None; VPtr None]).

Lemma ex_site_good id : good_record (ex_site id).
Proof.
  eexists _, _, _. split; [reflexivity|]. split; [reflexivity|]. split; [unfold record_types; by left|].
  split; [cbn; tauto|]. intros f v t Hl E. exfalso. leaves Hl; discriminate E.
Qed.

Lemma ex_site_encodes : exists a, Encode vanflow_registry (vrec_any (ex_site "s1")) = EncOk a.
Proof.
  assert (exists n fs, SiteRecord = GStruct n fs /\ (0%N, GStruct n fs) ∈ builtin_types) as (n & fs & Es & Hc).
  { eexists _, _. split; [reflexivity|]. unfold builtin_types. by left. }
  unfold vrec_any, ex_site. cbn [vr_ptr vr_type vr_val].
  destruct (ex_site_good "s1") as (n' & fs' & vs & Et & Ev & Hin & Hty & Hfit).
  unfold ex_site in Et, Ev. cbn [vr_type vr_val] in Et, Ev. injection Ev as <-.
  rewrite Es in Et. injection Et as <- <-. rewrite Es.
  destruct (builtin_round_trip 0 n fs false _ Hc Hty Hfit) as (a & ws & Ha & _).
  - discriminate.
  - injection Es as <- <-. intros f v t Hl E. exfalso. leaves Hl; discriminate E.
  - exists a. exact Ha.
Qed.

Lemma ex_c13 :
  Forall good_record [ex_site "s1"; ex_site "s1"] /\
  exists am, encode_record_msg (RecordMsg (MsgProps "mc/sfe.x" "" "") (Some <$> [ex_site "s1"; ex_site "s1"])) = Ok am.
Proof.
  assert (Forall good_record [ex_site "s1"; ex_site "s1"]) as HG by (repeat constructor; apply ex_site_good).
  split; [done|]. apply (record_msg_encode_iff _ [ex_site "s1"; ex_site "s1"]); [done|done|].
  repeat constructor; apply ex_site_encodes.
Qed.

(** A message with a good record, then a HOST type code without an identity. *)
Definition ex_bad_msg : amqp_msg :=
  AmqpMsg (Some (AmqpProps None (Some "RECORD"%string) None)) ∅
    (MList [EMap (Some {[ KU32 0 := AU32 0; KU32 1 := AStr "s1" ]});
            EMap (Some {[ KU32 0 := AU32 13 ]}); EOther "int"]).

Lemma ex_c14 :
  has_subject ex_bad_msg (AmqpProps None (Some "RECORD"%string) None) "RECORD" /\
  exists rm e, decode_msg (Some ex_bad_msg) = RDone (Some (MsgRecord rm)) (Some e) /\ length (rm_records rm) = 1.
Proof.
  split; [done|].
  assert (match decode_msg (Some ex_bad_msg) with
    | RDone (Some (MsgRecord rm)) (Some e) => Nat.eqb (length (rm_records rm)) 1 | _ => false end = true) as H
    by (vm_compute; reflexivity).
  destruct (decode_msg (Some ex_bad_msg)) as [[[| | |rm]|] [e|]|]; try discriminate H.
  exists rm, e. split; [done|]. by apply Nat.eqb_eq.
Qed.

Lemma ex_c12 :
  has_subject (AmqpMsg (Some (AmqpProps (Some "to"%string) (Some "BEACON"%string) None))
    {[ "v"%string := AStr "1" ]} no_value) (AmqpProps (Some "to"%string) (Some "BEACON"%string) None) "BEACON".
Proof. done. Qed.
