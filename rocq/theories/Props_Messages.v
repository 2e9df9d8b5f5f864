(** Properties C11-C14: message encoding and decoding. *)
From Coq Require Import ZArith NArith Ascii String Lia.
From stdpp Require Import base gmap strings list.
From Verif Require Import GoBase Encoding SpecEncoding Records Messages SpecMessages MessageFacts.

Local Open Scope list_scope.

(** C11: what comes back for each of the three fixed kinds. *)
Theorem C11_beacon_round_trip b :
  decode_msg (Some (encode_beacon b)) =
  RDone (Some (MsgBeacon (Beacon (MsgProps "mc/sfe.all" "BEACON" "") (bc_version b) (bc_source_type b)
    (bc_address b) (bc_direct b) (bc_identity b)))) None.
Proof. exact (beacon_round_trip b). Qed.

Theorem C11_heartbeat_round_trip h :
  decode_msg (Some (encode_heartbeat h)) =
  RDone (Some (MsgHeartbeat (Heartbeat (MsgProps (String.append "mc/sfe." (hb_identity h)) "HEARTBEAT" "")
    (hb_identity h) (hb_version h) (hb_now h)))) None.
Proof. exact (heartbeat_round_trip h). Qed.

Theorem C11_flush_round_trip f :
  decode_msg (Some (encode_flush f)) =
  RDone (Some (MsgFlush (Flush (MsgProps (mp_to (fl_props f)) "FLUSH" (mp_reply_to (fl_props f)))))) None.
Proof. exact (flush_round_trip f). Qed.
(** No hypotheses: every message value is covered. *)
Print Assumptions C11_beacon_round_trip.
Print Assumptions C11_heartbeat_round_trip.
Print Assumptions C11_flush_round_trip.

(** C12: the subject decides the kind; each field is the matching property or
    empty; anything else is an error. *)
Theorem C12_decode_beacon m p :
  has_subject m p "BEACON" ->
  exists b, decode_msg (Some m) = RDone (Some (MsgBeacon b)) None /\
    mp_subject (bc_props b) = "BEACON"%string /\ carries (ap_to p) (mp_to (bc_props b)) /\
    carries (ap_reply_to p) (mp_reply_to (bc_props b)) /\
    reads_u32 m "v" (bc_version b) /\ reads_string m "sourceType" (bc_source_type b) /\
    reads_string m "address" (bc_address b) /\ reads_string m "direct" (bc_direct b) /\
    reads_string m "id" (bc_identity b).
Proof. exact (decode_beacon_spec m p). Qed.

Theorem C12_decode_heartbeat m p :
  has_subject m p "HEARTBEAT" ->
  exists h, decode_msg (Some m) = RDone (Some (MsgHeartbeat h)) None /\
    mp_subject (hb_props h) = "HEARTBEAT"%string /\ carries (ap_to p) (mp_to (hb_props h)) /\
    mp_reply_to (hb_props h) = ""%string /\
    reads_string m "id" (hb_identity h) /\ reads_u32 m "v" (hb_version h) /\ reads_u64 m "now" (hb_now h).
Proof. exact (decode_heartbeat_spec m p). Qed.

Theorem C12_decode_flush m p :
  has_subject m p "FLUSH" ->
  exists f, decode_msg (Some m) = RDone (Some (MsgFlush f)) None /\
    mp_subject (fl_props f) = "FLUSH"%string /\ carries (ap_to p) (mp_to (fl_props f)) /\
    carries (ap_reply_to p) (mp_reply_to (fl_props f)).
Proof. exact (decode_flush_spec m p). Qed.

Theorem C12_decode_rejects m :
  (forall m' p s, m = Some m' -> has_subject m' p s ->
     s <> "BEACON" /\ s <> "HEARTBEAT" /\ s <> "FLUSH" /\ s <> "RECORD")%string ->
  exists e, decode_msg m = RDone None (Some e).
Proof. exact (decode_rejects m). Qed.

Theorem C12_decode_kind m x e :
  decode_msg m = RDone (Some x) e ->
  exists m' p s, m = Some m' /\ has_subject m' p s /\
    match x with
    | MsgBeacon _ => s = "BEACON" | MsgHeartbeat _ => s = "HEARTBEAT"
    | MsgFlush _ => s = "FLUSH" | MsgRecord _ => s = "RECORD"
    end%string.
Proof. exact (decode_kind m x e). Qed.

(** Decoding panics on no message whose records are free of nil attributes. *)
Theorem C12_decode_no_panic m :
  (forall m' l a k, m = Some m' -> am_value m' = MList l -> EMap (Some a) ∈ l -> a !! k <> Some ANil) ->
  decode_msg m <> RPanic.
Proof. exact (decode_msg_no_panic m). Qed.

Example C12_example :
  has_subject (AmqpMsg (Some (AmqpProps (Some "to"%string) (Some "BEACON"%string) None))
    {[ "v"%string := AStr "1" ]} no_value) (AmqpProps (Some "to"%string) (Some "BEACON"%string) None) "BEACON".
Proof. exact ex_c12. Qed.
Print Assumptions C12_decode_beacon.
Print Assumptions C12_decode_heartbeat.
Print Assumptions C12_decode_flush.
Print Assumptions C12_decode_rejects.
Print Assumptions C12_decode_kind.
Print Assumptions C12_decode_no_panic.

(** C13: record messages round-trip record by record. *)
Theorem C13_record_msg_round_trip m am rs :
  rm_records m = Some <$> rs -> Forall good_record rs ->
  encode_record_msg m = Ok am ->
  exists rs', Forall2 normal_record rs rs' /\
    decode_msg (Some am) = RDone (Some (MsgRecord
      (RecordMsg (MsgProps (mp_to (rm_props m)) "RECORD" "") (Some <$> rs')))) None.
Proof. exact (record_msg_round_trip m am rs). Qed.

Theorem C13_encode_iff m rs :
  rm_records m = Some <$> rs -> Forall good_record rs ->
  (exists am, encode_record_msg m = Ok am) <->
  Forall (fun r => exists a, Encode vanflow_registry (vrec_any r) = EncOk a) rs.
Proof. exact (record_msg_encode_iff m rs). Qed.

Theorem C13_nil_record_rejected m :
  None ∈ rm_records m -> forall am, encode_record_msg m <> Ok am.
Proof. exact (record_msg_encode_nil m). Qed.

Example C13_example :
  Forall good_record [ex_site "s1"; ex_site "s1"] /\
  exists am, encode_record_msg (RecordMsg (MsgProps "mc/sfe.x" "" "") (Some <$> [ex_site "s1"; ex_site "s1"])) = Ok am.
Proof. exact ex_c13. Qed.
Print Assumptions C13_record_msg_round_trip.
Print Assumptions C13_encode_iff.
Print Assumptions C13_nil_record_rejected.

(** C14: the longest decodable prefix is returned, with an error (or, for an
    element on which the record decoder panics, a panic) exactly when it is
    not the whole list. *)
Theorem C14_decode_prefix m p :
  has_subject m p "RECORD" ->
  match am_value m with
  | MOther _ => exists rm er, decode_msg (Some m) = RDone (Some (MsgRecord rm)) (Some er) /\ rm_records rm = []
  | MList l =>
    exists l1 rs l2, l = l1 ++ l2 /\ Forall2 elem_decodes l1 rs /\
     ((l2 = [] /\ exists rm, decode_msg (Some m) = RDone (Some (MsgRecord rm)) None /\
          rm_records rm = Some <$> rs) \/
      exists e l3, l2 = e :: l3 /\ (forall r, ~ elem_decodes e r) /\
        ((exists a, e = EMap (Some a) /\ Decode vanflow_registry (Some a) = Panic /\
            decode_msg (Some m) = RPanic) \/
         ((forall a, e = EMap (Some a) -> Decode vanflow_registry (Some a) <> Panic) /\
          exists rm er, decode_msg (Some m) = RDone (Some (MsgRecord rm)) (Some er) /\
            rm_records rm = Some <$> rs)))
  end.
Proof. exact (decode_records_prefix m p). Qed.

Example C14_example :
  has_subject ex_bad_msg (AmqpProps None (Some "RECORD"%string) None) "RECORD" /\
  exists rm e, decode_msg (Some ex_bad_msg) = RDone (Some (MsgRecord rm)) (Some e) /\ length (rm_records rm) = 1.
Proof. exact ex_c14. Qed.
Print Assumptions C14_decode_prefix.
