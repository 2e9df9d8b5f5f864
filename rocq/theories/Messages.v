(** Model of messages.go: the four message kinds and their AMQP form. *)
From Coq Require Import ZArith NArith Ascii String.
From stdpp Require Import base gmap strings list.
From Verif Require Import GoBase Encoding SpecEncoding Records.

Local Open Scope string_scope.

(** go-amqp's MessageProperties, reduced to the three fields the code touches. *)
Record amqp_props := AmqpProps {
  ap_to : option string;
  ap_subject : option string;
  ap_reply_to : option string;
}.

(** Elements of a list value section: maps (a nil map is [EMap None]) or
    anything else. *)
Inductive melem := EMap (m : option attrset) | EOther (what : string).

(** The value section: a list, or anything else. *)
Inductive mvalue := MList (l : list melem) | MOther (what : string).

(** go-amqp's Message, reduced to properties, application properties and the
    value section. *)
Record amqp_msg := AmqpMsg {
  am_props : option amqp_props;
  am_app : gmap string attr;
  am_value : mvalue;
}.

(** An absent value section (nil interface). *)
Definition no_value : mvalue := MOther "<nil>".

(** messages.go l.11-17. *)
Definition beacon_address := "mc/sfe.all".
Definition beacon_subject := "BEACON".
Definition heartbeat_subject := "HEARTBEAT".
Definition flush_subject := "FLUSH".
Definition record_subject := "RECORD".

(** messages.go l.97-101, MessageProps. *)
Record msg_props := MsgProps { mp_to : string; mp_subject : string; mp_reply_to : string }.

(** messages.go l.43-50, BeaconMessage. *)
Record beacon := Beacon {
  bc_props : msg_props;
  bc_version : N;
  bc_source_type : string;
  bc_address : string;
  bc_direct : string;
  bc_identity : string;
}.

(** messages.go l.103-108, HeartbeatMessage. *)
Record heartbeat := Heartbeat {
  hb_props : msg_props;
  hb_identity : string;
  hb_version : N;
  hb_now : N;
}.

(** messages.go l.146-148, FlushMessage. *)
Record flush := Flush { fl_props : msg_props }.

(** messages.go l.174-177, RecordMessage.  A nil Record interface is [None]. *)
Record record_msg := RecordMsg { rm_props : msg_props; rm_records : list (option vrec) }.

Definition deref (s : option string) : string := default "" s.

(** The checked type assertions x.(string), x.(uint32), x.(uint64) on
    application properties; a missing key yields nil, which fails them. *)
Definition app_string (m : amqp_msg) (k : string) : string :=
  match am_app m !! k with Some (AStr s) => s | _ => "" end.
Definition app_u32 (m : amqp_msg) (k : string) : N :=
  match am_app m !! k with Some (AU32 n) => n | _ => 0%N end.
Definition app_u64 (m : amqp_msg) (k : string) : N :=
  match am_app m !! k with Some (AU64 n) => n | _ => 0%N end.

Inductive msgerr :=
  | MNilProps             (* messages.go l.23 *)
  | MNoSubject            (* messages.go l.26 *)
  | MUnknownSubject       (* messages.go l.39 *)
  | MBadValue             (* messages.go l.214 *)
  | MBadElement           (* messages.go l.219 *)
  | MDecode (e : encerr)  (* messages.go l.223 *)
  | MNotARecord.          (* messages.go l.227 *)

(** messages.go l.52-79, DecodeBeacon.  Properties is dereferenced unchecked. *)
Definition decode_beacon (m : amqp_msg) : res msgerr beacon :=
  match am_props m with
  | None => Panic
  | Some p =>
      Ok (Beacon (MsgProps (deref (ap_to p)) (deref (ap_subject p)) (deref (ap_reply_to p)))
            (app_u32 m "v") (app_string m "sourceType") (app_string m "address")
            (app_string m "direct") (app_string m "id"))
  end.

(** messages.go l.81-95, BeaconMessage.Encode. *)
Definition encode_beacon (b : beacon) : amqp_msg :=
  AmqpMsg (Some (AmqpProps (Some beacon_address) (Some beacon_subject) None))
    {[ "v" := AU32 (bc_version b); "sourceType" := AStr (bc_source_type b);
       "address" := AStr (bc_address b); "direct" := AStr (bc_direct b);
       "id" := AStr (bc_identity b) ]}
    no_value.

(** messages.go l.110-129, DecodeHeartbeat. *)
Definition decode_heartbeat (m : amqp_msg) : res msgerr heartbeat :=
  match am_props m with
  | None => Panic
  | Some p =>
      Ok (Heartbeat (MsgProps (deref (ap_to p)) (deref (ap_subject p)) "")
            (app_string m "id") (app_u32 m "v") (app_u64 m "now"))
  end.

(** messages.go l.131-144, HeartbeatMessage.Encode. *)
Definition encode_heartbeat (h : heartbeat) : amqp_msg :=
  AmqpMsg (Some (AmqpProps (Some ("mc/sfe." ++ hb_identity h)) (Some heartbeat_subject) None))
    {[ "v" := AU32 (hb_version h); "now" := AU64 (hb_now h); "id" := AStr (hb_identity h) ]}
    no_value.

(** messages.go l.150-162, DecodeFlush. *)
Definition decode_flush (m : amqp_msg) : res msgerr flush :=
  match am_props m with
  | None => Panic
  | Some p =>
      Ok (Flush (MsgProps (deref (ap_to p)) (deref (ap_subject p)) (deref (ap_reply_to p))))
  end.

(** messages.go l.164-172, FlushMessage.Encode. *)
Definition encode_flush (f : flush) : amqp_msg :=
  AmqpMsg (Some (AmqpProps (Some (mp_to (fl_props f))) (Some flush_subject)
             (Some (mp_reply_to (fl_props f))))) ∅ no_value.

Definition record_iface (r : option vrec) : goany :=
  match r with Some r => vrec_any r | None => NilIface end.

(** messages.go l.192-198, the loop of RecordMessage.Encode. *)
Fixpoint encode_records (rs : list (option vrec)) : res encerr (list melem) :=
  match rs with
  | [] => Ok []
  | r :: rs' =>
      match Encode vanflow_registry (record_iface r) with
      | EncOk a => res_bind (encode_records rs') (fun l => Ok (EMap (Some a) :: l))
      | EncErr _ e => Err e
      | EncPanic => Panic
      end
  end.

(** messages.go l.190-206, RecordMessage.Encode. *)
Definition encode_record_msg (m : record_msg) : res encerr amqp_msg :=
  res_bind (encode_records (rm_records m)) (fun l =>
    Ok (AmqpMsg (Some (AmqpProps (Some (mp_to (rm_props m))) (Some record_subject) None)) ∅ (MList l))).

(** Result of the record decoders: Go returns the records decoded so far
    together with the error. *)
Inductive recres (A : Type) :=
  | RDone (a : A) (e : option msgerr)
  | RPanic.
Arguments RDone {A} a e.
Arguments RPanic {A}.

(** messages.go l.216-230, the loop of decodeRecords; [acc] is [records]. *)
Fixpoint decode_record_list (l : list melem) (acc : list (option vrec))
  : recres (list (option vrec)) :=
  match l with
  | [] => RDone acc None
  | EOther _ :: _ => RDone acc (Some MBadElement)
  | EMap a :: l' =>
      match Decode vanflow_registry a with
      | Panic => RPanic
      | Err e => RDone acc (Some (MDecode e))
      | Ok x =>
          match as_record x with
          | None => RDone acc (Some MNotARecord)
          | Some r => decode_record_list l' (acc ++ [Some r])%list
          end
      end
  end.

(** messages.go l.210-232, decodeRecords. *)
Definition decode_records (m : amqp_msg) : recres (list (option vrec)) :=
  match am_value m with
  | MOther _ => RDone [] (Some MBadValue)
  | MList l => decode_record_list l []
  end.

(** messages.go l.179-188, DecodeRecord. *)
Definition decode_record_msg (m : amqp_msg) : recres record_msg :=
  match am_props m with
  | None => RPanic
  | Some p =>
      match decode_records m with
      | RDone rs e => RDone (RecordMsg (MsgProps (deref (ap_to p)) (deref (ap_subject p)) "") rs) e
      | RPanic => RPanic
      end
  end.

(** The decoded messages, as Decode returns them. *)
Inductive message :=
  | MsgBeacon (b : beacon)
  | MsgHeartbeat (h : heartbeat)
  | MsgFlush (f : flush)
  | MsgRecord (r : record_msg).

Definition lift {A} (f : A -> message) (r : res msgerr A) : recres (option message) :=
  match r with
  | Ok a => RDone (Some (f a)) None
  | Err e => RDone None (Some e)
  | Panic => RPanic
  end.

(** messages.go l.21-41, Decode.  A nil message is [None].  For the RECORD
    subject both the message and the error are returned. *)
Definition decode_msg (m : option amqp_msg) : recres (option message) :=
  match m with
  | None => RDone None (Some MNilProps)
  | Some m =>
      match am_props m with
      | None => RDone None (Some MNilProps)
      | Some p =>
          match ap_subject p with
          | None => RDone None (Some MNoSubject)
          | Some s =>
              if bool_decide (s = beacon_subject) then lift MsgBeacon (decode_beacon m)
              else if bool_decide (s = heartbeat_subject) then lift MsgHeartbeat (decode_heartbeat m)
              else if bool_decide (s = flush_subject) then lift MsgFlush (decode_flush m)
              else if bool_decide (s = record_subject) then
                match decode_record_msg m with
                | RDone r e => RDone (Some (MsgRecord r)) e
                | RPanic => RPanic
                end
              else RDone None (Some MUnknownSubject)
          end
      end
  end.
