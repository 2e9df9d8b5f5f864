(** Model of messages.go's record messages for any registry and any record types:
    those that a program registers beside the built-in ones.  (Messages.v is the
    special case of the built-in registry.) *)
From Coq Require Import ZArith NArith Ascii String.
From stdpp Require Import base gmap strings list.
From Verif Require Import GoBase Encoding Messages.

Local Open Scope list_scope.

Section user.
(** The types registered, and which Go types implement Record (base.go l.20-23):
    the type assertion of messages.go l.225. *)
Context (reg : registry) (implements : gotype -> bool).

(** messages.go l.225, record.(Record). *)
Definition is_a_record (x : goany) : bool := match x with AnyVal t _ => implements t | NilIface => false end.

(** messages.go l.192-198, the loop of RecordMessage.Encode. *)
Fixpoint user_encode_records (rs : list goany) : res encerr (list melem) :=
  match rs with
  | [] => Ok []
  | r :: rs' =>
      match Encode reg r with
      | EncOk a => res_bind (user_encode_records rs') (fun l => Ok (EMap (Some a) :: l))
      | EncErr _ e => Err e
      | EncPanic => Panic
      end
  end.

(** messages.go l.216-230, the loop of decodeRecords; [acc] is [records]. *)
Fixpoint user_decode_list (l : list melem) (acc : list goany) : recres (list goany) :=
  match l with
  | [] => RDone acc None
  | EOther _ :: _ => RDone acc (Some MBadElement)
  | EMap a :: l' =>
      match Decode reg a with
      | Panic => RPanic
      | Err e => RDone acc (Some (MDecode e))
      | Ok x => if is_a_record x then user_decode_list l' (acc ++ [x]) else RDone acc (Some MNotARecord)
      end
  end.
End user.

(** messages.go l.190-206, RecordMessage.Encode: addressed to [to]. *)
Definition user_encode_msg (reg : registry) (to : string) (rs : list goany) : res encerr amqp_msg :=
  res_bind (user_encode_records reg rs) (fun l =>
    Ok (AmqpMsg (Some (AmqpProps (Some to) (Some record_subject) None)) ∅ (MList l))).

(** messages.go l.179-188 and l.210-215, DecodeRecord: To, Subject and the records. *)
Definition user_decode_msg (reg : registry) (implements : gotype -> bool) (m : amqp_msg) : recres (string * string * list goany) :=
  match am_props m with
  | None => RPanic
  | Some p =>
      match (match am_value m with MOther _ => RDone [] (Some MBadValue) | MList l => user_decode_list reg implements l [] end) with
      | RDone rs e => RDone (deref (ap_to p), deref (ap_subject p), rs) e
      | RPanic => RPanic
      end
  end.
