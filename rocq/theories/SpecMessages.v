(** Specification vocabulary for the message properties. *)
From Coq Require Import ZArith NArith Ascii String.
From stdpp Require Import base gmap strings list.
From Verif Require Import GoBase Encoding SpecEncoding Records Messages.

(** [reads_string m k s]: [s] is the string property [k] of the message, or
    empty if there is no such property or it is not a string.  Likewise for
    numbers. *)
Definition reads_string (m : amqp_msg) (k : string) (s : string) : Prop :=
  am_app m !! k = Some (AStr s) \/
  (s = ""%string /\ forall s', am_app m !! k <> Some (AStr s')).
Definition reads_u32 (m : amqp_msg) (k : string) (n : N) : Prop :=
  am_app m !! k = Some (AU32 n) \/ (n = 0%N /\ forall n', am_app m !! k <> Some (AU32 n')).
Definition reads_u64 (m : amqp_msg) (k : string) (n : N) : Prop :=
  am_app m !! k = Some (AU64 n) \/ (n = 0%N /\ forall n', am_app m !! k <> Some (AU64 n')).

(** [carries o s]: the optional property [o] reads as [s]. *)
Definition carries (o : option string) (s : string) : Prop :=
  o = Some s \/ (o = None /\ s = ""%string).

(** The message has subject [s] (and properties [p]). *)
Definition has_subject (m : amqp_msg) (p : amqp_props) (s : string) : Prop :=
  am_props m = Some p /\ ap_subject p = Some s.

(** One list element decodes to the record [r]. *)
Definition elem_decodes (e : melem) (r : vrec) : Prop :=
  exists a, e = EMap (Some a) /\ vr_ptr r = true /\ vr_type r ∈ record_types /\
    Decode vanflow_registry (Some a) = Ok (record_any true (vr_type r) (vr_val r)).

(** A usable record value: a built-in record type with a Record interface, the
    value well typed and its times within range. *)
Definition good_record (r : vrec) : Prop :=
  exists n fs vs, vr_type r = GStruct n fs /\ vr_val r = VStruct vs /\ vr_type r ∈ record_types /\
    typed_fields fs vs /\ times_fit fs vs.

(** [r'] is the normal form of [r], held by pointer. *)
Definition normal_record (r r' : vrec) : Prop :=
  exists n fs vs ws, vr_type r = GStruct n fs /\ vr_val r = VStruct vs /\ normal fs vs ws /\
    r' = VRec true (GStruct n fs) (VStruct ws).
