(** The built-in record types: records.go and base.go l.25-29.  Every field is
    transcribed with its tag; names follow the Go source. *)
From Coq Require Import ZArith NArith Ascii String.
From stdpp Require Import base gmap strings list.
From Verif Require Import GoBase Encoding SpecEncoding.

Local Open Scope string_scope.

(** A tagged exported field of type *string, *uint64. *)
Definition pstr (name tag : string) (rest : gofields) : gofields :=
  FCons name false true tag (GPtr (GPrim PStr)) rest.
Definition pu64 (name tag : string) (rest : gofields) : gofields :=
  FCons name false true tag (GPtr (GPrim PU64)) rest.

(** base.go l.25-29, BaseRecord. *)
Definition base_fields : gofields :=
  FCons "ID" false true "1,required" (GPrim PStr) (
  FCons "StartTime" false true "3" (GPtr GTime) (
  FCons "EndTime" false true "4" (GPtr GTime) FNil)).
Definition BaseRecord : gotype := GStruct "BaseRecord" base_fields.

(** A struct that embeds BaseRecord first. *)
Definition record_type (name : string) (rest : gofields) : gotype :=
  GStruct name (FCons "BaseRecord" true true "" BaseRecord rest).

(** records.go l.27-36. *)
Definition SiteRecord := record_type "SiteRecord" (
  pstr "Location" "9" (pstr "Provider" "10" (pstr "Platform" "11" (
  pstr "Namespace" "12" (pstr "Name" "30" (pstr "Version" "52" (
  pstr "Policy" "53" FNil))))))).
(** records.go l.45-55. *)
Definition RouterRecord := record_type "RouterRecord" (
  pstr "Parent" "2" (pstr "Namespace" "12" (pstr "Mode" "13" (
  pstr "ImageName" "20" (pstr "ImageVersion" "21" (pstr "Hostname" "22" (
  pstr "Name" "30" (pstr "BuildVersion" "32" FNil)))))))).
(** records.go l.64-71. *)
Definition LinkRecord := record_type "LinkRecord" (
  pstr "Parent" "2" (pstr "Mode" "13" (pstr "Name" "30" (
  pu64 "LinkCost" "33" (pstr "Direction" "34" FNil))))).
(** records.go l.80-88. *)
Definition ControllerRecord := record_type "ControllerRecord" (
  pstr "Parent" "2" (pstr "ImageName" "20" (pstr "ImageVersion" "21" (
  pstr "Hostname" "22" (pstr "Name" "30" (pstr "BuildVersion" "32" FNil)))))).
(** records.go l.97-108. *)
Definition ListenerRecord := record_type "ListenerRecord" (
  pstr "Parent" "2" (pstr "DestHost" "15" (pstr "Protocol" "16" (
  pstr "DestPort" "18" (pstr "Address" "19" (pu64 "FlowCountL4" "40" (
  pu64 "FlowCountL7" "41" (pu64 "FlowRateL4" "42" (pu64 "FlowRateL7" "43" FNil))))))))).
(** records.go l.117-128. *)
Definition ConnectorRecord := record_type "ConnectorRecord" (
  pstr "Parent" "2" (pstr "DestHost" "15" (pstr "Protocol" "16" (
  pstr "DestPort" "18" (pstr "Address" "19" (pu64 "FlowCountL4" "40" (
  pu64 "FlowCountL7" "41" (pu64 "FlowRateL4" "42" (pu64 "FlowRateL7" "43" FNil))))))))).
(** records.go l.137-154. *)
Definition FlowRecord := record_type "FlowRecord" (
  pstr "Parent" "2" (pstr "Counterflow" "5" (pstr "SourceHost" "14" (
  pstr "SourcePort" "17" (pu64 "Octets" "23" (pu64 "Latency" "24" (
  pstr "Reason" "29" (pstr "Trace" "31" (pu64 "OctetRate" "35" (
  pu64 "OctetsOut" "36" (pu64 "OctetsUnacked" "37" (pu64 "WindowClosures" "38" (
  pu64 "WindowSize" "39" (pstr "Method" "27" (pstr "Result" "28" FNil))))))))))))))).
(** records.go l.163-173. *)
Definition ProcessRecord := record_type "ProcessRecord" (
  pstr "Parent" "2" (pstr "Mode" "13" (pstr "SourceHost" "14" (
  pstr "ImageName" "20" (pstr "ImageVersion" "21" (pstr "Hostname" "22" (
  pstr "Name" "30" (pstr "Group" "46" FNil)))))))).
(** records.go l.182-184. *)
Definition ImageRecord := record_type "ImageRecord" FNil.
(** records.go l.186-188. *)
Definition IngressRecord := record_type "IngressRecord" FNil.
(** records.go l.190-192. *)
Definition EgressRecord := record_type "EgressRecord" FNil.
(** records.go l.194-196. *)
Definition CollectorRecord := record_type "CollectorRecord" FNil.
(** records.go l.198-200. *)
Definition ProcessGroupRecord := record_type "ProcessGroupRecord" FNil.
(** records.go l.202-206. *)
Definition HostRecord := record_type "HostRecord" (
  pstr "Provider" "10" (pstr "Name" "30" FNil)).
(** records.go l.215-221. *)
Definition LogRecord := record_type "LogRecord" (
  pu64 "LogSeverity" "48" (pstr "LogText" "49" (pstr "SourceFile" "50" (
  pu64 "SourceLine" "51" FNil)))).

(** records.go l.9-25, init: codepoints and types in registration order. *)
Definition builtin_types : list (N * gotype) :=
  [(0%N, SiteRecord); (1%N, RouterRecord); (2%N, LinkRecord); (3%N, ControllerRecord);
   (4%N, ListenerRecord); (5%N, ConnectorRecord); (6%N, FlowRecord); (7%N, ProcessRecord);
   (8%N, ImageRecord); (9%N, IngressRecord); (10%N, EgressRecord); (11%N, CollectorRecord);
   (12%N, ProcessGroupRecord); (13%N, HostRecord); (14%N, LogRecord)].

Definition builtin_calls : list (N * goany) :=
  (fun '(c, t) => (c, AnyVal t (zero_value t))) <$> builtin_types.

(** records.go l.9-25, init, as a sequence of calls any of which could panic. *)
Definition init_registry : res unit registry :=
  fold_left (fun r '(c, x) => res_bind r (must_register c x)) builtin_calls (Ok empty_registry).

(** The registry once package vanflow is initialised. *)
Definition vanflow_registry : registry := register_all builtin_calls.

(** base.go l.11-14, TypeMeta. *)
Record type_meta := TypeMeta { tm_version : string; tm_type : string }.

Global Instance type_meta_eq_dec : EqDecision type_meta.
Proof. solve_decision. Defined.

Global Instance type_meta_countable : Countable type_meta.
Proof.
  refine (inj_countable' (fun m => (tm_version m, tm_type m)) (fun '(v, t) => TypeMeta v t) _).
  by intros [].
Defined.

(** base.go l.16-18, TypeMeta.String. *)
Definition type_meta_string (m : type_meta) : string :=
  (tm_version m ++ "/" ++ tm_type m)%string.

(** records.go l.7. *)
Definition api_version : string := "flow/v1".

(** The ten types with a GetTypeMeta method (records.go l.38 ff., 57 ff., 73
    ff., 90 ff., 110 ff., 130 ff., 156 ff., 175 ff., 208 ff., 223 ff.); the
    other five built-in types do not implement vanflow.Record. *)
Definition record_types : list gotype :=
  [SiteRecord; RouterRecord; LinkRecord; ControllerRecord; ListenerRecord;
   ConnectorRecord; FlowRecord; ProcessRecord; HostRecord; LogRecord].

(** GetTypeMeta of a struct type; None when the type has no such method. *)
Definition get_type_meta (t : gotype) : option type_meta :=
  if existsb (gotype_eqb t) record_types then
    match t with
    | GStruct n _ => Some (TypeMeta api_version n)
    | _ => None
    end
  else None.

(** base.go l.48-50, Identity: the ID of the embedded BaseRecord. *)
Definition identity_of (v : goval) : string :=
  match get_path [0; 0] v with
  | Some (VStr s) => s
  | _ => ""
  end.

(** A value of a type implementing vanflow.Record: one of [record_types] held
    by value or by non-nil pointer. *)
Record vrec := VRec { vr_ptr : bool; vr_type : gotype; vr_val : goval }.

Definition vrec_any (r : vrec) : goany := record_any (vr_ptr r) (vr_type r) (vr_val r).

Definition vrec_identity (r : vrec) : string := identity_of (vr_val r).

Definition vrec_meta (r : vrec) : type_meta :=
  match get_type_meta (vr_type r) with
  | Some m => m
  | None => TypeMeta "" ""
  end.

(** The type assertion x.(vanflow.Record): which interface values satisfy it. *)
Definition as_record (x : goany) : option vrec :=
  match x with
  | AnyVal (GPtr t) (VPtr (Some v)) =>
      match get_type_meta t with Some _ => Some (VRec true t v) | None => None end
  | AnyVal t v =>
      match get_type_meta t with Some _ => Some (VRec false t v) | None => None end
  | NilIface => None
  end.
