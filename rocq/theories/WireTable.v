(** The wire numbers of the record types, as a table: type code, type name, and
    the codepoint, name and Go type of each field.  tools/gen_wire.py extracts
    the rows from the text of records.go and base.go; they do not depend on the
    transcription in Records.v.  Also what a field of each kind says on the
    wire. *)
From Coq Require Import ZArith NArith Ascii String.
From stdpp Require Import base gmap strings list.
From Verif Require Import GoBase Encoding SpecEncoding.

Local Open Scope string_scope.
Local Open Scope N_scope.
Local Open Scope list_scope.

(** Go types of the fields: string, *string, *uint64, *Time. *)
Inductive wkind := FString | FStringPtr | FUint64Ptr | FTimePtr.

Definition wtype (k : wkind) : gotype :=
  match k with
  | FString => GPrim PStr
  | FStringPtr => GPtr (GPrim PStr)
  | FUint64Ptr => GPtr (GPrim PU64)
  | FTimePtr => GPtr GTime
  end.

(** base.go l.25-29: the fields every record has.  Only the first is required. *)
Definition base_row : list (N * string * wkind) :=
  [(1, "ID", FString); (3, "StartTime", FTimePtr); (4, "EndTime", FTimePtr)].

(** records.go l.9-221. *)
Definition wire_table : list (N * string * list (N * string * wkind)) :=
  [
   (0, "SiteRecord",
      [(9, "Location", FStringPtr); (10, "Provider", FStringPtr);
       (11, "Platform", FStringPtr); (12, "Namespace", FStringPtr);
       (30, "Name", FStringPtr); (52, "Version", FStringPtr); (53, "Policy", FStringPtr)]);
   (1, "RouterRecord",
      [(2, "Parent", FStringPtr); (12, "Namespace", FStringPtr); (13, "Mode", FStringPtr);
       (20, "ImageName", FStringPtr); (21, "ImageVersion", FStringPtr);
       (22, "Hostname", FStringPtr); (30, "Name", FStringPtr);
       (32, "BuildVersion", FStringPtr)]);
   (2, "LinkRecord",
      [(2, "Parent", FStringPtr); (13, "Mode", FStringPtr); (30, "Name", FStringPtr);
       (33, "LinkCost", FUint64Ptr); (34, "Direction", FStringPtr)]);
   (3, "ControllerRecord",
      [(2, "Parent", FStringPtr); (20, "ImageName", FStringPtr);
       (21, "ImageVersion", FStringPtr); (22, "Hostname", FStringPtr);
       (30, "Name", FStringPtr); (32, "BuildVersion", FStringPtr)]);
   (4, "ListenerRecord",
      [(2, "Parent", FStringPtr); (15, "DestHost", FStringPtr);
       (16, "Protocol", FStringPtr); (18, "DestPort", FStringPtr);
       (19, "Address", FStringPtr); (40, "FlowCountL4", FUint64Ptr);
       (41, "FlowCountL7", FUint64Ptr); (42, "FlowRateL4", FUint64Ptr);
       (43, "FlowRateL7", FUint64Ptr)]);
   (5, "ConnectorRecord",
      [(2, "Parent", FStringPtr); (15, "DestHost", FStringPtr);
       (16, "Protocol", FStringPtr); (18, "DestPort", FStringPtr);
       (19, "Address", FStringPtr); (40, "FlowCountL4", FUint64Ptr);
       (41, "FlowCountL7", FUint64Ptr); (42, "FlowRateL4", FUint64Ptr);
       (43, "FlowRateL7", FUint64Ptr)]);
   (6, "FlowRecord",
      [(2, "Parent", FStringPtr); (5, "Counterflow", FStringPtr);
       (14, "SourceHost", FStringPtr); (17, "SourcePort", FStringPtr);
       (23, "Octets", FUint64Ptr); (24, "Latency", FUint64Ptr);
       (29, "Reason", FStringPtr); (31, "Trace", FStringPtr);
       (35, "OctetRate", FUint64Ptr); (36, "OctetsOut", FUint64Ptr);
       (37, "OctetsUnacked", FUint64Ptr); (38, "WindowClosures", FUint64Ptr);
       (39, "WindowSize", FUint64Ptr); (27, "Method", FStringPtr);
       (28, "Result", FStringPtr)]);
   (7, "ProcessRecord",
      [(2, "Parent", FStringPtr); (13, "Mode", FStringPtr);
       (14, "SourceHost", FStringPtr); (20, "ImageName", FStringPtr);
       (21, "ImageVersion", FStringPtr); (22, "Hostname", FStringPtr);
       (30, "Name", FStringPtr); (46, "Group", FStringPtr)]);
   (8, "ImageRecord",
      []);
   (9, "IngressRecord",
      []);
   (10, "EgressRecord",
      []);
   (11, "CollectorRecord",
      []);
   (12, "ProcessGroupRecord",
      []);
   (13, "HostRecord",
      [(10, "Provider", FStringPtr); (30, "Name", FStringPtr)]);
   (14, "LogRecord",
      [(48, "LogSeverity", FUint64Ptr); (49, "LogText", FStringPtr);
       (50, "SourceFile", FStringPtr); (51, "SourceLine", FUint64Ptr)])].

(** The fields of a row, with those of the base record. *)
Definition all_fields (l : list (N * string * wkind)) : list (N * string * wkind) := base_row ++ l.

(** Field [name] of the record value [vs] holds [v]. *)
Definition field_value (fs : gofields) (vs : list goval) (name : string) (v : goval) : Prop :=
  exists f, leaf_of fs vs f v /\ tf_name f = name.

(** What a field value says on the wire; [None] if nothing. *)
Definition sent (v : goval) : option attr :=
  match v with
  | VStr s | VPtr (Some (VStr s)) => if String.eqb s "" then None else Some (AStr s)
  | VPtr (Some (VU64 n)) => if N.eqb n 0 then None else Some (AU64 n)
  | VPtr (Some (VTime t)) =>
      if bool_decide (t = zero_time) then None else Some (AU64 (Z.to_N (micros t)))
  | _ => None
  end.

(** The field value a received attribute gives; [None] where it is refused. *)
Definition got (k : wkind) (x : option attr) : option goval :=
  match k, x with
  | FString, Some (AStr s) => Some (VStr s)
  | FString, _ => None
  | _, None => Some (VPtr None)
  | FStringPtr, Some (AStr s) => Some (VPtr (Some (VStr s)))
  | FUint64Ptr, Some (AU64 n) => Some (VPtr (Some (VU64 n)))
  | FTimePtr, Some (AU64 n) =>
      if N.ltb n (2^63) then
        Some (VPtr (Some (VTime (GoTime (Z.of_N (n / 1000000)) (Z.of_N (n mod 1000000 * 1000))))))
      else None
  | _, _ => None
  end.
