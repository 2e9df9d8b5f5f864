(** Model of the attribute codec for user-defined attribute types
    (encoding/encoder.go, encoding/decoder.go, encoding/encoding.go): defined
    types over strings and integers, types that bring their own
    EncodeRecordAttribute/DecodeRecordAttribute methods, with value or pointer
    receivers, interface types, and pointers of any depth to all of these.

    Encoding.v covers embedded structs and struct tags for the types the
    library ships; here a record is the flat list of its tagged fields. *)
From Coq Require Import ZArith NArith String.
From stdpp Require Import base gmap strings list.
From Verif Require Import GoBase Encoding.

(** How a method is declared: not at all, on T (then both T and *T have it),
    on *T (then only *T has it).  Methods promoted from embedded fields count
    as declared.  An interface type that lists the method counts as [RVal]. *)
Inductive recv := RNo | RVal | RPtr.

(** reflect.Kind as far as encoding/encoder.go l.70-80 and
    encoding/decoder.go l.60-70 look at it: one of the five raw kinds, an
    interface, anything else but a pointer. *)
Inductive tkind := TPrim (k : prim) | TIface | TOther.

(** A type that is not a pointer.  [td_name] is [None] for a predeclared type
    (string, uint64, ...), [Some n] for a defined type.  [td_enc] and [td_dec]
    tell how the methods of encoding/encoder.go l.29-31 and
    encoding/decoder.go l.15-17 are declared. *)
Record tdesc := TDesc {
  td_name : option string;
  td_kind : tkind;
  td_enc : recv;
  td_dec : recv }.

(** The type of a struct field: [UB d], or a pointer to another type. *)
Inductive utype := UB (d : tdesc) | UP (t : utype).

(** Contents of a value that is not a pointer: a string or number, an opaque
    value (0 is the zero value), an interface holding nothing or something. *)
Inductive bval := BPrim (a : attr) | BOpaque (n : N) | BIface (o : option N).

(** A field's value. *)
Inductive uv := VB (b : bval) | VP (p : option uv).

(** A value stored in an interface{}: the name of its type when it is a
    defined type, and its contents.  [Dyn None ANil] is nil. *)
Record dyn := Dyn { dy_name : option string; dy_val : attr }.

(** What an encoder returns (encoding/encoder.go l.62-64), including a
    panic. *)
Inductive uout := UOVal (a : dyn) | UONotSet | UOErr | UOPanic.

(** The bodies of the user's methods, by type name: for EncodeRecordAttribute
    the receiver's contents to the result; for DecodeRecordAttribute the
    attribute and the receiver's contents to its new contents. *)
Record codecs := Codecs {
  c_enc : option string -> bval -> uout;
  c_dec : option string -> dyn -> bval -> res unit bval }.

(** reflect.Zero of a raw kind. *)
Definition zero_prim (k : prim) : attr :=
  match k with
  | PStr => AStr ""
  | PU64 => AU64 0
  | PI64 => AI64 0
  | PU32 => AU32 0
  | PI32 => AI32 0
  end.

(** reflect.Zero of a type that is not a pointer. *)
Definition zero_base (d : tdesc) : bval :=
  match td_kind d with
  | TPrim k => BPrim (zero_prim k)
  | TIface => BIface None
  | TOther => BOpaque 0
  end.

(** reflect.Zero. *)
Definition zero_uv (t : utype) : uv :=
  match t with
  | UB d => VB (zero_base d)
  | UP _ => VP None
  end.

(** ** Choosing the codec *)

(** t.Implements(recordAttributeEncoderType), encoding/encoder.go l.67: the
    method set of T has the methods declared on T, that of *T also those
    declared on *T, and a pointer to a pointer or to an interface has none. *)
Definition implements_enc (t : utype) : bool :=
  match t with
  | UB d => match td_enc d with RVal => true | _ => false end
  | UP (UB d) =>
      match td_kind d with
      | TIface => false
      | _ => match td_enc d with RNo => false | _ => true end
      end
  | UP (UP _) => false
  end.

(** t.Implements(recordAttributeDecoderType), encoding/decoder.go l.54, 57. *)
Definition implements_dec (t : utype) : bool :=
  match t with
  | UB d => match td_dec d with RVal => true | _ => false end
  | UP (UB d) =>
      match td_kind d with
      | TIface => false
      | _ => match td_dec d with RNo => false | _ => true end
      end
  | UP (UP _) => false
  end.

(** encoding/encoder.go l.66-81, getFieldEncoder; [None] is its error. *)
Fixpoint uget_enc (t : utype) : option fenc :=
  if implements_enc t then Some EncAttr
  else
    match t with
    | UP t' =>
        match uget_enc t' with
        | Some e => Some (EncPtr e)
        | None => None
        end
    | UB d =>
        match td_kind d with
        | TPrim _ => Some EncRaw
        | _ => None
        end
    end.

(** encoding/decoder.go l.53-71, getFieldDecoder; [None] is its error. *)
Fixpoint uget_dec (t : utype) : option fdec :=
  if match t with UP _ => false | UB _ => implements_dec (UP t) end then Some DecAttr
  else if implements_dec t then Some DecAttr
  else
    match t with
    | UP t' =>
        match uget_dec t' with
        | Some e => Some (DecPtr e)
        | None => None
        end
    | UB d =>
        match td_kind d with
        | TPrim _ => Some DecRaw
        | _ => None
        end
    end.

(** ** Running it *)

(** v.IsZero() for the five raw kinds, encoding/encoder.go l.87. *)
Definition prim_is_zero (a : attr) : bool :=
  match a with
  | AStr s => bool_decide (s = ""%string)
  | AU64 n | AU32 n => (n =? 0)%N
  | AI64 z | AI32 z => (z =? 0)%Z
  | _ => false
  end.

(** encoding/encoder.go l.86-117: rawFieldEncoder.encode (v.Interface() keeps
    the field's own type), pointerEncoder.encode,
    recordAttrFieldEncoder.encode (the type assertion fails, and panics, on a
    nil interface).  [t] is v.Type(). *)
Fixpoint urun_enc (cs : codecs) (e : fenc) (t : utype) (v : uv) : uout :=
  match e with
  | EncRaw =>
      match t, v with
      | UB d, VB (BPrim a) =>
          if prim_is_zero a then UONotSet else UOVal (Dyn (td_name d) a)
      | _, _ => UOPanic
      end
  | EncPtr sub =>
      match t, v with
      | UP _, VP None => UONotSet
      | UP t', VP (Some v') => urun_enc cs sub t' v'
      | _, _ => UOPanic
      end
  | EncAttr =>
      match t, v with
      | UB _, VB (BIface None) => UOPanic
      | UB d, VB b => c_enc cs (td_name d) b
      | UP _, VP None => UONotSet
      | UP (UB d), VP (Some (VB b)) => c_enc cs (td_name d) b
      | _, _ => UOPanic
      end
  end.

(** v.Type().AssignableTo(attrV.Type()), encoding/decoder.go l.100: both are
    types with a name, so it is identity.  [k] is the kind of the field. *)
Definition same_type (d : tdesc) (k : prim) (a : dyn) : bool :=
  bool_decide (td_name d = dy_name a)
  && match k, dy_val a with
     | PStr, AStr _ | PU64, AU64 _ | PI64, AI64 _
     | PU32, AU32 _ | PI32, AI32 _ => true
     | _, _ => false
     end.

(** encoding/decoder.go l.90 on a receiver with contents [b]: a method declared
    on T works on a copy, so the field keeps its contents. *)
Definition call_dec (cs : codecs) (d : tdesc) (a : dyn) (b : bval) : res unit bval :=
  match c_dec cs (td_name d) a b with
  | Ok b' => match td_dec d with RVal => Ok b | _ => Ok b' end
  | Err e => Err e
  | Panic => Panic
  end.

(** encoding/decoder.go l.76-122.  [t] is v.Type(), [v] the field's present
    value, the result its new value.  The CanSet checks are dropped: every
    field is exported and lives in a freshly allocated struct.
    reflect.ValueOf(nil).Type() panics (l.100).  The type assertion of l.86
    panics on a nil interface. *)
Fixpoint urun_dec (cs : codecs) (e : fdec) (t : utype) (a : dyn) (v : uv) : res unit uv :=
  match e with
  | DecRaw =>
      match t with
      | UB d =>
          match td_kind d, dy_val a with
          | _, ANil => Panic
          | TPrim k, _ =>
              if same_type d k a then Ok (VB (BPrim (dy_val a))) else Err tt
          | _, _ => Panic
          end
      | UP _ => Panic
      end
  | DecPtr sub =>
      match t, v with
      | UP t', VP p =>
          let cur := match p with Some v' => v' | None => zero_uv t' end in
          match urun_dec cs sub t' a cur with
          | Ok v' => Ok (VP (Some v'))
          | Err e => Err e
          | Panic => Panic
          end
      | _, _ => Panic
      end
  | DecAttr =>
      match t, v with
      | UB _, VB (BIface None) => Panic
      | UB d, VB b =>
          match call_dec cs d a b with
          | Ok b' => Ok (VB b')
          | Err e => Err e
          | Panic => Panic
          end
      | UP (UB d), VP p =>
          let cur := match p with Some (VB b) => b | _ => zero_base d end in
          match call_dec cs d a cur with
          | Ok b' => Ok (VP (Some (VB b')))
          | Err e => Err e
          | Panic => Panic
          end
      | _, _ => Panic
      end
  end.

(** ** Records *)

(** encoding/encoding.go l.100-108, field, before the codecs are chosen. *)
Record ufield := UField {
  uf_name : string;
  uf_code : N;
  uf_req : bool;
  uf_type : utype }.

(** encoding/encoding.go l.87-95: no two fields share a codepoint. *)
Fixpoint ucodes_distinct (fs : list ufield) (seen : list N) : bool :=
  match fs with
  | [] => true
  | f :: fs' =>
      if bool_decide (uf_code f ∈ seen) then false
      else ucodes_distinct fs' (uf_code f :: seen)
  end.

(** encoding/encoding.go l.78-98, 205-215: whether MustRegisterRecord takes a
    struct with these fields; [false] is its panic. *)
Definition uregister (fs : list ufield) : bool :=
  forallb (fun f =>
    match uget_enc (uf_type f), uget_dec (uf_type f) with
    | Some _, Some _ => true
    | _, _ => false
    end) fs
  && ucodes_distinct fs [].

(** Result of Encode. *)
Inductive uencres :=
  | UEncOk (a : gmap N dyn)
  | UEncErr (e : encerr)
  | UEncPanic.

(** encoding/encoding.go l.135-158, typeEncoding.encode.  The partial set
    returned with an error is left out.  An unregistered field is a
    panic. *)
Fixpoint uencode_fields (cs : codecs) (fs : list ufield) (vs : list uv)
    (acc : gmap N dyn) : uencres :=
  match fs, vs with
  | [], _ => UEncOk acc
  | f :: fs', v :: vs' =>
      match uget_enc (uf_type f) with
      | None => UEncPanic
      | Some e =>
          match urun_enc cs e (uf_type f) v with
          | UOVal (Dyn _ ANil) => uencode_fields cs fs' vs' acc
          | UOVal a => uencode_fields cs fs' vs' (<[uf_code f := a]> acc)
          | UONotSet =>
              if uf_req f then UEncErr (EMissingRequired (uf_name f))
              else uencode_fields cs fs' vs' acc
          | UOErr => UEncErr (EFieldEncode (uf_name f))
          | UOPanic => UEncPanic
          end
      end
  | _ :: _, [] => UEncPanic
  end.

(** encoding/encoder.go l.36-60, Encode, for a registered record type with
    code [code]. *)
Definition UEncode (cs : codecs) (code : N) (fs : list ufield) (vs : list uv) : uencres :=
  match uencode_fields cs fs vs ∅ with
  | UEncOk a => UEncOk (<[0%N := Dyn None (AU32 code)]> a)
  | r => r
  end.

(** encoding/encoding.go l.160-180, typeEncoding.decode into a new struct.
    Distinct fields do not share storage, so each is decoded from its zero
    value. *)
Fixpoint udecode_fields (cs : codecs) (fs : list ufield) (attrs : gmap N dyn)
    : res encerr (list uv) :=
  match fs with
  | [] => Ok []
  | f :: fs' =>
      match attrs !! uf_code f with
      | None =>
          if uf_req f then Err (EMissingAttr (uf_name f))
          else
            match udecode_fields cs fs' attrs with
            | Ok vs => Ok (zero_uv (uf_type f) :: vs)
            | r => r
            end
      | Some a =>
          match uget_dec (uf_type f) with
          | None => Panic
          | Some e =>
              match urun_dec cs e (uf_type f) a (zero_uv (uf_type f)) with
              | Ok v =>
                  match udecode_fields cs fs' attrs with
                  | Ok vs => Ok (v :: vs)
                  | r => r
                  end
              | Err _ => Err (EFieldDecode (uf_name f))
              | Panic => Panic
              end
          end
      end
  end.

(** encoding/decoder.go l.22-47, Decode, where [code] is the code the type is
    registered with; any other code is unknown. *)
Definition UDecode (cs : codecs) (code : N) (fs : list ufield) (attrs : gmap N dyn)
    : res encerr (list uv) :=
  match attrs !! 0%N with
  | None => Err ENoTypeCode
  | Some (Dyn None (AU32 c)) =>
      if (c =? code)%N then udecode_fields cs fs attrs else Err EUnknownType
  | Some _ => Err EBadTypeCode
  end.
