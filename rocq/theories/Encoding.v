(** Model of package encoding (encoding/encoding.go, encoding/encoder.go,
    encoding/decoder.go) and of the Time attribute codec (base.go l.52-77).

    Struct types are described by [gotype]; reflection on a type is recursion
    on the description.  Not modelled: defined types over string and integers,
    user types with their own codec methods (the only codec is
    vanflow.Time), both of which are in UserCodec.v, and the registry mutex. *)
From Coq Require Import ZArith NArith Ascii String.
From stdpp Require Import base gmap strings list.
From Verif Require Import GoBase.

(** The kinds handled by the raw codec, encoding/encoder.go l.74. *)
Inductive prim := PStr | PU64 | PI64 | PU32 | PI32.

(** Go types as seen by the codec.  [GTime] is vanflow.Time, [GOther] any type
    that is neither supported nor a struct nor a pointer (maps, slices,
    floats, interfaces, ...). *)
Inductive gotype :=
  | GPrim (k : prim)
  | GTime
  | GPtr (t : gotype)
  | GStruct (name : string) (fs : gofields)
  | GOther (name : string)
(** Struct fields: name, embedded?, exported?, value of the vflow tag (empty
    when absent), type.  This is reflect.StructField. *)
with gofields :=
  | FNil
  | FCons (fname : string) (anon exported : bool) (tag : string)
          (t : gotype) (rest : gofields).

(** Values.  [VOther n] is an opaque value of an unsupported type, 0 being
    its zero value. *)
Inductive goval :=
  | VStr (s : string)
  | VU64 (n : N)
  | VI64 (z : Z)
  | VU32 (n : N)
  | VI32 (z : Z)
  | VTime (t : gotime)
  | VPtr (p : option goval)
  | VStruct (vs : list goval)
  | VOther (n : N).

(** reflect.Zero. *)
Fixpoint zero_value (t : gotype) : goval :=
  match t with
  | GPrim PStr => VStr ""
  | GPrim PU64 => VU64 0
  | GPrim PI64 => VI64 0
  | GPrim PU32 => VU32 0
  | GPrim PI32 => VI32 0
  | GTime => VTime zero_time
  | GPtr _ => VPtr None
  | GStruct _ fs => VStruct (zero_fields fs)
  | GOther _ => VOther 0
  end
with zero_fields (fs : gofields) : list goval :=
  match fs with
  | FNil => []
  | FCons _ _ _ _ t rest => zero_value t :: zero_fields rest
  end.

(** ** Attribute codecs *)

(** Errors returned by the package (the text is abstracted to its cause). *)
Inductive encerr :=
  | ENilRecord                    (* encoder.go l.40 *)
  | EUnregistered                 (* encoder.go l.52 *)
  | EMissingRequired (f : string) (* encoding.go l.147 *)
  | EFieldEncode (f : string)     (* encoding.go l.151 *)
  | ENilSet                       (* decoder.go l.24 *)
  | ENoTypeCode                   (* decoder.go l.28 *)
  | EBadTypeCode                  (* decoder.go l.33 *)
  | EUnknownType                  (* decoder.go l.40 *)
  | EMissingAttr (f : string)     (* encoding.go l.166 *)
  | EFieldDecode (f : string).    (* encoding.go l.176 *)

(** Result of a field encoder: a value, ErrAttributeNotSet, another error, a
    panic. *)
Inductive attrout :=
  | OutVal (a : attr)
  | OutNotSet
  | OutErr
  | OutPanic.

(** base.go l.56-65, Time.EncodeRecordAttribute. *)
Definition encode_time (t : gotime) : attrout :=
  if time_is_zero t then OutNotSet
  else
    let ts := unix_micro t in
    if (ts <? 0)%Z then OutErr else OutVal (AU64 (to_u64 ts)).

(** base.go l.67-77, Time.DecodeRecordAttribute. *)
Definition decode_time (a : attr) : option gotime :=
  match a with
  | AU64 n => if (maxint64 <? n)%N then None else Some (of_unix_micro (Z.of_N n))
  | _ => None
  end.

(** The three field encoders, encoding/encoder.go l.83-117. *)
Inductive fenc := EncRaw | EncPtr (sub : fenc) | EncAttr.
(** The three field decoders, encoding/decoder.go l.73-122. *)
Inductive fdec := DecRaw | DecPtr (sub : fdec) | DecAttr.

(** encoding/encoder.go l.86-91, rawFieldEncoder.encode: zero values are "not
    set", otherwise the value itself. *)
Definition encode_raw (v : goval) : attrout :=
  match v with
  | VStr s => if bool_decide (s = ""%string) then OutNotSet else OutVal (AStr s)
  | VU64 n => if (n =? 0)%N then OutNotSet else OutVal (AU64 n)
  | VU32 n => if (n =? 0)%N then OutNotSet else OutVal (AU32 n)
  | VI64 z => if (z =? 0)%Z then OutNotSet else OutVal (AI64 z)
  | VI32 z => if (z =? 0)%Z then OutNotSet else OutVal (AI32 z)
  | _ => OutPanic (* never built for other kinds *)
  end.

(** encoding/encoder.go l.86-117: rawFieldEncoder.encode,
    pointerEncoder.encode, recordAttrFieldEncoder.encode. *)
Fixpoint run_enc (e : fenc) (v : goval) : attrout :=
  match e with
  | EncRaw => encode_raw v
  | EncPtr sub =>
      match v with
      | VPtr None => OutNotSet
      | VPtr (Some v') => run_enc sub v'
      | _ => OutPanic
      end
  | EncAttr =>
      match v with
      | VPtr None => OutNotSet
      | VPtr (Some (VTime t)) => encode_time t
      | VTime t => encode_time t
      | _ => OutPanic
      end
  end.

(** encoding/decoder.go l.95-105, rawFieldDecoder.decode.  [t] is v.Type().
    For these types AssignableTo is identity.  reflect.ValueOf(nil).Type()
    panics. *)
Definition decode_raw (t : gotype) (a : attr) : res unit goval :=
  match a, t with
  | ANil, _ => Panic
  | AStr s, GPrim PStr => Ok (VStr s)
  | AU64 n, GPrim PU64 => Ok (VU64 n)
  | AI64 z, GPrim PI64 => Ok (VI64 z)
  | AU32 n, GPrim PU32 => Ok (VU32 n)
  | AI32 z, GPrim PI32 => Ok (VI32 z)
  | _, _ => Err tt
  end.

(** encoding/decoder.go l.76-122.  [t] is v.Type(), [v] the present value of
    the field; the result is its new value.  The CanSet checks are dropped:
    every field reached is exported and lives in a freshly allocated struct. *)
Fixpoint run_dec (d : fdec) (t : gotype) (a : attr) (v : goval) : res unit goval :=
  match d with
  | DecRaw => decode_raw t a
  | DecPtr sub =>
      match t, v with
      | GPtr t', VPtr p =>
          let cur := match p with Some v' => v' | None => zero_value t' end in
          match run_dec sub t' a cur with
          | Ok v' => Ok (VPtr (Some v'))
          | Err e => Err e
          | Panic => Panic
          end
      | _, _ => Panic
      end
  | DecAttr =>
      match t with
      | GTime =>
          match decode_time a with Some tm => Ok (VTime tm) | None => Err tt end
      | GPtr GTime =>
          match decode_time a with
          | Some tm => Ok (VPtr (Some (VTime tm)))
          | None => Err tt
          end
      | _ => Panic
      end
  end.

(** encoding/encoder.go l.66-81, getFieldEncoder. *)
Fixpoint get_field_encoder (t : gotype) : option fenc :=
  match t with
  | GTime => Some EncAttr
  | GPtr GTime => Some EncAttr
  | GPtr t' =>
      match get_field_encoder t' with
      | Some e => Some (EncPtr e)
      | None => None
      end
  | GPrim _ => Some EncRaw
  | GStruct _ _ => None
  | GOther _ => None
  end.

(** encoding/decoder.go l.53-71, getFieldDecoder. *)
Fixpoint get_field_decoder (t : gotype) : option fdec :=
  match t with
  | GTime => Some DecAttr
  | GPtr GTime => Some DecAttr
  | GPtr t' =>
      match get_field_decoder t' with
      | Some e => Some (DecPtr e)
      | None => None
      end
  | GPrim _ => Some DecRaw
  | GStruct _ _ => None
  | GOther _ => None
  end.

(** ** Field tables *)

(** strings.Cut(s, ",") without the found flag. *)
Fixpoint cut_comma (s : string) : string * string :=
  match s with
  | EmptyString => (""%string, ""%string)
  | String c s' =>
      if bool_decide (c = ","%char) then (""%string, s')
      else let '(a, b) := cut_comma s' in (String c a, b)
  end.

Definition digit_of (c : Ascii.ascii) : option N :=
  let n := Ascii.N_of_ascii c in
  if ((48 <=? n) && (n <=? 57))%N%bool then Some (n - 48)%N else None.

(** Accumulating digits, most significant first. *)
Fixpoint parse_digits (s : string) (acc : N) : option N :=
  match s with
  | EmptyString => Some acc
  | String c s' =>
      match digit_of c with
      | Some d => parse_digits s' (acc * 10 + d)%N
      | None => None
      end
  end.

(** strconv.ParseUint(s, 10, 32).  Go detects the overflow digit by digit, here
    the full value is compared once. *)
Definition parse_uint32 (s : string) : option N :=
  match s with
  | EmptyString => None
  | _ =>
      match parse_digits s 0 with
      | Some n => if (n <? 2^32)%N then Some n else None
      | None => None
      end
  end.

(** encoding/encoding.go l.100-108, field.  [f_type] is the static type
    reflection reads off the value (v.Type()). *)
Record field := Field {
  f_name : string;
  f_code : N;
  f_req : bool;  (* Identity *)
  f_index : list nat;
  f_type : gotype;
  f_enc : fenc;
  f_dec : fdec }.

(** encoding/encoding.go l.110-133, parseFieldOpts: [Ok None] when untagged. *)
Definition parse_field_opts (tag : string) : res unit (option (N * bool)) :=
  if bool_decide (tag = ""%string) then Ok None
  else
    let '(s_code, s_opt) := cut_comma tag in
    match parse_uint32 s_code with
    | None => Panic
    | Some code =>
        if bool_decide (s_opt = "required"%string) then Ok (Some (code, true))
        else if bool_decide (s_opt = ""%string) then Ok (Some (code, false))
        else Panic
    end.

(** encoding/encoding.go l.182-218, fieldsForType, from field number [i] on.
    An embedded vanflow.Time is a struct without exported tagged fields. *)
Fixpoint fields_for (fs : gofields) (index : list nat) (i : nat)
    : res unit (list field) :=
  match fs with
  | FNil => Ok []
  | FCons name anon exported tag t rest =>
      let next := index ++ [i] in
      let here :=
        if anon then
          match t with
          | GStruct _ fs' => fields_for fs' next 0
          | _ => Ok []
          end
        else if negb exported then Ok []
        else
          match parse_field_opts tag with
          | Ok None => Ok []
          | Ok (Some (code, req)) =>
              match get_field_encoder t, get_field_decoder t with
              | Some e, Some d => Ok [Field name code req next t e d]
              | _, _ => Panic
              end
          | Err e => Err e
          | Panic => Panic
          end in
      res_bind here (fun h =>
      res_bind (fields_for rest index (S i)) (fun r => Ok (h ++ r)))
  end.

(** encoding/encoding.go l.54-58, typeEncoding. *)
Record type_encoding := TypeEncoding {
  te_t : gotype;
  te_code : N;
  te_fields : list field }.

(** encoding/encoding.go l.87-95: no two fields share a codepoint. *)
Fixpoint codes_distinct (fs : list field) (seen : list N) : bool :=
  match fs with
  | [] => true
  | f :: fs' =>
      if bool_decide (f_code f ∈ seen) then false
      else codes_distinct fs' (f_code f :: seen)
  end.

(** A value stored in a Go interface. *)
Inductive goany :=
  | NilIface
  | AnyVal (t : gotype) (v : goval).

(** reflect.Indirect(reflect.ValueOf(x)).Type(); None is a panic. *)
Definition indirect_type (x : goany) : option gotype :=
  match x with
  | NilIface => None
  | AnyVal (GPtr t) (VPtr (Some _)) => Some t
  | AnyVal (GPtr _) _ => None
  | AnyVal t _ => Some t
  end.

(** encoding/encoding.go l.78-98, newEncodingForType.  vanflow.Time has kind
    Struct and no fields that could be tagged. *)
Definition new_encoding_for_type (code : N) (record : goany) : res unit type_encoding :=
  match indirect_type record with
  | None => Panic
  | Some t =>
      match t with
      | GStruct _ fs =>
          match fields_for fs [] 0 with
          | Ok fields =>
              if codes_distinct fields [] then Ok (TypeEncoding t code fields) else Panic
          | Err e => Err e
          | Panic => Panic
          end
      | GTime => Ok (TypeEncoding GTime code [])
      | _ => Panic
      end
  end.

(** ** The registry *)

Fixpoint gotype_eqb (a b : gotype) : bool :=
  match a, b with
  | GPrim PStr, GPrim PStr => true
  | GPrim PU64, GPrim PU64 => true
  | GPrim PI64, GPrim PI64 => true
  | GPrim PU32, GPrim PU32 => true
  | GPrim PI32, GPrim PI32 => true
  | GTime, GTime => true
  | GPtr a', GPtr b' => gotype_eqb a' b'
  | GStruct n fs, GStruct m gs => bool_decide (n = m) && gofields_eqb fs gs
  | GOther n, GOther m => bool_decide (n = m)
  | _, _ => false
  end
with gofields_eqb (a b : gofields) : bool :=
  match a, b with
  | FNil, FNil => true
  | FCons n an ex tg t r, FCons n' an' ex' tg' t' r' =>
      bool_decide (n = n') && bool_decide (an = an') && bool_decide (ex = ex')
      && bool_decide (tg = tg') && gotype_eqb t t' && gofields_eqb r r'
  | _, _ => false
  end.

(** encoding/encoding.go l.43-47: the two package-level maps.  [encodings] is
    keyed by reflect.Type (here a list searched with type equality). *)
Record registry := Registry {
  encodings : list (gotype * type_encoding);
  decodings : gmap N type_encoding }.

Definition empty_registry : registry := Registry [] ∅.

Fixpoint lookup_encoding (t : gotype) (l : list (gotype * type_encoding))
    : option type_encoding :=
  match l with
  | [] => None
  | (t', te) :: l' => if gotype_eqb t t' then Some te else lookup_encoding t l'
  end.

(** encoding/encoding.go l.63-76, MustRegisterRecord. *)
Definition must_register (code : N) (record : goany) (reg : registry) : res unit registry :=
  match decodings reg !! code with
  | Some _ => Panic
  | None =>
      match new_encoding_for_type code record with
      | Ok te =>
          match lookup_encoding (te_t te) (encodings reg) with
          | Some _ => Panic
          | None =>
              Ok (Registry ((te_t te, te) :: encodings reg)
                           (<[code := te]> (decodings reg)))
          end
      | Err e => Err e
      | Panic => Panic
      end
  end.

(** ** Encode and Decode *)

(** v.Field(i1).Field(i2)...; None is a reflect panic. *)
Fixpoint get_path (p : list nat) (v : goval) : option goval :=
  match p with
  | [] => Some v
  | i :: p' =>
      match v with
      | VStruct vs =>
          match vs !! i with
          | Some v' => get_path p' v'
          | None => None
          end
      | _ => None
      end
  end.

(** Assigning to v.Field(i1).Field(i2)... *)
Fixpoint set_path (p : list nat) (x : goval) (v : goval) : option goval :=
  match p with
  | [] => Some x
  | i :: p' =>
      match v with
      | VStruct vs =>
          match vs !! i with
          | Some v' =>
              match set_path p' x v' with
              | Some w => Some (VStruct (<[i := w]> vs))
              | None => None
              end
          | None => None
          end
      | _ => None
      end
  end.

(** Result of Encode: the attribute set, or an error possibly accompanied by
    the partial set, or a panic. *)
Inductive encres :=
  | EncOk (a : attrset)
  | EncErr (partial : option attrset) (e : encerr)
  | EncPanic.

(** encoding/encoding.go l.135-158, typeEncoding.encode. *)
Fixpoint encode_fields (fs : list field) (root : goval) (acc : attrset) : encres :=
  match fs with
  | [] => EncOk acc
  | f :: fs' =>
      match get_path (f_index f) root with
      | None => EncPanic
      | Some v =>
          match run_enc (f_enc f) v with
          | OutVal ANil => encode_fields fs' root acc
          | OutVal a => encode_fields fs' root (<[KU32 (f_code f) := a]> acc)
          | OutNotSet =>
              if f_req f then EncErr (Some acc) (EMissingRequired (f_name f))
              else encode_fields fs' root acc
          | OutErr => EncErr (Some acc) (EFieldEncode (f_name f))
          | OutPanic => EncPanic
          end
      end
  end.

(** encoding/encoding.go l.49-52: typeOfRecord. *)
Definition type_of_record : akey := KU32 0.

(** encoding/encoder.go l.55-59. *)
Definition encode_with (te : type_encoding) (v : goval) : encres :=
  match encode_fields (te_fields te) v ∅ with
  | EncOk a => EncOk (<[type_of_record := AU32 (te_code te)]> a)
  | EncErr (Some a) e => EncErr (Some (<[type_of_record := AU32 (te_code te)]> a)) e
  | EncErr None e => EncErr None e
  | EncPanic => EncPanic
  end.

(** encoding/encoder.go l.36-60, Encode. *)
Definition Encode (reg : registry) (record : goany) : encres :=
  match record with
  | NilIface => EncErr None ENilRecord
  | AnyVal t v =>
      match lookup_encoding t (encodings reg) with
      | Some te => encode_with te v
      | None =>
          match t with
          | GPtr t' =>
              match v with
              | VPtr (Some v') =>
                  match lookup_encoding t' (encodings reg) with
                  | Some te => encode_with te v'
                  | None => EncErr None EUnregistered
                  end
              | _ => EncPanic (* Elem() of a nil pointer has no type *)
              end
          | _ => EncErr None EUnregistered
          end
      end
  end.

(** encoding/encoding.go l.160-180, typeEncoding.decode.  [cur] is the struct
    being filled in. *)
Fixpoint decode_fields (fs : list field) (attrs : attrset) (cur : goval) : res encerr goval :=
  match fs with
  | [] => Ok cur
  | f :: fs' =>
      match attrs !! KU32 (f_code f) with
      | None =>
          if f_req f then Err (EMissingAttr (f_name f))
          else decode_fields fs' attrs cur
      | Some a =>
          match get_path (f_index f) cur with
          | None => Panic
          | Some v =>
              match run_dec (f_dec f) (f_type f) a v with
              | Ok v' =>
                  match set_path (f_index f) v' cur with
                  | Some cur' => decode_fields fs' attrs cur'
                  | None => Panic
                  end
              | Err _ => Err (EFieldDecode (f_name f))
              | Panic => Panic
              end
          end
      end
  end.

(** encoding/decoder.go l.22-47, Decode.  The result is a pointer to a new
    struct.  [None] is the nil map. *)
Definition Decode (reg : registry) (set : option attrset) : res encerr goany :=
  match set with
  | None => Err ENilSet
  | Some attrs =>
      match attrs !! type_of_record with
      | None => Err ENoTypeCode
      | Some (AU32 code) =>
          match decodings reg !! code with
          | None => Err EUnknownType
          | Some te =>
              match decode_fields (te_fields te) attrs (zero_value (te_t te)) with
              | Ok v => Ok (AnyVal (GPtr (te_t te)) (VPtr (Some v)))
              | Err e => Err e
              | Panic => Panic
              end
          end
      | Some _ => Err EBadTypeCode
      end
  end.
