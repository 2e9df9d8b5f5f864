(** Model of package store: entries (store.go), record patching (patcher.go)
    and the caching store (cache.go, etag.go, continue.go).  One call is one
    function of the store contents and of its environment; StoreConc.v treats
    concurrent calls. *)
From Coq Require Import ZArith NArith Ascii String.
From stdpp Require Import base gmap strings list.
From Verif Require Import GoBase Encoding Records Env SyncMap Tokens.

Local Open Scope string_scope.

(** store/store.go l.25-29. *)
Record source_ref := SourceRef { sr_api : string; sr_type : string; sr_name : string }.

Global Instance source_ref_eq_dec : EqDecision source_ref.
Proof. solve_decision. Defined.

(** store/store.go l.31-33, SourceRef.String. *)
Definition source_string (s : source_ref) : string :=
  sr_api s ++ "." ++ sr_type s ++ "." ++ sr_name s.

(** store/store.go l.14-22, Metadata.  A nil annotation map is the empty map;
    maps are values here (see Alias.v for sharing). *)
Record metadata := Metadata {
  m_source : source_ref;
  m_updated : gotime;
  m_annotations : gmap string string;
}.

(** store/store.go l.37-41, Entry.  A nil Record is [None]. *)
Record entry := Entry { e_meta : metadata; e_tm : type_meta; e_rec : option vrec }.

(** The zero values. *)
Definition zero_source : source_ref := SourceRef "" "" "".
Definition zero_meta : metadata := Metadata zero_source zero_time ∅.
Definition zero_entry : entry := Entry zero_meta (TypeMeta "" "") None.

(** obj.Meta.UpdatedAt = t. *)
Definition with_updated (t : gotime) (e : entry) : entry :=
  Entry (Metadata (m_source (e_meta e)) t (m_annotations (e_meta e))) (e_tm e) (e_rec e).

(** ** Patching *)

Inductive patcherr :=
  | PNoChange                (* patcher.go l.11 *)
  | PEncodeCurrent (e : encerr)
  | PEncodeIncoming (e : encerr).

(** store/patcher.go l.40-46, the merge loop; [l] lists nextAttrs. *)
Fixpoint merge_attrs (l : list (akey * attr)) (curr : attrset) (changed : bool) : attrset * bool :=
  match l with
  | [] => (curr, changed)
  | (k, v) :: l' =>
      if bool_decide (curr !! k = Some v) then merge_attrs l' curr changed
      else merge_attrs l' (<[k := v]> curr) true
  end.

(** The Record interface value passed to Encode. *)
Definition rec_any (r : option vrec) : goany :=
  match r with Some r => vrec_any r | None => NilIface end.

(** store/patcher.go l.19-54, recordPatcher.Patch.  GetTypeMeta on a nil record
    panics; so does the type assertion when Decode fails. *)
Definition patch_record (e : env) (src : source_ref) (partial : option vrec) (curr : option entry)
    : res patcherr entry :=
  match curr with
  | None =>
      match partial with
      | None => Panic
      | Some r => Ok (Entry (Metadata src (env_now e) ∅) (vrec_meta r) (Some r))
      end
  | Some c =>
      match Encode vanflow_registry (rec_any (e_rec c)) with
      | EncPanic => Panic
      | EncErr _ x => Err (PEncodeCurrent x)
      | EncOk ca =>
          match Encode vanflow_registry (rec_any partial) with
          | EncPanic => Panic
          | EncErr _ x => Err (PEncodeIncoming x)
          | EncOk na =>
              let '(ca', changed) := merge_attrs (env_iter e "attrs" _ (map_to_list na)) ca false in
              if changed then
                match Decode vanflow_registry (Some ca') with
                | Ok out =>
                    match as_record out with
                    | Some r =>
                        Ok (Entry (Metadata (m_source (e_meta c)) (env_now e) (m_annotations (e_meta c)))
                                  (e_tm c) (Some r))
                    | None => Panic
                    end
                | _ => Panic
                end
              else Err PNoChange
          end
      end
  end.

(** ** Configuration *)

(** store/cache.go l.24-51: key function, indexers, and which handlers are
    installed.  Key functions may fail with an error or panic; index functions
    are total.  Handlers only observe. *)
Record config := Config {
  cf_key : entry -> res string string;
  cf_indexers : gmap string (indexer entry);
  cf_on_add : bool;
  cf_on_change : bool;
  cf_on_delete : bool;
}.

(** store/cache.go l.247-249, keyByRecordID: panics on a nil record. *)
Definition key_by_record_id (e : entry) : res string string :=
  match e_rec e with Some r => Ok (vrec_identity r) | None => Panic end.

(** store/cache.go l.14-20 and l.251-264, defaultIndexers. *)
Definition index_by_source := "source".
Definition index_by_site := "site".
Definition site_annotation := "skupper.io/flow/site-id".
Definition source_index : indexer entry := fun e => [source_string (m_source (e_meta e))].
Definition site_index : indexer entry := fun e =>
  [default "unknown" (m_annotations (e_meta e) !! site_annotation)].
Definition default_indexers : gmap string (indexer entry) :=
  <[index_by_source := source_index]> {[ index_by_site := site_index ]}.

(** store/cache.go l.53-76, NewDefaultCachingStore: [None] stands for nil. *)
Definition new_config (key : option (entry -> res string string))
    (ixs : option (gmap string (indexer entry))) (add change del : bool) : config :=
  Config (default key_by_record_id key) (default default_indexers ixs) add change del.

(** ** Calls *)

Inductive event :=
  | EvAdd (e : entry)
  | EvChange (prev curr : entry)
  | EvDelete (e : entry).

(** store/store.go l.58-73. *)
Inductive ordering := Ascending | Descending.
Record selector := Selector {
  s_offset : Z;
  s_limit : Z;
  s_continue : string;
  s_ordering : ordering;
}.

Inductive storeerr :=
  | SKey (msg : string)       (* the key function failed *)
  | SCond (c : conderr)       (* a condition failed *)
  | SPatch (p : patcherr)
  | SETag                     (* unparseable If-Match *)
  | SNoIndex                  (* no such index *)
  | SToken.                   (* unparseable Continue *)

(** What a call returns.  Get returns the entry and its ETag; List and Index a
    set with its continue token; an error may come with a set
    (applySelector l.126). *)
Inductive out :=
  | OutErr (e : option storeerr)                          (* error only: nil or not *)
  | OutSingle (r : option (entry * string)) (e : option storeerr)
  | OutSet (l : list entry) (cont : string) (e : option storeerr)
  | OutValues (l : list string) (e : option storeerr)
  | OutPanic.

Notation items := (simap entry).

Definition emit (b : bool) (ev : event) : list event := if b then [ev] else [].

(** store/cache.go l.88-92 and l.214-218: which event a Delta gives. *)
Definition delta_events (cf : config) (prev : option entry) (next : entry) : list event :=
  match prev with
  | Some p => emit (cf_on_change cf) (EvChange p next)
  | None => emit (cf_on_add cf) (EvAdd next)
  end.

(** store/cache.go l.78-94, Accumulate.  On a patch error other than
    errNoChange the zero Delta still reaches the handlers. *)
Definition accumulate (cf : config) (e : env) (s : items) (src : source_ref) (partial : option vrec)
    : items * out * list event :=
  match cf_key cf (Entry zero_meta (TypeMeta "" "") partial) with
  | Panic => (s, OutPanic, [])
  | Err m => (s, OutErr (Some (SKey m)), [])
  | Ok key =>
      match sm_patch (cf_indexers cf) e key (patch_record e src partial) [] s with
      | UpOk s' prev next => (s', OutErr None, delta_events cf prev next)
      | UpErr PNoChange => (s, OutErr None, [])
      | UpErr p => (s, OutErr (Some (SPatch p)), delta_events cf None zero_entry)
      | UpCond c => (s, OutErr (Some (SCond c)), delta_events cf None zero_entry)
      | UpPanic => (s, OutPanic, [])
      end
  end.

(** store/etag.go l.23-32, getETag of a stored container. *)
Definition etag_of (v : vc entry) : string :=
  make_etag (vc_ver v) (t_sec (m_updated (e_meta (vc_res v)))).

(** store/cache.go l.96-108, Get. *)
Definition get (cf : config) (s : items) (x : entry) : out :=
  match cf_key cf x with
  | Panic => OutPanic
  | Err m => OutSingle None (Some (SKey m))
  | Ok key => OutSingle ((fun v => (vc_res v, etag_of v)) <$> sm_get key s) None
  end.

(** store/cache.go l.112-120, the comparison used for sorting; an error from
    the key function leaves the empty key.  (A panicking key function is
    treated like one returning an error.) *)
Definition sort_key (cf : config) (x : entry) : string :=
  match cf_key cf x with Ok k => k | _ => "" end.
Definition sort_less (cf : config) (o : ordering) (x y : entry) : bool :=
  match o with
  | Descending => match String.compare (sort_key cf x) (sort_key cf y) with Lt => false | _ => true end
  | Ascending => match String.compare (sort_key cf x) (sort_key cf y) with Lt => true | _ => false end
  end.

(** store/cache.go l.130-140: from an offset to the result.  Slicing with a
    negative offset panics. *)
Definition take_page (e : env) (l : list entry) (offset limit : Z) : out :=
  let n := Z.of_nat (length l) in
  let rest :=
    if (offset >=? n)%Z then Some []
    else if (offset <? 0)%Z then None
    else Some (drop (Z.to_nat offset) l) in
  match rest with
  | None => OutPanic
  | Some rest =>
      if (0 <? limit)%Z && (limit <? Z.of_nat (length rest))%Z then
        OutSet (take (Z.to_nat limit) rest)
               (make_continue (t_sec (env_now e)) (offset + limit)) None
      else OutSet rest "" None
  end.

(** store/cache.go l.110-141, applySelector. *)
Definition apply_selector (cf : config) (e : env) (l : list entry) (sel : selector) : out :=
  let l' := env_sort e _ (sort_less cf (s_ordering sel)) l in
  if bool_decide (s_continue sel = "") then take_page e l' (s_offset sel) (s_limit sel)
  else
    match decode_continue (s_continue sel) with
    | None => OutSet l' "" (Some SToken)
    | Some off => take_page e l' off (s_limit sel)
    end.

(** store/cache.go l.143-154, List. *)
Definition list_all (cf : config) (e : env) (s : items) (sel : option selector) : out :=
  let all := vc_res <$> sm_list e s in
  match sel with
  | None => OutSet all "" None
  | Some sel => apply_selector cf e all sel
  end.

(** store/cache.go l.156-158, IndexValues. *)
Definition index_values (cf : config) (e : env) (s : items) (name : string) : out :=
  match sm_index_values (cf_indexers cf) e name s with
  | None => OutValues [] (Some SNoIndex)
  | Some l => OutValues l None
  end.

(** store/cache.go l.160-174, Index; a missing item is a zero container. *)
Definition index_of (cf : config) (e : env) (s : items) (name : string) (x : entry)
    (sel : option selector) : out :=
  match sm_index (cf_indexers cf) e name x s with
  | None => OutSet [] "" (Some SNoIndex)
  | Some l =>
      let all := (fun v => match v with Some v => vc_res v | None => zero_entry end) <$> l in
      match sel with
      | None => OutSet all "" None
      | Some sel => apply_selector cf e all sel
      end
  end.

(** store/cache.go l.176-190, Add. *)
Definition add (cf : config) (e : env) (s : items) (x : entry) : items * out * list event :=
  match cf_key cf x with
  | Panic => (s, OutPanic, [])
  | Err m => (s, OutErr (Some (SKey m)), [])
  | Ok key =>
      match sm_update (E:=unit) (cf_indexers cf) e key (with_updated (env_now e) x) [WhenNotExists] s with
      | UpOk s' _ next => (s', OutErr None, emit (cf_on_add cf) (EvAdd next))
      | UpCond c => (s, OutErr (Some (SCond c)), [])
      | _ => (s, OutPanic, []) (* not reached *)
      end
  end.

(** store/etag.go l.45-65, WithIfMatch and getConditional: the ETag in the
    context, if any; the timestamp in it is not compared. *)
Definition get_conditional (etag : option string) : res unit (list cond) :=
  match etag with
  | None => Ok []
  | Some t => match decode_etag t with Some (v, _) => Ok [WhenVersionMatches v] | None => Err tt end
  end.

(** store/cache.go l.192-220, Update. *)
Definition update (cf : config) (e : env) (s : items) (x : entry) (if_match : option string)
    : items * out * list event :=
  match cf_key cf x with
  | Panic => (s, OutPanic, [])
  | Err m => (s, OutErr (Some (SKey m)), [])
  | Ok key =>
      match get_conditional if_match with
      | Ok conds =>
          match sm_update (E:=unit) (cf_indexers cf) e key (with_updated (env_now e) x) conds s with
          | UpOk s' prev next => (s', OutErr None, delta_events cf prev next)
          | UpCond c => (s, OutErr (Some (SCond c)), [])
          | _ => (s, OutPanic, []) (* not reached *)
          end
      | _ => (s, OutErr (Some SETag), [])
      end
  end.

(** store/cache.go l.222-232, Delete. *)
Definition remove (cf : config) (e : env) (s : items) (x : entry) : items * out * list event :=
  match cf_key cf x with
  | Panic => (s, OutPanic, [])
  | Err m => (s, OutErr (Some (SKey m)), [])
  | Ok key =>
      match sm_delete (cf_indexers cf) e key s with
      | (s', Some v) => (s', OutErr None, emit (cf_on_delete cf) (EvDelete (vc_res v)))
      | (s', None) => (s', OutErr None, [])
      end
  end.

(** store/cache.go l.235-242, the loop of Replace. *)
Fixpoint keyed (cf : config) (l : list entry) (acc : gmap string entry) : res string (gmap string entry) :=
  match l with
  | [] => Ok acc
  | x :: l' =>
      match cf_key cf x with
      | Panic => Panic
      | Err m => Err m
      | Ok key => keyed cf l' (<[key := x]> acc)
      end
  end.

(** store/cache.go l.234-245, Replace: no handlers are called. *)
Definition replace (cf : config) (e : env) (s : items) (l : list entry) : items * out * list event :=
  match keyed cf l ∅ with
  | Panic => (s, OutPanic, [])
  | Err m => (s, OutErr (Some (SKey m)), [])
  | Ok m => (sm_replace (cf_indexers cf) e m s, OutErr None, [])
  end.

(** ** Calls as data *)

(** store/store.go l.75-95, Interface. *)
Inductive op :=
  | OAdd (x : entry)
  | OUpdate (x : entry) (if_match : option string)
  | ODelete (x : entry)
  | OReplace (l : list entry)
  | OAccumulate (src : source_ref) (r : option vrec)
  | OGet (x : entry)
  | OList (sel : option selector)
  | OIndex (name : string) (x : entry) (sel : option selector)
  | OIndexValues (name : string).

Definition run_op (cf : config) (e : env) (s : items) (o : op) : items * out * list event :=
  match o with
  | OAdd x => add cf e s x
  | OUpdate x m => update cf e s x m
  | ODelete x => remove cf e s x
  | OReplace l => replace cf e s l
  | OAccumulate src r => accumulate cf e s src r
  | OGet x => (s, get cf s x, [])
  | OList sel => (s, list_all cf e s sel, [])
  | OIndex n x sel => (s, index_of cf e s n x sel, [])
  | OIndexValues n => (s, index_values cf e s n, [])
  end.

(** A sequence of calls, each with its own environment, from a given state:
    final state, results, events. *)
Fixpoint run_from (cf : config) (s : items) (l : list (env * op)) : items * list out * list event :=
  match l with
  | [] => (s, [], [])
  | (e, o) :: l' =>
      let '(s1, r, ev) := run_op cf e s o in
      let '(s2, rs, evs) := run_from cf s1 l' in
      (s2, r :: rs, ev ++ evs)
  end%list.

Definition run (cf : config) (l : list (env * op)) : items * list out * list event :=
  run_from cf new_simap l.
