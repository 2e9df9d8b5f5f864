(** The caching store with annotation maps as references.  An Entry is copied
    into and out of the store, but Metadata.Annotations is a map and so is
    shared with whoever else holds the entry (store/store.go l.14-22,
    store/cache.go l.96-245).  Cache.v treats the maps as values.  Records are
    values here too, although they hold pointers. *)
From Coq Require Import ZArith NArith Ascii String.
From stdpp Require Import base gmap strings list.
From Verif Require Import GoBase Encoding Records Env SyncMap Tokens Cache.

Local Open Scope string_scope.

(** The contents of the maps, by reference. *)
Notation heap := (gmap N (gmap string string)).

(** store/store.go l.14-41, Entry with its Metadata; a nil map is [None]. *)
Record hentry := HEntry {
  he_source : source_ref;
  he_updated : gotime;
  he_ann : option N;
  he_tm : type_meta;
  he_rec : option vrec;
}.

(** What the entry reads as, now. *)
Definition see (h : heap) (x : hentry) : entry :=
  Entry (Metadata (he_source x) (he_updated x) (from_option (fun l => default ∅ (h !! l)) ∅ (he_ann x)))
        (he_tm x) (he_rec x).

(** The index functions (store/cache.go l.251-264) run on the maps as they are
    at the time of the call. *)
Definition hindexers (cf : config) (h : heap) : gmap string (indexer hentry) :=
  (fun (f : indexer entry) x => f (see h x)) <$> cf_indexers cf.

(** obj.Meta.UpdatedAt = t. *)
Definition hwith_updated (t : gotime) (x : hentry) : hentry :=
  HEntry (he_source x) t (he_ann x) (he_tm x) (he_rec x).

(** store/patcher.go l.19-54: a new entry has no map, a patched one keeps its
    map. *)
Definition hpatch (e : env) (h : heap) (src : source_ref) (partial : option vrec) (curr : option hentry)
    : res patcherr hentry :=
  match patch_record e src partial (see h <$> curr) with
  | Ok x => Ok (HEntry (m_source (e_meta x)) (m_updated (e_meta x)) (curr ≫= he_ann) (e_tm x) (e_rec x))
  | Err p => Err p
  | Panic => Panic
  end.

(** store/cache.go l.235-242, the loop of Replace. *)
Fixpoint hkeyed (cf : config) (h : heap) (l : list hentry) (acc : gmap string hentry)
    : res string (gmap string hentry) :=
  match l with
  | [] => Ok acc
  | x :: l' =>
      match cf_key cf (see h x) with
      | Panic => Panic
      | Err m => Err m
      | Ok key => hkeyed cf h l' (<[key := x]> acc)
      end
  end.

(** store/store.go l.75-95: the calls, on entries with references. *)
Inductive hop :=
  | HAdd (x : hentry)
  | HUpdate (x : hentry) (if_match : option string)
  | HDelete (x : hentry)
  | HReplace (l : list hentry)
  | HAccumulate (src : source_ref) (r : option vrec)
  | HGet (x : hentry)
  | HList (sel : option selector)
  | HIndex (name : string) (x : hentry) (sel : option selector)
  | HIndexValues (name : string).

Notation hitems := (simap hentry).

(** The entries of a result, read now; a missing item is a zero container
    (store/internal/cache.go l.170). *)
Definition hresult (cf : config) (e : env) (l : list entry) (sel : option selector) : out :=
  match sel with
  | None => OutSet l "" None
  | Some sel => apply_selector cf e l sel
  end.

(** store/cache.go l.78-245, the calls.  Results and events are shown as they
    read when the call returns; the caller keeps the references. *)
Definition hcall (cf : config) (e : env) (h : heap) (s : hitems) (o : hop) : hitems * out * list event :=
  let ixs := hindexers cf h in
  match o with
  | HAdd x =>
      match cf_key cf (see h x) with
      | Panic => (s, OutPanic, [])
      | Err m => (s, OutErr (Some (SKey m)), [])
      | Ok key =>
          match sm_update (E:=unit) ixs e key (hwith_updated (env_now e) x) [WhenNotExists] s with
          | UpOk s' _ next => (s', OutErr None, emit (cf_on_add cf) (EvAdd (see h next)))
          | UpCond c => (s, OutErr (Some (SCond c)), [])
          | _ => (s, OutPanic, []) (* not reached *)
          end
      end
  | HUpdate x if_match =>
      match cf_key cf (see h x) with
      | Panic => (s, OutPanic, [])
      | Err m => (s, OutErr (Some (SKey m)), [])
      | Ok key =>
          match get_conditional if_match with
          | Ok conds =>
              match sm_update (E:=unit) ixs e key (hwith_updated (env_now e) x) conds s with
              | UpOk s' prev next => (s', OutErr None, delta_events cf (see h <$> prev) (see h next))
              | UpCond c => (s, OutErr (Some (SCond c)), [])
              | _ => (s, OutPanic, []) (* not reached *)
              end
          | _ => (s, OutErr (Some SETag), [])
          end
      end
  | HDelete x =>
      match cf_key cf (see h x) with
      | Panic => (s, OutPanic, [])
      | Err m => (s, OutErr (Some (SKey m)), [])
      | Ok key =>
          match sm_delete ixs e key s with
          | (s', Some v) => (s', OutErr None, emit (cf_on_delete cf) (EvDelete (see h (vc_res v))))
          | (s', None) => (s', OutErr None, [])
          end
      end
  | HReplace l =>
      match hkeyed cf h l ∅ with
      | Panic => (s, OutPanic, [])
      | Err m => (s, OutErr (Some (SKey m)), [])
      | Ok m => (sm_replace ixs e m s, OutErr None, [])
      end
  | HAccumulate src partial =>
      match cf_key cf (Entry zero_meta (TypeMeta "" "") partial) with
      | Panic => (s, OutPanic, [])
      | Err m => (s, OutErr (Some (SKey m)), [])
      | Ok key =>
          match sm_patch ixs e key (hpatch e h src partial) [] s with
          | UpOk s' prev next => (s', OutErr None, delta_events cf (see h <$> prev) (see h next))
          | UpErr PNoChange => (s, OutErr None, [])
          | UpErr p => (s, OutErr (Some (SPatch p)), delta_events cf None zero_entry)
          | UpCond c => (s, OutErr (Some (SCond c)), delta_events cf None zero_entry)
          | UpPanic => (s, OutPanic, [])
          end
      end
  | HGet x =>
      (s, match cf_key cf (see h x) with
          | Panic => OutPanic
          | Err m => OutSingle None (Some (SKey m))
          | Ok key =>
              OutSingle ((fun v => (see h (vc_res v), make_etag (vc_ver v) (t_sec (he_updated (vc_res v)))))
                           <$> sm_get key s) None
          end, [])
  | HList sel => (s, hresult cf e ((fun v => see h (vc_res v)) <$> sm_list e s) sel, [])
  | HIndex name x sel =>
      (s, match sm_index ixs e name x s with
          | None => OutSet [] "" (Some SNoIndex)
          | Some l =>
              hresult cf e ((fun v => match v with Some v => see h (vc_res v) | None => zero_entry end) <$> l) sel
          end, [])
  | HIndexValues name =>
      (s, match sm_index_values ixs e name s with
          | None => OutValues [] (Some SNoIndex)
          | Some l => OutValues l None
          end, [])
  end.

(** What a caller does: call the store, or set the contents of a map it holds
    (from an entry it stored or was given, or of its own). *)
Inductive act :=
  | Call (e : env) (o : hop)
  | Write (l : N) (m : gmap string string).

Definition hact (cf : config) (st : heap * hitems) (a : act) : heap * hitems :=
  match a with
  | Call e o => (st.1, (hcall cf e st.1 st.2 o).1.1)
  | Write l m => (<[l := m]> st.1, st.2)
  end.

Definition hrun (cf : config) (st : heap * hitems) (l : list act) : heap * hitems := fold_left (hact cf) l st.

(** A store as its users see it: what it holds, by key, with versions. *)
Definition hcontents (h : heap) (s : hitems) : gmap string (entry * Z) :=
  (fun v => (see h (vc_res v), vc_ver v)) <$> sm_items s.

(** The call as read now. *)
Definition see_op (h : heap) (o : hop) : op :=
  match o with
  | HAdd x => OAdd (see h x)
  | HUpdate x m => OUpdate (see h x) m
  | HDelete x => ODelete (see h x)
  | HReplace l => OReplace (see h <$> l)
  | HAccumulate src r => OAccumulate src r
  | HGet x => OGet (see h x)
  | HList sel => OList sel
  | HIndex n x sel => OIndex n (see h x) sel
  | HIndexValues n => OIndexValues n
  end.
