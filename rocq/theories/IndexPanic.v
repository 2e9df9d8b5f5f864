(** Index functions that panic (store/internal/cache.go, store/cache.go), over
    SyncMap.v and Cache.v, where they return.  The caller may recover: the
    methods of SyncIndexedMap release their lock when they are left by a panic
    (the deferred Unlock and RUnlock of cache.go l.43, l.71, l.94, l.105, l.112,
    l.130, l.140, l.155), and later calls find what was done until then. *)
From Coq Require Import ZArith NArith Ascii String.
From stdpp Require Import base gmap strings list.
From Verif Require Import GoBase Encoding Records Env SyncMap Tokens Cache.

Local Open Scope list_scope.

(** store/internal/index.go l.3-5, Indexer: [None] is a panic. *)
Definition pindexer := entry -> option (list string).

(** store/cache.go l.24-51 as in Cache.v: [pf_cf] is all but the index functions
    (its own are not used). *)
Record pconfig := PConfig { pf_cf : config; pf_indexers : gmap string pindexer }.

(** A loop over the index functions (store/internal/cache.go l.181, l.202) in the
    order the environment chooses. *)
Definition pindexer_loop (pf : pconfig) (e : env) (site : string) : list (string * pindexer) :=
  env_iter e site _ (map_to_list (pf_indexers pf)).

(** store/internal/cache.go l.201-219, unindex: the indices, and if an index
    function panicked. *)
Fixpoint punindex (ord : list (string * pindexer)) (key : string) (obj : entry) (ind : gmap string index)
    : gmap string index * bool :=
  match ord with
  | [] => (ind, false)
  | (name, f) :: ord' =>
      match f obj with
      | None => (ind, true)
      | Some vals =>
          punindex ord' key obj
            (match ind !! name with None => ind | Some idx => <[name := unindex_vals key vals idx]> ind end)
      end
  end.

(** store/internal/cache.go l.181-197, the second loop of reindex: the index
    function is called before its index is made. *)
Fixpoint preindex_loop (ord : list (string * pindexer)) (key : string) (obj : entry) (ind : gmap string index)
    : gmap string index * bool :=
  match ord with
  | [] => (ind, false)
  | (name, f) :: ord' =>
      match f obj with
      | None => (ind, true)
      | Some vals => preindex_loop ord' key obj (<[name := reindex_vals key vals (default ∅ (ind !! name))]> ind)
      end
  end.

(** store/internal/cache.go l.177-199, reindex. *)
Definition preindex (ord1 ord2 : list (string * pindexer)) (key : string) (prev : option entry) (curr : entry)
    (ind : gmap string index) : gmap string index * bool :=
  match prev with
  | Some p =>
      match punindex ord1 key p ind with
      | (ind1, true) => (ind1, true)
      | (ind1, false) => preindex_loop ord2 key curr ind1
      end
  | None => preindex_loop ord2 key curr ind
  end.

(** store/internal/cache.go l.59-64 and l.83-88: the item is stored before the
    index functions are called. *)
Definition pstore (pf : pconfig) (e : env) (key : string) (obj : entry) (s : items) : items * bool :=
  let cur := sm_items s !! key in
  let '(ind, p) := preindex (pindexer_loop pf e "unindex") (pindexer_loop pf e "reindex") key (vc_res <$> cur) obj (sm_indices s) in
  (SIMap (<[key := next_vc cur obj]> (sm_items s)) ind, p).

(** store/internal/cache.go l.92-101, Delete, for a key that exists. *)
Definition pdelete (pf : pconfig) (e : env) (key : string) (x : vc entry) (s : items) : items * bool :=
  let '(ind, p) := punindex (pindexer_loop pf e "unindex") key (vc_res x) (sm_indices s) in
  (SIMap (delete key (sm_items s)) ind, p).

(** store/internal/cache.go l.123-125, the last loop of Replace. *)
Fixpoint preplace_loop (pf : pconfig) (e : env) (l : list (string * entry)) (ind : gmap string index)
    : gmap string index * bool :=
  match l with
  | [] => (ind, false)
  | (k, v) :: l' =>
      match preindex [] (pindexer_loop pf e ("reindex " ++ k)%string) k None v ind with
      | (ind1, true) => (ind1, true)
      | (ind1, false) => preplace_loop pf e l' ind1
      end
  end.

(** store/internal/cache.go l.110-126, Replace: the items are all in place before
    the index functions are called. *)
Definition preplace (pf : pconfig) (e : env) (m : gmap string entry) (s : items) : items * bool :=
  let itemcc :=
    fold_left (fun acc '(k, v) => <[k := next_vc (sm_items s !! k) v]> acc)
      (env_iter e "replace-items" _ (map_to_list m)) ∅ in
  let '(ind, p) := preplace_loop pf e (env_iter e "replace-index" _ (map_to_list m)) ∅ in
  (SIMap itemcc ind, p).

(** store/cache.go: what a call that got so far returns; a panic passes through
    it and no handler is called (l.83, l.182, l.206-208, l.227, l.243). *)
Definition pdone (sp : items * bool) (r : out) (ev : list event) : items * out * list event :=
  if sp.2 then (sp.1, OutPanic, []) else (sp.1, r, ev).

(** store/cache.go l.78-94, Accumulate. *)
Definition paccumulate (pf : pconfig) (e : env) (s : items) (src : source_ref) (partial : option vrec)
    : items * out * list event :=
  match cf_key (pf_cf pf) (Entry zero_meta (TypeMeta "" "") partial) with
  | Panic => (s, OutPanic, [])
  | Err m => (s, OutErr (Some (SKey m)), [])
  | Ok key =>
      let cur := vc_res <$> sm_items s !! key in
      match patch_record e src partial cur with
      | Ok next => pdone (pstore pf e key next s) (OutErr None) (delta_events (pf_cf pf) cur next)
      | Err PNoChange => (s, OutErr None, [])
      | Err p => (s, OutErr (Some (SPatch p)), delta_events (pf_cf pf) None zero_entry)
      | Panic => (s, OutPanic, [])
      end
  end.

(** store/cache.go l.176-190, Add. *)
Definition padd (pf : pconfig) (e : env) (s : items) (x : entry) : items * out * list event :=
  match cf_key (pf_cf pf) x with
  | Panic => (s, OutPanic, [])
  | Err m => (s, OutErr (Some (SKey m)), [])
  | Ok key =>
      match check_conds [WhenNotExists] (sm_items s !! key) with
      | Some c => (s, OutErr (Some (SCond c)), [])
      | None =>
          let next := with_updated (env_now e) x in
          pdone (pstore pf e key next s) (OutErr None) (emit (cf_on_add (pf_cf pf)) (EvAdd next))
      end
  end.

(** store/cache.go l.192-220, Update. *)
Definition pupdate (pf : pconfig) (e : env) (s : items) (x : entry) (if_match : option string)
    : items * out * list event :=
  match cf_key (pf_cf pf) x with
  | Panic => (s, OutPanic, [])
  | Err m => (s, OutErr (Some (SKey m)), [])
  | Ok key =>
      match get_conditional if_match with
      | Ok conds =>
          match check_conds conds (sm_items s !! key) with
          | Some c => (s, OutErr (Some (SCond c)), [])
          | None =>
              let next := with_updated (env_now e) x in
              pdone (pstore pf e key next s) (OutErr None) (delta_events (pf_cf pf) (vc_res <$> sm_items s !! key) next)
          end
      | _ => (s, OutErr (Some SETag), [])
      end
  end.

(** store/cache.go l.222-232, Delete. *)
Definition premove (pf : pconfig) (e : env) (s : items) (x : entry) : items * out * list event :=
  match cf_key (pf_cf pf) x with
  | Panic => (s, OutPanic, [])
  | Err m => (s, OutErr (Some (SKey m)), [])
  | Ok key =>
      match sm_items s !! key with
      | None => (s, OutErr None, [])
      | Some v => pdone (pdelete pf e key v s) (OutErr None) (emit (cf_on_delete (pf_cf pf)) (EvDelete (vc_res v)))
      end
  end.

(** store/cache.go l.234-245, Replace. *)
Definition preplace_all (pf : pconfig) (e : env) (s : items) (l : list entry) : items * out * list event :=
  match keyed (pf_cf pf) l ∅ with
  | Panic => (s, OutPanic, [])
  | Err m => (s, OutErr (Some (SKey m)), [])
  | Ok m => pdone (preplace pf e m s) (OutErr None) []
  end.

(** store/cache.go l.160-174 with store/internal/cache.go l.153-175, Index: the
    index function is called for the exemplar. *)
Definition pindex (pf : pconfig) (e : env) (s : items) (name : string) (x : entry) (sel : option selector) : out :=
  match pf_indexers pf !! name with
  | None => OutSet [] "" (Some SNoIndex)
  | Some f =>
      match f x with
      | None => OutPanic
      | Some vals =>
          let idx := default ∅ (sm_indices s !! name) in
          let keys : gset string := fold_left (fun acc v => acc ∪ default ∅ (idx !! v)) vals ∅ in
          let all := (fun k => match sm_items s !! k with Some v => vc_res v | None => zero_entry end)
                     <$> env_iter e "index" _ (elements keys) in
          match sel with
          | None => OutSet all "" None
          | Some sel => apply_selector (pf_cf pf) e all sel
          end
      end
  end.

(** store/internal/cache.go l.138-151, IndexValues: no index function is called. *)
Definition pindex_values (pf : pconfig) (e : env) (s : items) (name : string) : out :=
  match pf_indexers pf !! name with
  | None => OutValues [] (Some SNoIndex)
  | Some _ => OutValues (fst <$> env_iter e "values" _ (map_to_list (default ∅ (sm_indices s !! name)))) None
  end.

(** store/store.go l.75-95, Interface. *)
Definition prun_op (pf : pconfig) (e : env) (s : items) (o : op) : items * out * list event :=
  match o with
  | OAdd x => padd pf e s x
  | OUpdate x m => pupdate pf e s x m
  | ODelete x => premove pf e s x
  | OReplace l => preplace_all pf e s l
  | OAccumulate src r => paccumulate pf e s src r
  | OGet x => (s, get (pf_cf pf) s x, [])
  | OList sel => (s, list_all (pf_cf pf) e s sel, [])
  | OIndex n x sel => (s, pindex pf e s n x sel, [])
  | OIndexValues n => (s, pindex_values pf e s n, [])
  end.

(** A sequence of calls on a store, each with its own environment; a caller
    recovers from every panic (store/store.go l.75-95). *)
Fixpoint prun_from (pf : pconfig) (s : items) (l : list (env * op)) : items * list out * list event :=
  match l with
  | [] => (s, [], [])
  | (e, o) :: l' =>
      let '(s1, r, ev) := prun_op pf e s o in
      let '(s2, rs, evs) := prun_from pf s1 l' in
      (s2, r :: rs, ev ++ evs)
  end.
