(** Model of store/internal: SyncIndexedMap (cache.go), Index and KeySet
    (index.go), Cond (conditional.go).  The mutex is not part of this
    sequential model; StoreConc.v treats concurrency. *)
From Coq Require Import ZArith NArith Ascii String.
From stdpp Require Import base gmap strings list.
From Verif Require Import GoBase Env.

Section syncmap.
Context {T : Type}.

(** store/internal/cache.go l.8-11, VersionContainer.  The int64 version is
    unbounded here (2^63 writes to one key are out of scope). *)
Record vc := VC { vc_res : T; vc_ver : Z }.

(** store/internal/index.go l.3-5: Indexer, Index, KeySet. *)
Definition indexer := T -> list string.
Notation index := (gmap string (gset string)).

(** store/internal/cache.go l.24-30, SyncIndexedMap.  [indexers] never
    changes, so it is a parameter of the operations. *)
Record simap := SIMap {
  sm_items : gmap string vc;
  sm_indices : gmap string index;
}.

(** store/internal/cache.go l.32-38. *)
Definition new_simap : simap := SIMap ∅ ∅.

Variable indexers : gmap string indexer.

(** A loop over [m.indexers] in the order the environment chooses. *)
Definition indexer_loop (e : env) (site : string) : list (string * indexer) :=
  env_iter e site _ (map_to_list indexers).

(** store/internal/cache.go l.209-217, inner loop of unindex; KeySet.Remove is
    index.go l.11-17. *)
Definition unindex_vals (key : string) (vals : list string) (idx : index) : index :=
  fold_left (fun idx v =>
    match idx !! v with
    | None => idx
    | Some set =>
        let set' := set ∖ {[key]} in
        if bool_decide (set' = ∅) then delete v idx else <[v := set']> idx
    end) vals idx.

(** store/internal/cache.go l.201-219, unindex. *)
Definition unindex (ord : list (string * indexer)) (key : string) (obj : T)
    (ind : gmap string index) : gmap string index :=
  fold_left (fun ind '(name, f) =>
    match ind !! name with
    | None => ind
    | Some idx => <[name := unindex_vals key (f obj) idx]> ind
    end) ord ind.

(** store/internal/cache.go l.189-196, inner loop of reindex; KeySet.Add is
    index.go l.7-9. *)
Definition reindex_vals (key : string) (vals : list string) (idx : index) : index :=
  fold_left (fun idx v => <[v := default ∅ (idx !! v) ∪ {[key]}]> idx) vals idx.

(** store/internal/cache.go l.177-199, reindex; its two loops over the
    indexers may use different orders. *)
Definition reindex (ord1 ord2 : list (string * indexer)) (key : string) (prev : option T) (curr : T)
    (ind : gmap string index) : gmap string index :=
  let ind1 := match prev with Some p => unindex ord1 key p ind | None => ind end in
  fold_left (fun ind '(name, f) =>
    <[name := reindex_vals key (f curr) (default ∅ (ind !! name))]> ind) ord2 ind1.

(** store/internal/conditional.go l.5-8. *)
Inductive conderr := ErrVersionMismatch | ErrResourceExists.

(** store/internal/conditional.go l.10-28.  A missing key is the zero
    container, whose version is 0. *)
Inductive cond := WhenVersionMatches (target : Z) | WhenNotExists.
Definition check_cond (c : cond) (cur : option vc) : option conderr :=
  let ver := match cur with Some x => vc_ver x | None => 0%Z end in
  match c with
  | WhenVersionMatches t => if (ver =? t)%Z then None else Some ErrVersionMismatch
  | WhenNotExists => if (ver =? 0)%Z then None else Some ErrResourceExists
  end.

Fixpoint check_conds (cs : list cond) (cur : option vc) : option conderr :=
  match cs with
  | [] => None
  | c :: cs' => match check_cond c cur with Some e => Some e | None => check_conds cs' cur end
  end.

Definition next_vc (cur : option vc) (obj : T) : vc :=
  VC obj (match cur with Some x => vc_ver x + 1 | None => 1 end)%Z.

(** Storing [obj] under [key] with its index maintenance: common tail of Patch
    (l.59-64) and Update (l.83-88). *)
Definition store_item (e : env) (key : string) (obj : T) (m : simap) : simap :=
  let cur := sm_items m !! key in
  SIMap (<[key := next_vc cur obj]> (sm_items m))
        (reindex (indexer_loop e "unindex") (indexer_loop e "reindex") key (vc_res <$> cur) obj
           (sm_indices m)).

(** Outcome of Patch and Update: the Delta (previous and next value). *)
Inductive upres (E : Type) :=
  | UpOk (m : simap) (prev : option T) (next : T)
  | UpCond (c : conderr)
  | UpErr (e : E)
  | UpPanic.
Arguments UpOk {E}.
Arguments UpCond {E}.
Arguments UpErr {E}.
Arguments UpPanic {E}.

(** store/internal/cache.go l.68-90, Update. *)
Definition sm_update {E} (e : env) (key : string) (obj : T) (conds : list cond) (m : simap) : upres E :=
  match check_conds conds (sm_items m !! key) with
  | Some c => UpCond c
  | None => UpOk (store_item e key obj m) (vc_res <$> sm_items m !! key) obj
  end.

(** store/internal/cache.go l.40-66, Patch; [patch] is patcher.Patch. *)
Definition sm_patch {E} (e : env) (key : string) (patch : option T -> res E T) (conds : list cond)
    (m : simap) : upres E :=
  match check_conds conds (sm_items m !! key) with
  | Some c => UpCond c
  | None =>
      match patch (vc_res <$> sm_items m !! key) with
      | Ok obj => UpOk (store_item e key obj m) (vc_res <$> sm_items m !! key) obj
      | Err x => UpErr x
      | Panic => UpPanic
      end
  end.

(** store/internal/cache.go l.92-101, Delete. *)
Definition sm_delete (e : env) (key : string) (m : simap) : simap * option vc :=
  match sm_items m !! key with
  | None => (m, None)
  | Some x =>
      (SIMap (delete key (sm_items m))
             (unindex (indexer_loop e "unindex") key (vc_res x) (sm_indices m)), Some x)
  end.

(** store/internal/cache.go l.103-108, Get. *)
Definition sm_get (key : string) (m : simap) : option vc := sm_items m !! key.

(** store/internal/cache.go l.110-126, Replace.  Both loops run over the new
    items; each reindex call iterates the indexers in its own order. *)
Definition sm_replace (e : env) (items : gmap string T) (m : simap) : simap :=
  let itemcc :=
    fold_left (fun acc '(k, v) => <[k := next_vc (sm_items m !! k) v]> acc)
      (env_iter e "replace-items" _ (map_to_list items)) ∅ in
  let indices :=
    fold_left (fun ind '(k, v) =>
        reindex [] (indexer_loop e ("reindex " ++ k)%string) k None v ind)
      (env_iter e "replace-index" _ (map_to_list items)) ∅ in
  SIMap itemcc indices.

(** store/internal/cache.go l.128-136, List. *)
Definition sm_list (e : env) (m : simap) : list vc :=
  snd <$> env_iter e "list" _ (map_to_list (sm_items m)).

(** store/internal/cache.go l.138-151, IndexValues. *)
Definition sm_index_values (e : env) (name : string) (m : simap) : option (list string) :=
  match indexers !! name with
  | None => None
  | Some _ => Some (fst <$> env_iter e "values" _ (map_to_list (default ∅ (sm_indices m !! name))))
  end.

(** store/internal/cache.go l.153-175, Index.  In [list = append(list,
    m.items[key])] a key without item yields the zero container: [None]. *)
Definition sm_index (e : env) (name : string) (obj : T) (m : simap) : option (list (option vc)) :=
  match indexers !! name with
  | None => None
  | Some f =>
      let idx := default ∅ (sm_indices m !! name) in
      let keys : gset string :=
        fold_left (fun acc v => acc ∪ default ∅ (idx !! v)) (f obj) ∅ in
      Some ((fun k => sm_items m !! k) <$> env_iter e "index" _ (elements keys))
  end.

End syncmap.

Arguments vc : clear implicits.
Arguments VC {T}.
Arguments simap : clear implicits.
Arguments SIMap {T}.
Arguments UpOk {T E}.
Arguments UpCond {T E}.
Arguments UpErr {T E}.
Arguments UpPanic {T E}.
Arguments indexer : clear implicits.
Notation index := (gmap string (gset string)).
