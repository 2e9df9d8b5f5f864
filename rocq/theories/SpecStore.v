(** What the store should do, over a plain map from keys to entries and
    versions.  Nothing here refers to indexes, index maintenance, patch loops,
    iteration orders or sorting. *)
From Coq Require Import ZArith NArith Ascii String.
From stdpp Require Import base gmap strings list sorting.
From Verif Require Import GoBase Encoding SpecEncoding Records Env SyncMap Tokens Cache.

Local Open Scope list_scope.

Notation plain := (gmap string (entry * Z)).

(** What a store holds: entries and versions by key. *)
Definition contents (s : items) : plain := (fun v => (vc_res v, vc_ver v)) <$> sm_items s.

(** The version the next write of [k] creates. *)
Definition next_version (st : plain) (k : string) : Z :=
  match st !! k with Some (_, v) => v + 1 | None => 1 end.

Definition entry_at (st : plain) (k : string) : option entry := fst <$> st !! k.

(** [put st k x]: [x] written under [k]. *)
Definition put (st : plain) (k : string) (x : entry) : plain := <[k := (x, next_version st k)]> st.

(** [enumerates st P l]: [l] lists the stored entries satisfying [P], one for
    each key, in some order. *)
Definition enumerates (st : plain) (P : entry -> Prop) (l : list entry) : Prop :=
  exists ks, NoDup ks /\ Forall2 (fun k x => entry_at st k = Some x) ks l /\
    forall k, k ∈ ks <-> exists x, entry_at st k = Some x /\ P x.

(** Byte-wise lexicographic order of Go strings. *)
Inductive str_lt : string -> string -> Prop :=
  | lt_empty c s : str_lt "" (String c s)
  | lt_head c d s t : (N_of_ascii c < N_of_ascii d)%N -> str_lt (String c s) (String d t)
  | lt_tail c s t : str_lt s t -> str_lt (String c s) (String c t).

(** The sort key of an entry: its key, or "" when it has none. *)
Definition has_sort_key (cf : config) (x : entry) (k : string) : Prop :=
  cf_key cf x = Ok k \/ (k = ""%string /\ forall k', cf_key cf x <> Ok k').

(** [x] comes before [y] in the given ordering. *)
Definition before (cf : config) (o : ordering) (x y : entry) : Prop :=
  exists kx ky, has_sort_key cf x kx /\ has_sort_key cf y ky /\
    match o with Ascending => str_lt kx ky | Descending => str_lt ky kx end.

(** The entries have pairwise different sort keys. *)
Definition distinct_keys (cf : config) (l : list entry) : Prop :=
  forall i j x y k, l !! i = Some x -> l !! j = Some y ->
    has_sort_key cf x k -> has_sort_key cf y k -> i = j.

(** [l] is in order: always for ascending order; for descending order if no
    two sort keys are equal. *)
Definition in_order (cf : config) (o : ordering) (l : list entry) : Prop :=
  o = Ascending \/ distinct_keys cf l -> StronglySorted (fun x y => ~ before cf o y x) l.

(** The page of [l] at an offset; a negative offset crashes. *)
Definition page (now : gotime) (l : list entry) (off lim : Z) (r : out) : Prop :=
  ((off < 0)%Z /\ r = OutPanic) \/
  ((0 <= off)%Z /\ exists rest,
     ((off < Z.of_nat (length l))%Z /\ (exists skipped, l = skipped ++ rest /\ Z.of_nat (length skipped) = off) \/
      (Z.of_nat (length l) <= off)%Z /\ rest = []) /\
     (((lim <= 0)%Z \/ (Z.of_nat (length rest) <= lim)%Z) /\ r = OutSet rest "" None \/
      (0 < lim < Z.of_nat (length rest))%Z /\
        exists first later, rest = first ++ later /\ Z.of_nat (length first) = lim /\
          r = OutSet first (make_continue (t_sec now) (off + lim)) None)).

(** A selected list of the entries [l]. *)
Definition selects (cf : config) (now : gotime) (l : list entry) (sel : selector) (r : out) : Prop :=
  exists l', l' ≡ₚ l /\ in_order cf (s_ordering sel) l' /\
    ((s_continue sel = ""%string /\ page now l' (s_offset sel) (s_limit sel) r) \/
     (s_continue sel <> ""%string /\
        ((exists off, decode_continue (s_continue sel) = Some off /\ page now l' off (s_limit sel) r) \/
         (decode_continue (s_continue sel) = None /\ r = OutSet l' "" (Some SToken))))).

(** The listing of the entries satisfying [P]. *)
Definition lists (cf : config) (now : gotime) (st : plain) (P : entry -> Prop) (sel : option selector)
    (r : out) : Prop :=
  exists l, enumerates st P l /\
    match sel with
    | None => r = OutSet l "" None
    | Some sel => selects cf now l sel r
    end.

(** What accumulating a record into an entry amounts to. *)
Inductive accumulated :=
  | AStored (x : entry)
  | AUnchanged
  | AFailed (p : patcherr)
  | ACrashed.

(** The record interface value passed to Encode. *)
Definition iface (r : option vrec) : goany :=
  match r with Some r => record_any (vr_ptr r) (vr_type r) (vr_val r) | None => NilIface end.

(** [accumulates now src old r a]: accumulating [r] when the key holds [old].
    The record's attributes override the old ones; the result is the record
    decoded from the union. *)
Inductive accumulates (now : gotime) (src : source_ref) : option entry -> option vrec -> accumulated -> Prop :=
  | acc_new r : accumulates now src None (Some r) (AStored (Entry (Metadata src now ∅) (vrec_meta r) (Some r)))
  | acc_new_nil : accumulates now src None None ACrashed
  | acc_bad_old x r p err :
      Encode vanflow_registry (iface (e_rec x)) = EncErr p err ->
      accumulates now src (Some x) r (AFailed (PEncodeCurrent err))
  | acc_bad_new x r a p err :
      Encode vanflow_registry (iface (e_rec x)) = EncOk a ->
      Encode vanflow_registry (iface r) = EncErr p err ->
      accumulates now src (Some x) r (AFailed (PEncodeIncoming err))
  | acc_same x r a b :
      Encode vanflow_registry (iface (e_rec x)) = EncOk a ->
      Encode vanflow_registry (iface r) = EncOk b ->
      b ⊆ a -> accumulates now src (Some x) r AUnchanged
  | acc_merge x r a b n t v :
      Encode vanflow_registry (iface (e_rec x)) = EncOk a ->
      Encode vanflow_registry (iface r) = EncOk b ->
      ~ b ⊆ a -> Decode vanflow_registry (Some (b ∪ a)) = Ok (record_any true t v) ->
      get_type_meta t = Some n ->
      accumulates now src (Some x) r
        (AStored (Entry (Metadata (m_source (e_meta x)) now (m_annotations (e_meta x))) (e_tm x)
                        (Some (VRec true t v))))
  | acc_crash_encode x r :
      Encode vanflow_registry (iface (e_rec x)) = EncPanic \/
      (exists a, Encode vanflow_registry (iface (e_rec x)) = EncOk a) /\
        Encode vanflow_registry (iface r) = EncPanic ->
      accumulates now src (Some x) r ACrashed
  | acc_crash_decode x r a b :
      Encode vanflow_registry (iface (e_rec x)) = EncOk a ->
      Encode vanflow_registry (iface r) = EncOk b ->
      ~ b ⊆ a ->
      (forall t v n, Decode vanflow_registry (Some (b ∪ a)) = Ok (record_any true t v) ->
         get_type_meta t <> Some n) ->
      accumulates now src (Some x) r ACrashed.

(** An If-Match condition against the version of the key (0 if absent). *)
Definition version_of (st : plain) (k : string) : Z := default 0%Z (snd <$> st !! k).

(** [replacement cf l m]: [m] maps the key of each given entry to the last
    entry with that key. *)
Definition last_with_key (cf : config) (l : list entry) (k : string) (x : entry) : Prop :=
  exists before after, l = before ++ x :: after /\ cf_key cf x = Ok k /\
    forall y, y ∈ after -> cf_key cf y <> Ok k.

Definition replaced (cf : config) (st : plain) (l : list entry) (st' : plain) : Prop :=
  forall k x v, st' !! k = Some (x, v) <-> last_with_key cf l k x /\ v = next_version st k.

(** The first failing key function call decides the outcome of Replace. *)
Definition replace_outcome (cf : config) (l : list entry) (r : option (res string unit)) : Prop :=
  match r with
  | None => forall x, x ∈ l -> exists k, cf_key cf x = Ok k
  | Some f => exists l1 x l2, l = l1 ++ x :: l2 /\ (forall y, y ∈ l1 -> exists k, cf_key cf y = Ok k) /\
      ((exists m, cf_key cf x = Err m /\ f = Err m) \/ (cf_key cf x = Panic /\ f = Panic))
  end.

(** [spec_step cf now st o r st']: calling [o] at time [now] when the store
    holds [st] may return [r] and leave [st']. *)
Definition spec_step (cf : config) (now : gotime) (st : plain) (o : op) (r : out) (st' : plain) : Prop :=
  (* calls whose key cannot be computed *)
  let bad_key (x : entry) (err : string -> out) :=
    st' = st /\ ((cf_key cf x = Panic /\ r = OutPanic) \/ (exists m, cf_key cf x = Err m /\ r = err m)) in
  match o with
  | OAdd x =>
      bad_key x (fun m => OutErr (Some (SKey m))) \/
      exists k, cf_key cf x = Ok k /\
        ((st !! k = None /\ r = OutErr None /\ st' = put st k (with_updated now x)) \/
         (is_Some (st !! k) /\ r = OutErr (Some (SCond ErrResourceExists)) /\ st' = st))
  | OUpdate x if_match =>
      bad_key x (fun m => OutErr (Some (SKey m))) \/
      exists k, cf_key cf x = Ok k /\
        match if_match with
        | None => r = OutErr None /\ st' = put st k (with_updated now x)
        | Some tag =>
            (decode_etag tag = None /\ r = OutErr (Some SETag) /\ st' = st) \/
            exists v u, decode_etag tag = Some (v, u) /\
              ((v = version_of st k /\ r = OutErr None /\ st' = put st k (with_updated now x)) \/
               (v <> version_of st k /\ r = OutErr (Some (SCond ErrVersionMismatch)) /\ st' = st))
        end
  | ODelete x =>
      bad_key x (fun m => OutErr (Some (SKey m))) \/
      exists k, cf_key cf x = Ok k /\ r = OutErr None /\ st' = delete k st
  | OReplace l =>
      (replace_outcome cf l None /\ r = OutErr None /\ replaced cf st l st') \/
      (exists m, replace_outcome cf l (Some (Err m)) /\ r = OutErr (Some (SKey m)) /\ st' = st) \/
      (replace_outcome cf l (Some Panic) /\ r = OutPanic /\ st' = st)
  | OAccumulate src p =>
      bad_key (Entry zero_meta (TypeMeta "" "") p) (fun m => OutErr (Some (SKey m))) \/
      exists k a, cf_key cf (Entry zero_meta (TypeMeta "" "") p) = Ok k /\
        accumulates now src (entry_at st k) p a /\
        match a with
        | AStored x => r = OutErr None /\ st' = put st k x
        | AUnchanged => r = OutErr None /\ st' = st
        | AFailed e => r = OutErr (Some (SPatch e)) /\ st' = st
        | ACrashed => r = OutPanic /\ st' = st
        end
  | OGet x =>
      bad_key x (fun m => OutSingle None (Some (SKey m))) \/
      exists k, cf_key cf x = Ok k /\ st' = st /\
        ((st !! k = None /\ r = OutSingle None None) \/
         exists y v, st !! k = Some (y, v) /\
           r = OutSingle (Some (y, make_etag v (t_sec (m_updated (e_meta y))))) None)
  | OList sel => st' = st /\ lists cf now st (fun _ => True) sel r
  | OIndex name x sel =>
      st' = st /\
      ((cf_indexers cf !! name = None /\ r = OutSet [] "" (Some SNoIndex)) \/
       exists f, cf_indexers cf !! name = Some f /\
         lists cf now st (fun y => exists b, b ∈ f x /\ b ∈ f y) sel r)
  | OIndexValues name =>
      st' = st /\
      ((cf_indexers cf !! name = None /\ r = OutValues [] (Some SNoIndex)) \/
       exists f l, cf_indexers cf !! name = Some f /\ r = OutValues l None /\ NoDup l /\
         forall b, b ∈ l <-> exists k x, entry_at st k = Some x /\ b ∈ f x)
  end.

(** A history of calls (with the clock reading of each) and its results. *)
Inductive spec_run (cf : config) : plain -> list (gotime * op) -> list out -> plain -> Prop :=
  | sr_nil st : spec_run cf st [] [] st
  | sr_cons st now o r st1 l rs st2 :
      spec_step cf now st o r st1 -> spec_run cf st1 l rs st2 ->
      spec_run cf st ((now, o) :: l) (r :: rs) st2.

(** Clock readings of a history. *)
Definition timed (l : list (env * op)) : list (gotime * op) := (fun '(e, o) => (env_now e, o)) <$> l.

Definition envs_ok (l : list (env * op)) : Prop := Forall (fun '(e, _) => env_ok e) l.

(** The state after a history, and reachability. *)
Definition state_after (cf : config) (l : list (env * op)) : items := (run cf l).1.1.

Definition reachable (cf : config) (s : items) : Prop := exists l, envs_ok l /\ s = state_after cf l.

(** ** Histories *)

(** All states a history passes through, the first included. *)
Fixpoint states (cf : config) (s : items) (l : list (env * op)) : list items :=
  s :: match l with
       | [] => []
       | (e, o) :: l' => states cf (run_op cf e s o).1.1 l'
       end.

(** The call reports an error or crashes. *)
Definition failed (r : out) : Prop :=
  match r with
  | OutErr e | OutSingle _ e | OutSet _ _ e | OutValues _ e => is_Some e
  | OutPanic => True
  end.

(** ** Events *)

(** All handlers are installed. *)
Definition observing (cf : config) : Prop :=
  cf_on_add cf = true /\ cf_on_change cf = true /\ cf_on_delete cf = true.

(** [describes st evs st']: the events tell exactly how [st] became [st']. *)
Inductive describes (st : plain) : list event -> plain -> Prop :=
  | ds_none : describes st [] st
  | ds_add k x : st !! k = None -> describes st [EvAdd x] (put st k x)
  | ds_change k p x : entry_at st k = Some p -> describes st [EvChange p x] (put st k x)
  | ds_delete k p : entry_at st k = Some p -> describes st [EvDelete p] (delete k st).

(** Replaying events over a bag of entries. *)
Inductive replays : list entry -> list event -> list entry -> Prop :=
  | rp_nil l l' : l ≡ₚ l' -> replays l [] l'
  | rp_add l x evs l' : replays (x :: l) evs l' -> replays l (EvAdd x :: evs) l'
  | rp_change l l0 p x evs l' : l ≡ₚ p :: l0 -> replays (x :: l0) evs l' -> replays l (EvChange p x :: evs) l'
  | rp_delete l l0 p evs l' : l ≡ₚ p :: l0 -> replays l0 evs l' -> replays l (EvDelete p :: evs) l'.

(** Replaying events over a map keyed by record identity. *)
Definition id_of (x : entry) : string := match e_rec x with Some r => vrec_identity r | None => "" end.
Definition apply_event (m : gmap string entry) (ev : event) : gmap string entry :=
  match ev with
  | EvAdd x => <[id_of x := x]> m
  | EvChange _ x => <[id_of x := x]> m
  | EvDelete x => delete (id_of x) m
  end.

(** Which calls can change a key without events or with wrong ones. *)
Definition is_replace (o : op) : Prop := match o with OReplace _ => True | _ => False end.
Definition is_accumulate (o : op) : Prop := match o with OAccumulate _ _ => True | _ => False end.

(** ** Records in the store *)

(** The entry holds a usable built-in record. *)
Definition good_entry (good : vrec -> Prop) (x : entry) : Prop := exists r, e_rec x = Some r /\ good r.

(** The records and entries passed to a writing call are usable. *)
Definition good_op (good : vrec -> Prop) (o : op) : Prop :=
  match o with
  | OAdd x | OUpdate x _ | ODelete x | OGet x => good_entry good x
  | OReplace l => Forall (good_entry good) l
  | OAccumulate _ r => exists r', r = Some r' /\ good r'
  | _ => True
  end.
