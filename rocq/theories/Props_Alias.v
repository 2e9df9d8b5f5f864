(** Property C73: what happens when a caller changes an annotation map after
    storing the entry.  The vocabulary is in SpecAlias.v and SpecStore.v;
    [hcontents] is what a store holds, read through the maps as they are. *)
From Coq Require Import ZArith NArith Ascii String.
From stdpp Require Import base gmap strings list.
From Verif Require Import GoBase Encoding Records Messages Env SyncMap Tokens Cache SpecStore StoreFacts
  StoreExamples SpecEncoding MessageFacts Alias SpecAlias AliasFacts.

Local Open Scope list_scope.
Local Opaque vanflow_registry builtin_types record_types Encode Decode attrs_of.

(** ** Witnesses *)

Definition site_map (s : string) : gmap string string := {[ site_annotation := s ]}.
Definition al_entry (id : string) (l : N) : hentry :=
  HEntry ex_src zero_time (Some l) (TypeMeta api_version "SiteRecord") (Some (ex_site id)).

(** Map 1 says site "a", maps 2 and 3 are used in lookups. *)
Definition al_heap : heap := <[1%N := site_map "a"]> (<[2%N := site_map "b"]> {[3%N := site_map "a"]}).
Definition al_store : hitems := (hcall ex_cf (at_time 1) al_heap new_simap (HAdd (al_entry "s1" 1))).1.1.
(** The caller reuses map 1. *)
Definition al_heap' : heap := <[1%N := site_map "b"]> al_heap.
(** How the entry reads with each. *)
Definition al_seen (site : string) : entry :=
  Entry (Metadata ex_src (GoTime 1 0) (site_map site)) (TypeMeta api_version "SiteRecord") (Some (ex_site "s1")).

Lemma al_careful : careful ex_cf al_heap al_store.
Proof. apply ca_call; [apply ca_new|apply at_time_ok]. Qed.

(** ** C73: callers can keep using the values they stored *)

(** They cannot: the entry changes under the same ETag, lookups by its new
    value miss it and lookups by its old value return it. *)
Theorem C73_refuted :
  careful ex_cf al_heap al_store /\
  (hcall ex_cf (at_time 2) al_heap al_store (HGet (al_entry "s1" 1))).1.2 =
    OutSingle (Some (al_seen "a", make_etag 1 1)) None /\
  (hcall ex_cf (at_time 2) al_heap' al_store (HGet (al_entry "s1" 1))).1.2 =
    OutSingle (Some (al_seen "b", make_etag 1 1)) None /\
  (hcall ex_cf (at_time 2) al_heap' al_store (HIndex index_by_site (al_entry "" 2) None)).1.2 = OutSet [] "" None /\
  (hcall ex_cf (at_time 2) al_heap' al_store (HIndex index_by_site (al_entry "" 3) None)).1.2 =
    OutSet [al_seen "b"] "" None.
Proof.
  split; [exact al_careful|]. split; [|split; [|split]]; vm_compute; reflexivity.
Qed.

(** In general a write shows in every entry that refers to the map, and leaves
    its version. *)
Theorem C73_write_shows h s l m k v :
  sm_items s !! k = Some v -> he_ann (vc_res v) = Some l ->
  exists x, hcontents h s !! k = Some (x, vc_ver v) /\
    hcontents (<[l := m]> h) s !! k =
      Some (Entry (Metadata (m_source (e_meta x)) (m_updated (e_meta x)) m) (e_tm x) (e_rec x), vc_ver v).
Proof.
  intros Hk Hl. exists (see h (vc_res v)). split.
  { rewrite hcontents_lookup, Hk. reflexivity. }
  apply (write_shows h s l m k (see h (vc_res v)) (vc_ver v) (he_source (vc_res v)) (he_updated (vc_res v))
           (he_tm (vc_res v)) (he_rec (vc_res v))).
  - rewrite Hk. f_equal. destruct v as [[a b c d e] n]. simpl in *. by rewrite Hl.
  - rewrite hcontents_lookup, Hk. reflexivity.
Qed.

Example C73_write_example : exists v,
  sm_items al_store !! "s1"%string = Some v /\ he_ann (vc_res v) = Some 1%N.
Proof. eexists. split; [vm_compute; reflexivity|reflexivity]. Qed.

(** Index lookups go by the values the maps had when the entries were stored:
    [hi] is the maps then, [h] any maps now. *)
Theorem C73_index_is_frozen cf hi h e s name (f : indexer entry) x :
  careful cf hi s -> env_ok e -> cf_indexers cf !! name = Some f ->
  exists l ks, hcall cf e h s (HIndex name x None) = (s, OutSet l "" None, []) /\ NoDup ks /\
    Forall2 (fun k y => entry_at (hcontents h s) k = Some y) ks l /\
    forall k, k ∈ ks <-> exists y, entry_at (hcontents hi s) k = Some y /\ exists b, b ∈ f (see h x) /\ b ∈ f y.
Proof. exact (index_frozen cf hi h e s name f x). Qed.

(** After a write changed an index value of an entry, deleting the entry
    leaves the old value behind: it stays listed, and looking it up returns an
    empty entry without record. *)
Theorem C73_deleted_entry_stays_indexed cf hi h e e' s name (f : indexer entry) x k b y z :
  careful cf hi s -> env_ok e -> env_ok e' -> cf_indexers cf !! name = Some f ->
  cf_key cf (see h x) = Ok k -> entry_at (hcontents hi s) k = Some y -> b ∈ f y ->
  (forall y', entry_at (hcontents h s) k = Some y' -> b ∉ f y') -> b ∈ f (see h z) ->
  exists s' l vs, (hcall cf e h s (HDelete x)).1 = (s', OutErr None) /\ hcontents h s' !! k = None /\
    hcall cf e' h s' (HIndex name z None) = (s', OutSet l "" None, []) /\ zero_entry ∈ l /\
    hcall cf e' h s' (HIndexValues name) = (s', OutValues vs None, []) /\ b ∈ vs.
Proof. exact (delete_dangles cf hi h e e' s name f x k b y z). Qed.

Example C73_delete_example :
  cf_indexers ex_cf !! index_by_site = Some site_index /\
  cf_key ex_cf (see al_heap' (al_entry "s1" 1)) = Ok "s1"%string /\
  entry_at (hcontents al_heap al_store) "s1" = Some (al_seen "a") /\ "a"%string ∈ site_index (al_seen "a") /\
  entry_at (hcontents al_heap' al_store) "s1" = Some (al_seen "b") /\ "a"%string ∉ site_index (al_seen "b") /\
  "a"%string ∈ site_index (see al_heap' (al_entry "" 3)).
Proof.
  split; [exact (proj1 (proj2 ex_indexers))|]. split; [reflexivity|]. split; [vm_compute; reflexivity|].
  split; [vm_compute; constructor|]. split; [vm_compute; reflexivity|]. split; [|vm_compute; constructor].
  vm_compute. intros H. inversion H as [|? ? ? H']; subst. inversion H'.
Qed.

(** Callers that change no index value of a stored entry get a store that
    behaves like a map (C15), whatever the maps hold at the time of each
    call. *)
Theorem C73_harmless_writes cf h s e o :
  careful cf h s -> env_ok e ->
  spec_step cf (env_now e) (hcontents h s) (see_op h o) (hcall cf e h s o).1.2
    (hcontents h (hcall cf e h s o).1.1).
Proof. exact (careful_call cf h s e o). Qed.

(** Such writes are: those to maps that no stored entry refers to, which do
    not affect the store at all... *)
Theorem C73_unshared_maps cf h s l m :
  unshared s l -> hcontents (<[l := m]> h) s = hcontents h s /\ harmless cf h s l m.
Proof. exact (unshared_write cf h s l m). Qed.

(** ...and, with the default indexes, those that keep the site. *)
Theorem C73_same_site cf h s l m :
  cf_indexers cf = default_indexers -> same_site m (default ∅ (h !! l)) -> harmless cf h s l m.
Proof. exact (site_write cf h s l m). Qed.

Example C73_harmless_example :
  unshared al_store 2 /\ ~ unshared al_store 1 /\ cf_indexers ex_cf = default_indexers /\
  same_site (<["note" := "x"]> (site_map "a"))%string (default ∅ (al_heap !! 1%N)) /\
  ~ harmless ex_cf al_heap al_store 1 (site_map "b").
Proof.
  assert (Hk : exists v, sm_items al_store !! "s1"%string = Some v /\ he_ann (vc_res v) = Some 1%N /\
    see al_heap (vc_res v) = al_seen "a" /\ see al_heap' (vc_res v) = al_seen "b").
  { eexists. split; [vm_compute; reflexivity|]. split; [reflexivity|]. split; vm_compute; reflexivity. }
  split.
  { intros k v H. unfold al_store in H. cbn [hcall] in H.
    change (cf_key ex_cf (see al_heap (al_entry "s1" 1))) with (Ok (E:=string) "s1"%string) in H.
    unfold sm_update in H. cbn [check_conds check_cond sm_items new_simap] in H.
    rewrite lookup_empty in H. cbn in H.
    destruct (decide (k = "s1"%string)) as [->|Hne].
    - rewrite lookup_insert in H. injection H as <-. discriminate.
    - rewrite lookup_insert_ne in H by congruence. by rewrite lookup_empty in H. }
  destruct Hk as (v & Hv & Ha & H1 & H2).
  split; [intros H; exact (H _ _ Hv Ha)|]. split; [reflexivity|]. split; [vm_compute; reflexivity|].
  intros H. pose proof (H _ _ _ _ Hv (proj1 (proj2 ex_indexers))) as HH.
  fold al_heap' in HH. rewrite H1, H2 in HH. vm_compute in HH. discriminate HH.
Qed.

Print Assumptions C73_refuted.
Print Assumptions C73_write_shows.
Print Assumptions C73_index_is_frozen.
Print Assumptions C73_deleted_entry_stays_indexed.
Print Assumptions C73_harmless_writes.
Print Assumptions C73_unshared_maps.
Print Assumptions C73_same_site.
