(** Vocabulary for the properties of shared annotation maps. *)
From Coq Require Import ZArith NArith Ascii String.
From stdpp Require Import base gmap strings list.
From Verif Require Import GoBase Encoding Records Env SyncMap Tokens Cache SpecStore Alias.

Local Open Scope list_scope.

(** A write that changes no index value of a stored entry. *)
Definition harmless (cf : config) (h : heap) (s : hitems) (l : N) (m : gmap string string) : Prop :=
  forall k v name (f : indexer entry), sm_items s !! k = Some v -> cf_indexers cf !! name = Some f ->
    f (see (<[l := m]> h) (vc_res v)) = f (see h (vc_res v)).

(** States reached from an empty store by calls and harmless writes. *)
Inductive careful (cf : config) : heap -> hitems -> Prop :=
  | ca_new h : careful cf h new_simap
  | ca_call h s e o : careful cf h s -> env_ok e -> careful cf h (hcall cf e h s o).1.1
  | ca_write h s l m : careful cf h s -> harmless cf h s l m -> careful cf (<[l := m]> h) s.

(** No stored entry refers to the map [l]. *)
Definition unshared (s : hitems) (l : N) : Prop :=
  forall k v, sm_items s !! k = Some v -> he_ann (vc_res v) <> Some l.

(** The two maps give the same site. *)
Definition same_site (m m' : gmap string string) : Prop :=
  m !! site_annotation = m' !! site_annotation.
