(** Property C95: the default site index. *)
From Coq Require Import ZArith NArith Ascii String.
From stdpp Require Import base gmap strings list sorting.
From Verif Require Import GoBase Encoding SpecEncoding Records Messages SpecMessages MessageFacts Env SyncMap Tokens Cache SpecStore StoreFacts
  StoreLemmas ListFacts HistFacts StoreExamples.

Local Open Scope list_scope.
Local Opaque vanflow_registry builtin_types record_types Encode Decode attrs_of.

(** The site an entry says it belongs to. *)
Definition site_of (x : entry) : option string := m_annotations (e_meta x) !! "skupper.io/flow/site-id"%string.

(** ** C95: the site index groups entries by their site *)

(** For a site of any other name than "unknown" exactly its entries... *)
Theorem C95_site_index_exact cf e s x site :
  reachable cf s -> env_ok e -> cf_indexers cf !! "site"%string = Some (site_index : indexer entry) ->
  site_of x = Some site -> site <> "unknown"%string ->
  exists l, run_op cf e s (OIndex "site" x None) = (s, OutSet l "" None, []) /\
    enumerates (contents s) (fun y => site_of y = Some site) l.
Proof.
  intros Hr He Hf Hx Hne. destruct (index_exact cf e s "site" site_index x Hr He Hf) as (l & Hrun & Hl).
  exists l. split; [exact Hrun|]. destruct Hl as (ks & Hnd & Hf2 & Hk). exists ks. split; [done|]. split; [done|].
  intros k. rewrite Hk. unfold site_index. change (m_annotations (e_meta x) !! site_annotation) with (site_of x).
  rewrite Hx. cbn [default from_option id]. split.
  - intros (y & Hy & b & Hb & Hb'). exists y. split; [done|]. apply elem_of_list_singleton in Hb, Hb'. subst b.
    change (m_annotations (e_meta y) !! site_annotation) with (site_of y) in Hb'.
    destruct (site_of y) as [z|]; cbn in Hb'; [by subst|by destruct Hne].
  - intros (y & Hy & E). exists y. split; [done|]. exists site. split; [by left|].
    change (m_annotations (e_meta y) !! site_annotation) with (site_of y). rewrite E. by left.
Qed.

(** ...and for an entry without site, those without (refuted: together with
    the entries of a site that is called "unknown"). *)
Theorem C95_refuted_no_site cf e s x :
  reachable cf s -> env_ok e -> cf_indexers cf !! "site"%string = Some (site_index : indexer entry) ->
  site_of x = None ->
  exists l, run_op cf e s (OIndex "site" x None) = (s, OutSet l "" None, []) /\
    enumerates (contents s) (fun y => site_of y = None \/ site_of y = Some "unknown"%string) l.
Proof.
  intros Hr He Hf Hx. destruct (index_exact cf e s "site" site_index x Hr He Hf) as (l & Hrun & Hl).
  exists l. split; [exact Hrun|]. destruct Hl as (ks & Hnd & Hf2 & Hk). exists ks. split; [done|]. split; [done|].
  intros k. rewrite Hk. unfold site_index. change (m_annotations (e_meta x) !! site_annotation) with (site_of x).
  rewrite Hx. cbn [default from_option id]. split.
  - intros (y & Hy & b & Hb & Hb'). exists y. split; [done|]. apply elem_of_list_singleton in Hb, Hb'. subst b.
    change (m_annotations (e_meta y) !! site_annotation) with (site_of y) in Hb'.
    destruct (site_of y) as [z|]; cbn in Hb'; [right; by subst|by left].
  - intros (y & Hy & E). exists y. split; [done|]. exists "unknown"%string. split; [by left|].
    change (m_annotations (e_meta y) !! site_annotation) with (site_of y). destruct E as [E|E]; rewrite E; by left.
Qed.

(** The sites listed are exactly those of stored entries, with "unknown" if
    some entry has none. *)
Theorem C95_sites_listed cf e s :
  reachable cf s -> env_ok e -> cf_indexers cf !! "site"%string = Some (site_index : indexer entry) ->
  exists l, run_op cf e s (OIndexValues "site") = (s, OutValues l None, []) /\ NoDup l /\
    forall b, b ∈ l <-> exists k x, entry_at (contents s) k = Some x /\
      (site_of x = Some b \/ (site_of x = None /\ b = "unknown"%string)).
Proof.
  intros Hr He Hf. destruct (index_values_exact cf e s "site" site_index Hr He Hf) as (l & Hrun & Hnd & Hl).
  exists l. split; [exact Hrun|]. split; [done|]. intros b. rewrite Hl. unfold site_index. split.
  - intros (k & y & Hy & Hb). exists k, y. split; [done|]. apply elem_of_list_singleton in Hb.
    change (m_annotations (e_meta y) !! site_annotation) with (site_of y) in Hb.
    destruct (site_of y) as [z|]; cbn in Hb; [left; by subst|by right].
  - intros (k & y & Hy & Hb). exists k, y. split; [done|]. apply elem_of_list_singleton.
    change (m_annotations (e_meta y) !! site_annotation) with (site_of y).
    by destruct Hb as [Hb|[Hb ->]]; rewrite Hb.
Qed.

Definition at_site (id site : string) : entry :=
  Entry (Metadata ex_src zero_time {[ "skupper.io/flow/site-id"%string := site ]}) (TypeMeta api_version "SiteRecord")
        (Some (ex_site id)).

Example C95_example :
  let s := state_after ex_cf [(at_time 1, OReplace [at_site "s1" "east"; at_site "s2" "unknown"; ex_entry "s3" "r"])] in
  cf_indexers ex_cf !! "site"%string = Some (site_index : indexer entry) /\
  (run_op ex_cf (at_time 9) s (OIndex "site" (at_site "" "east") None)).1.2 = OutSet [at_site "s1" "east"] "" None /\
  (run_op ex_cf (at_time 9) s (OIndex "site" (ex_entry "" "") None)).1.2 =
    OutSet [at_site "s2" "unknown"; ex_entry "s3" "r"] "" None.
Proof. split; [reflexivity|]. split; vm_compute; reflexivity. Qed.

Print Assumptions C95_site_index_exact.
Print Assumptions C95_refuted_no_site.
Print Assumptions C95_sites_listed.
