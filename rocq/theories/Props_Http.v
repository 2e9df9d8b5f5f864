(** Properties C100 and C101: the HTTP interface of vanflow-tool. *)
From Coq Require Import ZArith NArith Ascii String.
From stdpp Require Import base gmap strings list.
From Verif Require Import GoBase Encoding SpecEncoding Records Messages SpecMessages Env SyncMap Tokens Cache SpecStore StoreExamples MessageFacts ToolFacts Tool ToolExamples
  Http HttpFacts.

Local Open Scope list_scope.
Local Opaque vanflow_registry builtin_types record_types Encode Decode.

(** ** C100: paths and their answers *)

(** No pattern is registered twice: the tool does not panic when it starts. *)
Theorem C100_starts flows logs : tool_mux flows logs <> None.
Proof. exact (starts_up flows logs). Qed.

(** "/" lists all entries and all paths there are, whatever was stored. *)
Theorem C100_root flows logs zone e st srcs : env_ok e -> (forall k x, entry_at (contents st) k = Some x -> fits zone x) ->
  exists l, enumerates (contents st) (fun _ => True) l /\ answer flows logs zone e st srcs "/" = Reply 200 (Some (Body l false (offered flows logs))).
Proof.
  intros He Hf. destruct (root_answer flows logs zone e st srcs He) as (l & Hen & Ha). exists l. split; [done|]. rewrite Ha.
  assert (forallb (entry_json_ok zone) l = true) as ->; [|done]. apply forallb_forall. intros x Hx%elem_of_list_In.
  destruct (enumerates_in _ _ _ _ Hen Hx) as [_ [k Hk]]. apply entry_fits. by apply (Hf k x).
Qed.

(** The path of a type, and any below it, lists exactly the entries of that
    type. *)
Theorem C100_type flows logs zone e st srcs t m p : reachable fixture_config st -> env_ok e ->
  (forall k x, entry_at (contents st) k = Some x -> fits zone x) ->
  t ∈ tool_types flows logs -> get_type_meta t = Some m -> canonical p -> below (type_path t) p ->
  exists l, enumerates (contents st) (fun y => type_meta_string (e_tm y) = type_meta_string m) l /\
    answer flows logs zone e st srcs p = Reply 200 (Some (Body l false [])).
Proof.
  intros Hr He Hf Ht Hm Hc Hb. destruct (type_answer flows logs zone e st srcs t m p Hr He Ht Hm Hc Hb) as (l & Hen & Ha). exists l. split; [done|]. rewrite Ha.
  assert (forallb (entry_json_ok zone) l = true) as ->; [|done]. apply forallb_forall. intros x Hx%elem_of_list_In.
  destruct (enumerates_in _ _ _ _ Hen Hx) as [_ [k Hk]]. apply entry_fits. by apply (Hf k x).
Qed.

(** The sources collected are listed under "/sources/", in any state. *)
Theorem C100_sources flows logs zone e st srcs p : (forall t, -86400 <= zone t <= 86400)%Z -> canonical p -> below "/sources/" p ->
  answer flows logs zone e st srcs p = Reply 200 (Some (Body ((fun r => Entry (Metadata r zero_time ∅) (TypeMeta "" "") None) <$> srcs) false [])).
Proof. exact (sources_answer flows logs zone e st srcs p). Qed.

(** Every path the root offers is answered with status 200, never moved. *)
Theorem C100_offered flows logs zone e st srcs p : reachable fixture_config st -> env_ok e -> (forall t, -86400 <= zone t <= 86400)%Z ->
  (forall k x, entry_at (contents st) k = Some x -> fits zone x) ->
  p ∈ offered flows logs -> exists b, answer flows logs zone e st srcs p = Reply 200 (Some b).
Proof.
  intros Hr He Hz Hf Hp. pose proof (pages_facts flows logs) as Hpf. pose proof Hp as Hp'.
  rewrite <- refs_offered in Hp. unfold tool_refs in Hp. rewrite elem_of_app, !elem_of_cons, elem_of_nil, elem_of_list_fmap in Hp.
  destruct Hp as [[->|[->|[]]]|(t & -> & Ht)].
  - destruct (C100_root flows logs zone e st srcs He Hf) as (l & _ & Ha). by eexists.
  - eexists. apply C100_sources; [done| |exists ""%string; done]. right. exists ["sources"%string], true. split; [done|]. split; [by repeat constructor|done].
  - destruct (tool_types_meta _ _ _ Ht) as [m Hm].
    destruct (C100_type flows logs zone e st srcs t m (type_path t) Hr He Hf Ht Hm) as (l & _ & Ha); [by eapply type_path_canonical|exists ""%string; by rewrite sapp_nil|by eexists].
Qed.

(** Any other path: not found, with the paths there are. *)
Theorem C100_unknown flows logs zone e st srcs p : canonical p -> p <> "/"%string ->
  (forall q, q ∈ offered flows logs -> q <> "/"%string -> ~ below q p) -> (p ++ "/")%string ∉ offered flows logs ->
  answer flows logs zone e st srcs p = Reply 404 (Some (Body [] true (offered flows logs))).
Proof. exact (unknown_answer flows logs zone e st srcs p). Qed.

(** A request is redirected exactly if its path is not canonical or lacks the
    last slash of a path offered; the path it is redirected to is canonical and
    not redirected again. *)
Theorem C100_moved flows logs zone e st srcs p :
  (~ canonical p \/ p <> "/"%string /\ (p ++ "/")%string ∈ offered flows logs) <-> exists q, answer flows logs zone e st srcs p = Redirected q.
Proof. exact (moved_answer flows logs zone e st srcs p). Qed.

Theorem C100_moved_once flows logs zone e st srcs p q : answer flows logs zone e st srcs p = Redirected q ->
  canonical q /\ forall q', answer flows logs zone e st srcs q <> Redirected q'.
Proof. exact (moved_once flows logs zone e st srcs p q). Qed.

(** What was collected appears once under the root and once under one of the
    types: the root's list is that of the types together. *)
Theorem C100_partition flows logs zone e l srcs : usable_history l -> (forall r, received l r -> vr_type r ∈ tool_types flows logs) -> env_ok e ->
  (forall k x, entry_at (contents (state_after fixture_config l)) k = Some x -> fits zone x) ->
  exists all parts, answer flows logs zone e (state_after fixture_config l) srcs "/" = Reply 200 (Some (Body all false (offered flows logs))) /\
    Forall2 (fun t part => answer flows logs zone e (state_after fixture_config l) srcs (type_path t) = Reply 200 (Some (Body part false []))) (tool_types flows logs) parts /\
    all ≡ₚ concat parts.
Proof. intros Hu Hty He Hf. apply (listings_partition flows logs zone e l srcs Hu Hty He). intros k x Hk. apply entry_fits. by apply (Hf k x). Qed.

(** A site and a router collected; paths of every kind, with the number of
    entries listed. *)
Definition http_collected : list (env * op) :=
  [(at_time 1, OAccumulate ex_src (Some (ex_site "s2"))); (at_time 2, OAccumulate ex_src (Some ex_router))].

Example C100_example :
  usable_history http_collected /\ (forall r, received http_collected r -> vr_type r ∈ tool_types false false) /\
  forallb (fun x => match answer false false (fun _ => 3600%Z) (at_time 9) (state_after fixture_config http_collected) [ex_src] x.1 with
    | Reply 200 (Some b) => length (b_data b) =? x.2 | _ => false end)
    [("/", 2); ("/sources/", 1); ("/flow/v1/SiteRecord/", 1); ("/flow/v1/SiteRecord/s2", 1); ("/flow/v1/RouterRecord/", 1); ("/flow/v1/LinkRecord/", 0)]%string = true /\
  forallb (fun x => match answer false false (fun _ => 3600%Z) (at_time 9) (state_after fixture_config http_collected) [ex_src] x.1 with
    | Redirected q => String.eqb q x.2 | _ => false end)
    [("/sources", "/sources/"); ("/flow//v1/SiteRecord", "/flow/v1/SiteRecord/"); ("/a/../", "/"); ("", "/"); ("/flow/v1/./nothing", "/flow/v1/nothing")]%string = true /\
  forallb (fun p => match answer false false (fun _ => 3600%Z) (at_time 9) (state_after fixture_config http_collected) [ex_src] p with
    | Reply 404 (Some b) => b_error b | _ => false end)
    ["/flow/v1/"; "/flow/v1/FlowRecord/"; "/favicon.ico"; "/sourcesx"]%string = true.
Proof.
  destruct ex_encodes as (_ & _ & E3). split.
  { split; [repeat constructor; apply at_time_ok|]. split; [repeat constructor|].
    intros e src p Hin. unfold http_collected in Hin. apply elem_of_cons in Hin as [[= -> -> ->]|Hin].
    - eexists _, _. split; [reflexivity|]. split; [apply ex_site_good|]. apply attrs_of_ok. vm_compute. reflexivity.
    - apply elem_of_list_singleton in Hin as [= -> -> ->]. eexists _, _. split; [reflexivity|]. split; [apply ex_router_good|exact E3]. }
  split.
  { intros r (e & src & Hin). unfold http_collected in Hin. apply elem_of_cons in Hin as [[= _ _ ->]|Hin]; [by left|].
    apply elem_of_list_singleton in Hin as [= _ _ ->]. right. right. by left. }
  split; [vm_compute; reflexivity|]. split; vm_compute; reflexivity.
Qed.

Print Assumptions C100_starts.
Print Assumptions C100_root.
Print Assumptions C100_type.
Print Assumptions C100_sources.
Print Assumptions C100_offered.
Print Assumptions C100_unknown.
Print Assumptions C100_moved.
Print Assumptions C100_moved_once.
Print Assumptions C100_partition.

(** ** C101: one record can blank the lists *)

(** A list is answered in full exactly if JSON can hold the times of all its
    entries, and with an empty body and status 200 if not. *)
Theorem C101_root flows logs zone e st srcs : env_ok e -> exists l, enumerates (contents st) (fun _ => True) l /\
  (Forall (fits zone) l /\ answer flows logs zone e st srcs "/" = Reply 200 (Some (Body l false (offered flows logs))) \/
   ~ Forall (fits zone) l /\ answer flows logs zone e st srcs "/" = Reply 200 None).
Proof.
  intros He. destruct (root_answer flows logs zone e st srcs He) as (l & Hen & Ha). exists l. split; [done|].
  pose proof (all_fit zone l) as Hf. destruct (forallb (entry_json_ok zone) l); [left|right]; (split; [rewrite <- Hf; done|done]).
Qed.

Theorem C101_type flows logs zone e st srcs t m p : reachable fixture_config st -> env_ok e -> t ∈ tool_types flows logs -> get_type_meta t = Some m ->
  canonical p -> below (type_path t) p ->
  exists l, enumerates (contents st) (fun y => type_meta_string (e_tm y) = type_meta_string m) l /\
    (Forall (fits zone) l /\ answer flows logs zone e st srcs p = Reply 200 (Some (Body l false [])) \/
     ~ Forall (fits zone) l /\ answer flows logs zone e st srcs p = Reply 200 None).
Proof.
  intros Hr He Ht Hm Hc Hb. destruct (type_answer flows logs zone e st srcs t m p Hr He Ht Hm Hc Hb) as (l & Hen & Ha). exists l. split; [done|].
  pose proof (all_fit zone l) as Hf. destruct (forallb (entry_json_ok zone) l); [left|right]; (split; [rewrite <- Hf; done|done]).
Qed.

(** One message suffices, from any source: it decodes without an error to one
    usable site, and when that is collected, the list of all and the list of
    sites are blank from then on, whatever else was and is collected. *)
Theorem C101_refuted id : id <> ""%string -> exists rm r, decode_record_msg (far_msg id) = RDone rm None /\ rm_records rm = [Some r] /\
  good_record r /\ (exists a, Encode vanflow_registry (vrec_any r) = EncOk a) /\ vrec_identity r = id /\
  forall flows logs zone e' srcs l1 e src l2, (forall t, -86400 <= zone t <= 86400)%Z ->
    usable_history (l1 ++ (e, OAccumulate src (Some r)) :: l2) -> env_ok e' -> (forall r', received (l1 ++ l2) r' -> vrec_identity r' <> id) ->
    answer flows logs zone e' (state_after fixture_config (l1 ++ (e, OAccumulate src (Some r)) :: l2)) srcs "/" = Reply 200 None /\
    answer flows logs zone e' (state_after fixture_config (l1 ++ (e, OAccumulate src (Some r)) :: l2)) srcs "/flow/v1/SiteRecord/" = Reply 200 None.
Proof.
  intros Hid. destruct (far_site_wire id Hid) as (rm & Hd & Hrm). exists rm, (far_site id). split; [done|]. split; [done|]. split; [apply far_site_good|].
  split; [by apply far_site_encodes|]. split; [done|]. intros flows logs zone e' srcs l1 e src l2 Hz Hu He Hno.
  apply (blank flows logs zone e' srcs l1 e src (far_site id) l2 Hu He); [done|by apply far_site_json|].
  by left.
Qed.

(** With a site and a router before it. *)
Example C101_example : usable_history (http_collected ++ [(at_time 3, OAccumulate ex_src (Some (far_site "s3")))]) /\
  (forall r', received (http_collected ++ []) r' -> vrec_identity r' <> "s3"%string) /\
  answer false false (fun _ => 0%Z) (at_time 9) (state_after fixture_config http_collected) [] "/flow/v1/SiteRecord/" <> Reply 200 None.
Proof.
  split; [|split].
  - destruct C100_example as ((He & Hc & Hg) & _). split; [apply Forall_app; split; [done|]; repeat constructor; apply at_time_ok|].
    split; [apply Forall_app; split; [done|]; repeat constructor|]. intros e src p [Hin|Hin]%elem_of_app; [eauto|].
    apply elem_of_list_singleton in Hin as [= -> -> ->]. destruct (far_site_encodes "s3") as [a Ha]; [done|]. exists (far_site "s3"), a.
    split; [done|]. split; [apply far_site_good|done].
  - intros r' (e & src & Hin). rewrite app_nil_r in Hin. unfold http_collected in Hin. apply elem_of_cons in Hin as [[= _ _ ->]|Hin]; [done|].
    by apply elem_of_list_singleton in Hin as [= _ _ ->].
  - vm_compute. discriminate.
Qed.

Print Assumptions C101_root.
Print Assumptions C101_type.
Print Assumptions C101_refuted.
