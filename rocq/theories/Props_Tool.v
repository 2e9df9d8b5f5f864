(** The tool: C70 to C72 and C80 to C82.  The vocabulary: [usable_history] and
    [names] at the top of ToolFacts.v, [makes], [entries_of] and [last_of] in
    its second half; [managers_of], [holds_flow], [resolved], [published_to],
    [about] and [life] in ReplayFacts.v. *)
From Coq Require Import ZArith NArith Ascii String Lia.
From stdpp Require Import base gmap strings list pretty.
From Verif Require Import GoBase Encoding SpecEncoding Records Messages SpecMessages MessageFacts
  Env SyncMap Tokens Cache SpecStore StoreFacts EventFacts StoreExamples Dispatch Diff Tool ToolFacts ReplayFacts ToolExamples.

Local Open Scope list_scope.
Local Opaque vanflow_registry builtin_types record_types Encode Decode attrs_of.

(** ** C70: looking up collected records *)

(** Get with a type and an identity never finds anything, whatever was
    collected. *)
Theorem C70_refuted l x t id : envs_ok l -> collects l -> names x t id ->
  get fixture_config (state_after fixture_config l) x = OutSingle None None.
Proof. exact (get_misses l x t id). Qed.

(** Get with an empty type finds what was collected with the identity: an
    entry labelled with the type of the first such record, which holds a
    record of the type of the last. *)
Theorem C70_untyped l x r id : usable_history l -> e_tm x = TypeMeta "" "" -> e_rec x = Some r -> vrec_identity r = id ->
  (received_as id l = [] -> get fixture_config (state_after fixture_config l) x = OutSingle None None) /\
  (received_as id l <> [] -> exists y tag, get fixture_config (state_after fixture_config l) x = OutSingle (Some (y, tag)) None /\
     labelled (received_as id l) (Some y)).
Proof. exact (get_untyped l x r id). Qed.

(** A router and a site with one identity end as a router labelled a site. *)
Theorem C70_collision_refuted : exists l k x v, usable_history l /\
  contents (state_after fixture_config l) !! k = Some (x, v) /\
  e_tm x = TypeMeta "flow/v1" "SiteRecord" /\ exists r, e_rec x = Some r /\ vr_type r = RouterRecord.
Proof.
  destruct ex_mislabelled as (k & x & v & H). exists ex_collected, k, x, v. exact (conj ex_collected_usable H).
Qed.

(** If no identity is used by two types, the query by type returns exactly the
    records of the type. *)
Theorem C70_by_type l e x t : usable_history l ->
  (forall r r', received l r -> received l r' -> vrec_identity r = vrec_identity r' -> vr_type r = vr_type r') ->
  env_ok e -> get_type_meta t = Some (e_tm x) ->
  exists out, run_op fixture_config e (state_after fixture_config l) (OIndex "ByType" x None) =
      (state_after fixture_config l, OutSet out "" None, []) /\
    enumerates (contents (state_after fixture_config l)) (fun y => exists r, e_rec y = Some r /\ vr_type r = t) out.
Proof. exact (collected_by_type l e x t). Qed.

Example C70_example : usable_history ex_collected /\ names ex_named SiteRecord "s1" /\
  received_as "s1" ex_collected = [ex_site "s1"; ex_router] /\
  usable_history [(at_time 1, OAccumulate ex_src (Some (ex_site "s1")))].
Proof.
  split; [exact ex_collected_usable|]. split; [exact ex_named_names|]. split; [exact ex_received_as|].
  destruct ex_collected_usable as (He & Hc & Hu). split; [repeat constructor; apply at_time_ok|]. split; [repeat constructor|].
  intros e src p Hin. apply elem_of_list_singleton in Hin. apply (Hu e src p). rewrite Hin. left.
Qed.

Print Assumptions C70_refuted.
Print Assumptions C70_untyped.
Print Assumptions C70_collision_refuted.
Print Assumptions C70_by_type.

(** ** C71: grouping by source *)

(** The group of a source has the entries of the request that have the source,
    a configured type and a record that parses, each once and in order; there
    is no group without entries. *)
Theorem C71_groups parse types data src :
  entries_of parse types src data (default [] (group_by_source parse types data !! src)) /\
  group_by_source parse types data !! src <> Some [].
Proof. exact (group_spec parse types data src). Qed.

(** This determines the group. *)
Theorem C71_unique parse types data src xs : entries_of parse types src data xs ->
  default [] (group_by_source parse types data !! src) = xs.
Proof. exact (fun H => entries_of_fun _ _ _ _ _ _ (proj1 (group_spec parse types data src)) H). Qed.

(** The store made for a source answers a Get by type and identity with the
    last of its entries that has them, and with nothing if none has. *)
Theorem C71_lookup parse types es data src xs s x t id : (forall z, env_ok (es z)) -> entries_of parse types src data xs ->
  stores_for parse types es data !! src = Some s -> names x t id ->
  (exists y tag, get fixture_config s x = OutSingle (Some (y, tag)) None /\ last_of xs t id y) \/
  (get fixture_config s x = OutSingle None None /\ forall z, z ∈ xs -> ~ names z t id).
Proof. exact (fixture_lookup parse types es data src xs s x t id). Qed.

(** A source has a store exactly if it has an entry. *)
Theorem C71_stores parse types es data src : is_Some (stores_for parse types es data !! src) <->
  exists p x, p ∈ data /\ m_source (pe_meta p) = src /\ makes parse types p x.
Proof. exact (stores_exist parse types es data src). Qed.

Example C71_example : exists x y, group_by_source ex_parse [FlowRecord] ex_request !! ex_source "ROUTER" "r1" = Some [x] /\
  makes ex_parse [FlowRecord] (ex_part (ex_source "ROUTER" "r1") flow_tm "paired") x /\
  group_by_source ex_parse [FlowRecord] ex_request !! ex_source "ROUTER" "r2" = Some [y] /\ x <> y /\
  group_by_source ex_parse [FlowRecord] ex_request !! ex_source "ROUTER" "r3" = None.
Proof. exact ex_groups. Qed.

Print Assumptions C71_groups.
Print Assumptions C71_unique.
Print Assumptions C71_lookup.
Print Assumptions C71_stores.

(** ** C72: flows whose counterflow is missing *)

(** If one flow names a counterflow that the fixture lacks, a POST that
    replays the flows crashes the process. *)
Theorem C72_refuted parse types data es0 ms e es ds flows x id c :
  (forall z, env_ok (es0 z)) -> managers_of (stores_for parse types es0 data) ms -> env_ok e -> (forall n, env_ok (es n)) ->
  holds_flow ms x id (Some c) -> c <> ""%string -> (forall y c2, ~ holds_flow ms y c c2) ->
  (forall y c2, holds_flow ms y id c2 -> c2 = Some c) ->
  post_flows e es ds ms flows = Panic.
Proof.
  exact (fun H0 Hm He Hes Hx Hc Hno Hu => post_dangling e es ds ms flows x id c He Hes (fixture_managers_ok _ _ _ _ _ H0 Hm) Hx Hc Hno Hu).
Qed.

(** If every counterflow named is there, it does not; there is one replay for
    each flow that names a counterflow, between that flow and one with the
    identity it names. *)
Theorem C72_resolved parse types data es0 ms e es ds flows :
  (forall z, env_ok (es0 z)) -> managers_of (stores_for parse types es0 data) ms -> env_ok e -> (forall n, env_ok (es n)) ->
  resolved ms -> (0 <= flows)%Z ->
  exists ps ll, flow_pairs e es ms = Ok ps /\ post_flows e es ds ms flows = Ok ll /\ length ll = length ps /\
    (forall i p, ps !! i = Some p -> exists l, ll !! i = Some l /\ fake_flow (ds i) p true true flows 4 = Ok l) /\
    (forall p, p ∈ ps -> exists id c c2 c3 x, c <> ""%string /\ holds_flow ms x id (Some c) /\
       holds_flow ms (fp_server p) id c2 /\ holds_flow ms (fp_client p) c c3) /\
    (forall x id c, holds_flow ms x id (Some c) -> c <> ""%string -> exists p c2, p ∈ ps /\ holds_flow ms (fp_server p) id c2).
Proof.
  intros H0 Hm He Hes Hres Hf. pose proof (fixture_managers_ok _ _ _ _ _ H0 Hm) as Hms.
  destruct (post_ok e es ds ms flows He Hes Hms Hres Hf) as (ps & ll & Hps & Hll & Hlen & Hall).
  destruct (flow_pairs_spec e es ms He Hes Hms) as (ps' & Hps' & Hsnd & Hcov). assert (ps' = ps) as -> by congruence.
  exists ps, ll. split; [done|]. split; [done|]. split; [done|]. split; [done|]. split; [|done].
  intros p Hp. destruct (Hsnd p Hp) as (id & c & x & Hne & Hx & [c2 Hs] & [[c3 Hc]|[_ Hno]]); [by exists id, c, c2, c3, x|].
  destruct (Hres _ _ _ Hx Hne) as (y & c3 & Hy). by destruct (Hno _ _ Hy).
Qed.

Example C72_example :
  (exists x, holds_flow (ex_managers ex_bad_request) x "c" (Some "missing"%string)) /\
  (forall y c2, ~ holds_flow (ex_managers ex_bad_request) y "missing" c2) /\
  (forall y c2, holds_flow (ex_managers ex_bad_request) y "c" c2 -> c2 = Some "missing"%string) /\
  resolved (ex_managers ex_request) /\ (exists x, holds_flow (ex_managers ex_request) x "a" (Some "b"%string)).
Proof.
  split; [exact ex_bad_held|]. split; [intros y c2 H; destruct (ex_bad_only _ _ _ H) as [E _]; discriminate E|].
  split; [intros y c2 H; exact (proj2 (ex_bad_only _ _ _ H))|]. exact (conj ex_request_resolved ex_request_pair).
Qed.

Print Assumptions C72_refuted.
Print Assumptions C72_resolved.

(** ** C80: one manager for each source *)

(** Managers are kept by source name: of two sources that differ only in type
    one gets no manager, and its records are never published. *)
Theorem C80_refuted : exists parse types es data, (forall z, env_ok (es z)) /\ forall ms,
  managers_of (stores_for parse types es data) ms ->
  exists src s, stores_for parse types es data !! src = Some s /\ forall n, ms !! n <> Some s.
Proof.
  exists ex_parse, [FlowRecord], (fun _ => at_time 1), ex_shared. split; [intros z; apply at_time_ok|]. exact ex_shared_lost.
Qed.

(** If no two sources share a name, each has its own. *)
Theorem C80_distinct ss ms src : managers_of ss ms ->
  (forall a b, is_Some (ss !! a) -> is_Some (ss !! b) -> sr_name a = sr_name b -> a = b) ->
  is_Some (ss !! src) -> ms !! sr_name src = ss !! src.
Proof. exact (managers_distinct ss ms src). Qed.

(** In any case every manager has the store of a source with its name, and
    every source's name has a manager. *)
Theorem C80_named ss ms : managers_of ss ms ->
  (forall n s, ms !! n = Some s -> exists src, ss !! src = Some s /\ sr_name src = n) /\
  (forall src s, ss !! src = Some s -> is_Some (ms !! sr_name src)).
Proof. exact (fun H => conj (fun n s => managers_known ss ms n s H) (fun src s => managers_all ss ms src s H)). Qed.

Example C80_example : managers_of (stores_for ex_parse [FlowRecord] (fun _ => at_time 1) ex_shared) (ex_managers ex_shared) /\
  exists s1 s2, stores_for ex_parse [FlowRecord] (fun _ => at_time 1) ex_shared !! ex_source "ROUTER" "r1" = Some s1 /\
  stores_for ex_parse [FlowRecord] (fun _ => at_time 1) ex_shared !! ex_source "CONTROLLER" "r1" = Some s2 /\ s1 <> s2.
Proof. exact (conj (ex_managers_of ex_shared) ex_shared_stores). Qed.

Print Assumptions C80_refuted.
Print Assumptions C80_distinct.
Print Assumptions C80_named.

(** ** C81: replayed flows *)

(** The identities of the flows made from one that was captured: "id:0", "id:1", ... *)
Definition flow_id (id : string) (i : nat) : string := String.append id (String.append ":" (pretty i)).

(** On each side, each of the flows is published once as a new record and then
    changed [n] times, each update giving the record before it as its
    predecessor. *)
Theorem C81_life d p flows n l sd i : fake_flow d p true true flows n = Ok l -> i < Z.to_nat flows ->
  exists f fs, about (flow_id (drawn d sd) i) (published_to sd l) = life f fs /\ length fs = n /\
    (forall j g h, (f :: fs) !! j = Some g -> fs !! j = Some h ->
       rf_id h = rf_id g /\ rf_start h = rf_start g /\ rf_parent h = rf_parent g /\ rf_counter h = rf_counter g /\
       rf_host h = rf_host g /\ rf_port h = rf_port g /\ rf_trace h = rf_trace g /\
       (rf_end h <> None <-> S j = n)) /\ rf_end f = None.
Proof. exact (replay_steps d p flows n l sd i). Qed.

(** A server flow starts with the data of the recorded one and names the
    client flow of the same number, which starts with the data of its. *)
Theorem C81_first d p flows n l i : fake_flow d p true true flows n = Ok l -> i < Z.to_nat flows ->
  exists s c f fs g gs, e_rec (fp_server p) = Some (VRec true FlowRecord s) /\ e_rec (fp_client p) = Some (VRec true FlowRecord c) /\
    about (flow_id (dr_srv d) i) (published_to Srv l) = life f fs /\ about (flow_id (dr_cli d) i) (published_to Cli l) = life g gs /\
    rf_counter f = Some (rf_id g) /\ rf_counter g = None /\
    rf_parent f = fl_parent s /\ rf_host f = fl_host s /\ rf_port f = fl_port s /\ rf_trace f = fl_trace s /\
    rf_octets f = default 0%N (fl_octets s) /\
    rf_parent g = fl_parent c /\ rf_host g = fl_host c /\ rf_port g = fl_port c /\ rf_octets g = default 0%N (fl_octets c).
Proof. exact (replay_first d p flows n l i). Qed.

(** Nothing else is published. *)
Theorem C81_count d p flows n l sd : fake_flow d p true true flows n = Ok l ->
  length (published_to sd l) = Z.to_nat flows * (1 + n) /\
  forall u, u ∈ published_to sd l -> exists i r, i < Z.to_nat flows /\ ru_curr u = Some r /\ vrec_identity r = flow_id (drawn d sd) i.
Proof. exact (fun H => conj (replay_count d p flows n l sd H) (replay_ids d p flows n l sd H)). Qed.

(** While the sums fit in 64 bits, octets grow by their (i+1)-th part. *)
Theorem C81_octets d p flows n l sd i : fake_flow d p true true flows n = Ok l -> i < Z.to_nat flows ->
  exists f fs, about (flow_id (drawn d sd) i) (published_to sd l) = life f fs /\
    forall j g h, (f :: fs) !! j = Some g -> fs !! j = Some h ->
      (rf_octets g + rf_octets g / N.of_nat (i + 1) < 2 ^ 64)%N ->
      rf_octets h = (rf_octets g + rf_octets g / N.of_nat (i + 1))%N /\ (rf_octets g <= rf_octets h)%N.
Proof. exact (replay_octets d p flows n l sd i). Qed.

(** Otherwise they wrap around: a flow of 2^63 octets goes back to none. *)
Theorem C81_octets_refuted : exists d p l f fs, fake_flow d p true true 1 4 = Ok l /\
  about (flow_id (drawn d Srv) 0) (published_to Srv l) = life f fs /\ rf_octets f = (2 ^ 63)%N /\ rf_octets <$> head fs = Some 0%N.
Proof. exact ex_wraps. Qed.

Example C81_example : exists l, fake_flow (ex_draw 0) (FlowPair (ex_pair_entry "a" (Some "b"%string) 10) (ex_pair_entry "b" None 20)) true true 2 4 = Ok l /\
  length l = 20.
Proof. eexists. split; [vm_compute; reflexivity|reflexivity]. Qed.

Print Assumptions C81_life.
Print Assumptions C81_first.
Print Assumptions C81_count.
Print Assumptions C81_octets.
Print Assumptions C81_octets_refuted.

(** ** C82: a negative number of flows *)

(** A POST that asks for a negative number of flows crashes the process if any
    flow names a counterflow. *)
Theorem C82_refuted parse types data es0 ms e es ds flows x id c :
  (forall z, env_ok (es0 z)) -> managers_of (stores_for parse types es0 data) ms -> env_ok e -> (forall n, env_ok (es n)) ->
  holds_flow ms x id (Some c) -> c <> ""%string -> (flows < 0)%Z ->
  post_flows e es ds ms flows = Panic.
Proof.
  exact (fun H0 Hm He Hes Hx Hc Hf => post_negative e es ds ms flows x id c He Hes (fixture_managers_ok _ _ _ _ _ H0 Hm) Hx Hc Hf).
Qed.

(** With no such flow it does not, whatever the number. *)
Theorem C82_no_flows parse types data es0 ms e es ds flows :
  (forall z, env_ok (es0 z)) -> managers_of (stores_for parse types es0 data) ms -> env_ok e -> (forall n, env_ok (es n)) ->
  (forall x id c, holds_flow ms x id (Some c) -> c = ""%string) ->
  post_flows e es ds ms flows = Ok [].
Proof.
  intros H0 Hm He Hes Hno. destruct (flow_pairs_spec e es ms He Hes (fixture_managers_ok _ _ _ _ _ H0 Hm)) as (ps & Hps & Hsnd & _).
  unfold post_flows. rewrite Hps. destruct ps as [|p ps]; [reflexivity|].
  destruct (Hsnd p) as (id & c & x & Hne & Hx & _); [left|]. by destruct Hne; eapply Hno.
Qed.

Example C82_example : exists x, holds_flow (ex_managers ex_request) x "a" (Some "b"%string).
Proof. exact ex_request_pair. Qed.

Print Assumptions C82_refuted.
Print Assumptions C82_no_flows.
