(** Concrete histories and requests for the tool. *)
From Coq Require Import ZArith NArith Ascii String Lia.
From stdpp Require Import base gmap strings list pretty.
From Verif Require Import GoBase Encoding SpecEncoding EncodingFacts Records Messages SpecMessages MessageFacts AccumFacts
  Env SyncMap Tokens Cache SpecStore StoreFacts StoreLemmas ListFacts EventFacts HistFacts StoreExamples Dispatch DispatchFacts Diff
  Tool ToolFacts ReplayFacts.

Local Open Scope list_scope.

(** ** Collecting *)

Local Opaque vanflow_registry builtin_types record_types Encode Decode attrs_of.

Definition ex_collected : list (env * op) :=
  [(at_time 1, OAccumulate ex_src (Some (ex_site "s1"))); (at_time 2, OAccumulate ex_src (Some ex_router))].
Definition ex_named : entry := Entry zero_meta (vrec_meta (ex_site "s1")) (Some (ex_site "s1")).
(** As Get without the type finds it. *)
Definition ex_untyped : entry := Entry zero_meta (TypeMeta "" "") (Some (ex_site "s1")).

Lemma ex_collected_usable : usable_history ex_collected.
Proof.
  destruct ex_encodes as (E1 & _ & E3). split; [repeat constructor; apply at_time_ok|]. split; [repeat constructor|].
  intros e src p Hin. unfold ex_collected in Hin. apply elem_of_cons in Hin as [[= -> -> ->]|Hin].
  - eexists _, _. split; [reflexivity|]. split; [apply ex_site_good|exact E1].
  - apply elem_of_list_singleton in Hin as [= -> -> ->]. eexists _, _. split; [reflexivity|]. split; [apply ex_router_good|exact E3].
Qed.

Local Transparent record_types.
Lemma ex_named_names : names ex_named SiteRecord "s1".
Proof. split; [vm_compute; reflexivity|]. exists (ex_site "s1"). split; reflexivity. Qed.
Lemma ex_router_meta : get_type_meta RouterRecord = Some (vrec_meta ex_router).
Proof. vm_compute. reflexivity. Qed.
Local Opaque record_types.

Lemma ex_received_as : received_as "s1" ex_collected = [ex_site "s1"; ex_router].
Proof. vm_compute. reflexivity. Qed.

(** The label of the colliding entry. *)
Lemma ex_mislabelled : exists k x v, contents (state_after fixture_config ex_collected) !! k = Some (x, v) /\
  e_tm x = TypeMeta "flow/v1" "SiteRecord" /\ exists r, e_rec x = Some r /\ vr_type r = RouterRecord.
Proof.
  pose proof (collected_labelled ex_collected ex_collected_usable "s1") as H. rewrite ex_received_as in H.
  destruct H as (x & r & la & Hx & Hr & _ & _ & _ & Hla & Htm & Hty). injection Hla as <-.
  unfold entry_at in Hx. destruct (contents _ !! _) as [[x' v]|] eqn:Hc; [|discriminate Hx]. injection Hx as ->.
  exists ("//" ++ "s1")%string, x, v. split; [exact Hc|]. split; [rewrite Htm; vm_compute; reflexivity|]. exists r. exact (conj Hr Hty).
Qed.

(** ** Requests *)

Local Transparent record_types.

Definition ex_flow (id : string) (counter : option string) (octets : N) : goval :=
  VStruct [VStruct [VStr id; VPtr None; VPtr None]; VPtr None; VPtr (VStr <$> counter); VPtr None; VPtr None;
    VPtr (Some (VU64 octets)); VPtr None; VPtr None; VPtr None; VPtr None; VPtr None; VPtr None; VPtr None; VPtr None; VPtr None; VPtr None].

(** A parser that knows four documents. *)
Definition ex_parse : json_parser := fun t raw =>
  if gotype_eqb t FlowRecord then
    if bool_decide (raw = "paired"%string) then Some (ex_flow "a" (Some "b"%string) 10)
    else if bool_decide (raw = "other"%string) then Some (ex_flow "b" None 20)
    else if bool_decide (raw = "dangling"%string) then Some (ex_flow "c" (Some "missing"%string) 10)
    else None
  else None.

Definition ex_source (ty name : string) : source_ref := SourceRef "v1" ty name.
Definition flow_tm : type_meta := TypeMeta "flow/v1" "FlowRecord".
Definition ex_part (src : source_ref) (tm : type_meta) (raw : string) : partial_entry := PartialEntry (Metadata src zero_time ∅) tm raw.

Definition ex_request : list partial_entry :=
  [ex_part (ex_source "ROUTER" "r1") flow_tm "paired"; ex_part (ex_source "ROUTER" "r1") (TypeMeta "flow/v1" "Unheard") "paired";
   ex_part (ex_source "ROUTER" "r2") flow_tm "other"; ex_part (ex_source "ROUTER" "r3") flow_tm "malformed"].
Definition ex_bad_request : list partial_entry := [ex_part (ex_source "ROUTER" "r1") flow_tm "dangling"].

Definition ex_managers (data : list partial_entry) : gmap string items :=
  managers_by_name (map_to_list (stores_for ex_parse [FlowRecord] (fun _ => at_time 1) data)).
Lemma ex_managers_of data : managers_of (stores_for ex_parse [FlowRecord] (fun _ => at_time 1) data) (ex_managers data).
Proof. eexists. split; [reflexivity|reflexivity]. Qed.

Definition ex_draw (_ : nat) : draw := Draw "x" "y" (fun i => GoTime (Z.of_nat i) 0) (fun i => GoTime (Z.of_nat i) 1) (GoTime 9 0).

(** The flows managers hold, as a list. *)
Definition flows_held (ms : gmap string items) : list goval :=
  map_to_list ms ≫= fun '(_, s) => omap (fun '(_, (x, _)) => as_flow (e_rec x)) (map_to_list (contents s)).

Lemma flows_held_spec ms v : v ∈ flows_held ms <-> exists x, holds_flow ms x (fl_id v) (fl_counterflow v) /\ as_flow (e_rec x) = Some v.
Proof.
  unfold flows_held. rewrite elem_of_list_bind. split.
  - intros ([n s] & Hv & Hn). apply elem_of_map_to_list in Hn. apply elem_of_list_omap in Hv as ([k [x w]] & Hk & Hx).
    apply elem_of_map_to_list in Hk. exists x. split; [|done]. exists n, s, k, w, v. apply as_flow_some in Hx. done.
  - intros (x & (n & s & k & w & v' & Hn & Hk & Hr & _) & Hv). exists (n, s). split; [|by apply elem_of_map_to_list].
    apply elem_of_list_omap. exists (k, (x, w)). split; [by apply elem_of_map_to_list|done].
Qed.

(** A check of [resolved]. *)
Definition all_resolved (l : list goval) : bool :=
  forallb (fun v => match fl_counterflow v with
    | Some c => bool_decide (c = ""%string) || existsb (fun w => bool_decide (fl_id w = c)) l
    | None => true end) l.
Lemma all_resolved_ok ms : all_resolved (flows_held ms) = true -> resolved ms.
Proof.
  intros H x id c Hx Hne. destruct (holds_as_flow _ _ _ _ Hx) as (v & Hv & Hid & Hc).
  unfold all_resolved in H. rewrite forallb_forall in H.
  assert (v ∈ flows_held ms) as Hin. { apply flows_held_spec. exists x. rewrite Hid, Hc. done. }
  specialize (H v (proj1 (elem_of_list_In _ _) Hin)). rewrite Hc in H. rewrite bool_decide_eq_false_2 in H by done. cbn in H.
  apply existsb_exists in H as (w & Hw & Ew). apply elem_of_list_In, flows_held_spec in Hw as (y & Hy & _).
  apply bool_decide_eq_true in Ew as <-. eauto.
Qed.

Lemma ex_request_resolved : resolved (ex_managers ex_request).
Proof. apply all_resolved_ok. vm_compute. reflexivity. Qed.

Lemma ex_request_pair : exists x, holds_flow (ex_managers ex_request) x "a" (Some "b"%string).
Proof.
  assert (ex_flow "a" (Some "b"%string) 10 ∈ flows_held (ex_managers ex_request)) as H.
  { assert (flows_held (ex_managers ex_request) = [ex_flow "a" (Some "b"%string) 10; ex_flow "b" None 20] \/
      flows_held (ex_managers ex_request) = [ex_flow "b" None 20; ex_flow "a" (Some "b"%string) 10]) as [E|E]
      by (vm_compute; first [left; reflexivity|right; reflexivity]); rewrite E; repeat constructor. }
  apply flows_held_spec in H as (x & Hx & _). exists x. exact Hx.
Qed.

Lemma ex_bad_held : exists x, holds_flow (ex_managers ex_bad_request) x "c" (Some "missing"%string).
Proof.
  assert (ex_flow "c" (Some "missing"%string) 10 ∈ flows_held (ex_managers ex_bad_request)) as H.
  { assert (flows_held (ex_managers ex_bad_request) = [ex_flow "c" (Some "missing"%string) 10]) as E by (vm_compute; reflexivity).
    rewrite E. repeat constructor. }
  apply flows_held_spec in H as (x & Hx & _). exists x. exact Hx.
Qed.

Lemma ex_bad_only x id c : holds_flow (ex_managers ex_bad_request) x id c -> id = "c"%string /\ c = Some "missing"%string.
Proof.
  intros H. destruct (holds_as_flow _ _ _ _ H) as (v & Hv & Hid & Hc).
  assert (v ∈ flows_held (ex_managers ex_bad_request)) as Hin. { apply flows_held_spec. exists x. rewrite Hid, Hc. exact (conj H Hv). }
  assert (flows_held (ex_managers ex_bad_request) = [ex_flow "c" (Some "missing"%string) 10]) as E by (vm_compute; reflexivity).
  rewrite E in Hin. apply elem_of_list_singleton in Hin. subst v. vm_compute in Hid, Hc. split; congruence.
Qed.

(** Two sources with one name. *)
Definition ex_shared : list partial_entry :=
  [ex_part (ex_source "ROUTER" "r1") flow_tm "paired"; ex_part (ex_source "CONTROLLER" "r1") flow_tm "other"].

Definition has_store (data : list partial_entry) (src : source_ref) : bool :=
  match stores_for ex_parse [FlowRecord] (fun _ => at_time 1) data !! src with Some _ => true | None => false end.
Lemma ex_shared_stores : exists s1 s2, stores_for ex_parse [FlowRecord] (fun _ => at_time 1) ex_shared !! ex_source "ROUTER" "r1" = Some s1 /\
  stores_for ex_parse [FlowRecord] (fun _ => at_time 1) ex_shared !! ex_source "CONTROLLER" "r1" = Some s2 /\ s1 <> s2.
Proof.
  assert (has_store ex_shared (ex_source "ROUTER" "r1") = true) as H1 by (vm_compute; reflexivity).
  assert (has_store ex_shared (ex_source "CONTROLLER" "r1") = true) as H2 by (vm_compute; reflexivity).
  unfold has_store in *.
  destruct (stores_for _ _ _ _ !! ex_source "ROUTER" "r1") as [s1|] eqn:E1; [|discriminate H1].
  destruct (stores_for _ _ _ _ !! ex_source "CONTROLLER" "r1") as [s2|] eqn:E2; [|discriminate H2].
  exists s1, s2. split; [reflexivity|]. split; [reflexivity|]. intros ->.
  assert (match stores_for ex_parse [FlowRecord] (fun _ => at_time 1) ex_shared !! ex_source "ROUTER" "r1" with
    Some s => bool_decide (contents s !! "flow/v1/FlowRecord/a"%string = None) | None => false end = false) as F1 by (vm_compute; reflexivity).
  assert (match stores_for ex_parse [FlowRecord] (fun _ => at_time 1) ex_shared !! ex_source "CONTROLLER" "r1" with
    Some s => bool_decide (contents s !! "flow/v1/FlowRecord/a"%string = None) | None => false end = true) as F2 by (vm_compute; reflexivity).
  rewrite E1 in F1. rewrite E2 in F2. congruence.
Qed.

(** Of these two, one has no manager, whatever the order. *)
Lemma ex_shared_lost ms : managers_of (stores_for ex_parse [FlowRecord] (fun _ => at_time 1) ex_shared) ms ->
  exists src s, stores_for ex_parse [FlowRecord] (fun _ => at_time 1) ex_shared !! src = Some s /\ forall n, ms !! n <> Some s.
Proof.
  intros Hm. destruct ex_shared_stores as (s1 & s2 & H1 & H2 & Hne).
  assert (forall src s, stores_for ex_parse [FlowRecord] (fun _ => at_time 1) ex_shared !! src = Some s ->
    sr_name src = "r1"%string /\ (s = s1 \/ s = s2)) as Honly.
  { intros src s Hsrc.
    assert (forall l, (map_to_list (stores_for ex_parse [FlowRecord] (fun _ => at_time 1) ex_shared)).*1 = l ->
      forallb (fun a => bool_decide (a = ex_source "ROUTER" "r1") || bool_decide (a = ex_source "CONTROLLER" "r1")) l = true) as F.
    { intros l <-. vm_compute. reflexivity. }
    specialize (F _ eq_refl). rewrite forallb_forall in F.
    assert (src ∈ (map_to_list (stores_for ex_parse [FlowRecord] (fun _ => at_time 1) ex_shared)).*1) as Hi.
    { apply elem_of_list_fmap. exists (src, s). split; [reflexivity|]. apply elem_of_map_to_list. exact Hsrc. }
    specialize (F src (proj1 (elem_of_list_In _ _) Hi)). apply orb_true_iff in F as [F|F]; apply bool_decide_eq_true in F; subst src.
    - rewrite H1 in Hsrc. injection Hsrc as <-. split; [reflexivity|left; reflexivity].
    - rewrite H2 in Hsrc. injection Hsrc as <-. split; [reflexivity|right; reflexivity]. }
  assert (forall s t n, ms !! "r1"%string = Some s -> ms !! n = Some t -> t = s) as Hall.
  { intros s t n Hs Ht. destruct (managers_known _ _ _ _ Hm Ht) as (src & Hsrc & <-). destruct (Honly _ _ Hsrc) as [Hn _].
    rewrite Hn in Ht. congruence. }
  destruct (managers_all _ _ _ _ Hm H1) as [s Hs]. change (ms !! "r1"%string = Some s) in Hs.
  destruct (managers_known _ _ _ _ Hm Hs) as (src & Hsrc & _). destruct (Honly _ _ Hsrc) as [_ [-> | ->]].
  - exists (ex_source "CONTROLLER" "r1"), s2. split; [exact H2|]. intros n Hn. apply Hne. symmetry. exact (Hall _ _ _ Hs Hn).
  - exists (ex_source "ROUTER" "r1"), s1. split; [exact H1|]. intros n Hn. apply Hne. exact (Hall _ _ _ Hs Hn).
Qed.

(** Octets. *)
Lemma grow_exact i x : (x + x / N.of_nat (i + 1) < 2 ^ 64)%N -> grow i x = (x + x / N.of_nat (i + 1))%N.
Proof. intros H. unfold grow. by apply N.mod_small. Qed.

Lemma ex_wrap : rf_octets (next_flow None 0 (server_flow (ex_draw 0) 4 (ex_flow "a" (Some "b"%string) (2 ^ 63)) 0)) = 0%N.
Proof. vm_compute. reflexivity. Qed.

Definition ex_pair_entry (id : string) (counter : option string) (octets : N) : entry :=
  Entry (Metadata (ex_source "ROUTER" "r1") zero_time ∅) flow_tm (Some (VRec true FlowRecord (ex_flow id counter octets))).

Lemma ex_wraps : exists d p l f fs, fake_flow d p true true 1 4 = Ok l /\
  about (numbered (drawn d Srv) 0) (published_to Srv l) = life f fs /\ rf_octets f = (2 ^ 63)%N /\ rf_octets <$> head fs = Some 0%N.
Proof.
  set (p := FlowPair (ex_pair_entry "a" (Some "b"%string) (2 ^ 63)) (ex_pair_entry "b" None 20)).
  destruct (fake_flow_ok (ex_draw 0) p (ex_flow "a" (Some "b"%string) (2 ^ 63)) (ex_flow "b" None 20) 1 4) as [l Hl];
    [reflexivity|reflexivity|lia|].
  destruct (replay_life _ _ _ _ _ Srv 0 Hl) as (s & c & Hs & Hc & Hlife); [cbn; lia|].
  injection Hs as <-. injection Hc as <-.
  eexists _, p, l, _, _. split; [exact Hl|]. split; [exact Hlife|]. split; vm_compute; reflexivity.
Qed.

Lemma ex_groups : exists x y, group_by_source ex_parse [FlowRecord] ex_request !! ex_source "ROUTER" "r1" = Some [x] /\
  makes ex_parse [FlowRecord] (ex_part (ex_source "ROUTER" "r1") flow_tm "paired") x /\
  group_by_source ex_parse [FlowRecord] ex_request !! ex_source "ROUTER" "r2" = Some [y] /\ x <> y /\
  group_by_source ex_parse [FlowRecord] ex_request !! ex_source "ROUTER" "r3" = None.
Proof.
  eexists _, _. split; [vm_compute; reflexivity|]. split; [|split; [vm_compute; reflexivity|split; [discriminate|vm_compute; reflexivity]]].
  apply entry_from_spec. vm_compute. reflexivity.
Qed.
