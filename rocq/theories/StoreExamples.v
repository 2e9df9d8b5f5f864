(** Witnesses and counterexamples for the store properties. *)
From Coq Require Import ZArith NArith Ascii String Lia.
From stdpp Require Import base gmap strings list sorting.
From Verif Require Import GoBase Encoding SpecEncoding CodecExamples Records Messages SpecMessages MessageFacts
  AccumFacts Env SyncMap SyncMapFacts Tokens TokenFacts Cache SpecStore StoreFacts StoreLemmas ListFacts
  EventFacts HistFacts.

Local Open Scope list_scope.
Local Opaque vanflow_registry builtin_types record_types Encode Decode.

(** The default store with all handlers installed. *)
Definition ex_cf : config := new_config None None true true true.

Lemma ex_cf_usual : usual_key ex_cf.
Proof. done. Qed.
Lemma ex_cf_observing : observing ex_cf.
Proof. done. Qed.

Definition at_time (t : Z) : env := plain_env (GoTime t 0).
Lemma at_time_ok t : env_ok (at_time t).
Proof. apply plain_env_ok. Qed.

Definition ex_src : source_ref := SourceRef "flow/v1" "ROUTER" "r1".
Definition ex_entry (id name : string) : entry :=
  Entry (Metadata (SourceRef "flow/v1" "ROUTER" name) zero_time ∅) (TypeMeta api_version "SiteRecord")
        (Some (ex_site id)).

Lemma ex_entry_good id name : good_entry good_record (ex_entry id name).
Proof. exists (ex_site id). split; [reflexivity|apply ex_site_good]. Qed.

(** Two sites, one of them updated, one deleted and added again. *)
Definition ex_history : list (env * op) :=
  [(at_time 1, OAdd (ex_entry "s1" "r1")); (at_time 2, OAdd (ex_entry "s2" "r1"));
   (at_time 3, OUpdate (ex_entry "s1" "r2") None); (at_time 4, ODelete (ex_entry "s2" "r1"));
   (at_time 5, OAdd (ex_entry "s2" "r3"))].

Lemma ex_history_ok : envs_ok ex_history.
Proof. repeat constructor; apply at_time_ok. Qed.

Lemma ex_history_good : good_ops ex_history.
Proof. repeat constructor; apply ex_entry_good. Qed.

Lemma ex_history_results : (run ex_cf ex_history).1.2 = replicate 5 (OutErr None).
Proof. vm_compute. reflexivity. Qed.

Lemma ex_reachable : reachable ex_cf (state_after ex_cf ex_history).
Proof. exists ex_history. split; [apply ex_history_ok|reflexivity]. Qed.

Definition stored (id : string) (name : string) (t v : Z) : entry * Z :=
  (with_updated (GoTime t 0) (ex_entry id name), v).

Lemma ex_contents :
  contents (state_after ex_cf ex_history) !! "s1"%string = Some (stored "s1" "r2" 3 2) /\
  contents (state_after ex_cf ex_history) !! "s2"%string = Some (stored "s2" "r3" 5 1) /\
  contents (state_after ex_cf ex_history) !! "s3"%string = None.
Proof. split; [|split]; vm_compute; reflexivity. Qed.

Lemma ex_distinct : distinct_stored ex_cf (contents (state_after ex_cf ex_history)).
Proof.
  apply well_keyed_distinct; [apply ex_cf_usual|].
  apply well_keyed_after; [apply ex_cf_usual|apply ex_history_ok|apply ex_history_good].
Qed.

Lemma ex_faithful : faithful ex_history (run ex_cf ex_history).1.2.
Proof.
  rewrite ex_history_results. split; [repeat constructor; cbn; tauto|].
  simpl. repeat constructor; discriminate.
Qed.

(** Indexes of the default store. *)
Lemma ex_indexers : cf_indexers ex_cf !! index_by_source = Some source_index /\
  cf_indexers ex_cf !! index_by_site = Some site_index /\ cf_indexers ex_cf !! "type"%string = None.
Proof. split; [|split]; reflexivity. Qed.

(** ** ETags *)

Definition ex_tag : string := make_etag 1 1.

(** After deleting and adding again an old ETag matches again. *)
Lemma aba : exists s1 s2,
  s1 = state_after ex_cf [(at_time 1, OAdd (ex_entry "s1" "r1"))] /\
  s2 = state_after ex_cf [(at_time 1, OAdd (ex_entry "s1" "r1")); (at_time 2, ODelete (ex_entry "s1" "r1"));
                          (at_time 3, OAdd (ex_entry "s1" "r2"))] /\
  get ex_cf s1 (ex_entry "s1" "") = OutSingle (Some (with_updated (GoTime 1 0) (ex_entry "s1" "r1"), ex_tag)) None /\
  (exists tag, get ex_cf s2 (ex_entry "s1" "") =
     OutSingle (Some (with_updated (GoTime 3 0) (ex_entry "s1" "r2"), tag)) None) /\
  (run_op ex_cf (at_time 4) s2 (OUpdate (ex_entry "s1" "r3") (Some ex_tag))).1.2 = OutErr None.
Proof.
  eexists _, _. split; [reflexivity|]. split; [reflexivity|]. split; [vm_compute; reflexivity|].
  split; [eexists; vm_compute; reflexivity|]. vm_compute. reflexivity.
Qed.

(** The hypotheses of the If-Match theorem: a write intervenes, the key stays. *)
Lemma ex_if_match :
  get ex_cf (state_after ex_cf (take 2 ex_history)) (ex_entry "s1" "") =
    OutSingle (Some (with_updated (GoTime 1 0) (ex_entry "s1" "r1"), ex_tag)) None /\
  Forall (fun s' => is_Some (contents s' !! "s1"%string))
    (states ex_cf (state_after ex_cf (take 2 ex_history)) (drop 2 ex_history)) /\
  (run_op ex_cf (at_time 6) (run_from ex_cf (state_after ex_cf (take 2 ex_history)) (drop 2 ex_history)).1.1
     (OUpdate (ex_entry "s1" "r3") (Some ex_tag))).1.2 <> OutErr None.
Proof.
  split; [vm_compute; reflexivity|]. split.
  - assert (forallb (fun s' => match contents s' !! "s1"%string with Some _ => true | None => false end)
      (states ex_cf (state_after ex_cf (take 2 ex_history)) (drop 2 ex_history)) = true) as H
      by (vm_compute; reflexivity).
    apply Forall_forall. intros s' Hs'. rewrite forallb_forall in H. specialize (H s').
    rewrite <- elem_of_list_In in H. specialize (H Hs'). destruct (contents s' !! "s1"%string); [eauto|discriminate].
  - vm_compute. discriminate.
Qed.

Lemma token_wraps : decode_continue (make_continue 0 (2^31)) = Some (- 2^31)%Z.
Proof. vm_compute. reflexivity. Qed.

Lemma ex_tokens : decode_etag "" = None /\ decode_etag "AAAA" = None /\ decode_etag "!" = None /\
  decode_continue "AAAA" = None /\ decode_etag (make_etag 7 1700000000) = Some (7, 1700000000)%Z.
Proof. repeat split; vm_compute; reflexivity. Qed.

(** ** Listing *)

Lemma ex_list :
  (run_op ex_cf (at_time 9) (state_after ex_cf ex_history) (OList (Some (Selector 0 0 "" Descending)))).1.2 =
  OutSet [(stored "s2" "r3" 5 1).1; (stored "s1" "r2" 3 2).1] "" None.
Proof. vm_compute. reflexivity. Qed.

Lemma ex_pages : page_through ex_cf (state_after ex_cf ex_history) [at_time 9; at_time 10] (Selector 0 1 "" Ascending) =
  Some [[(stored "s1" "r2" 3 2).1]; [(stored "s2" "r3" 5 1).1]].
Proof. vm_compute. reflexivity. Qed.

Lemma list_crashes :
  (run_op ex_cf (at_time 9) (state_after ex_cf ex_history) (OList (Some (Selector (-1) 0 "" Ascending)))).1.2 = OutPanic /\
  (run_op ex_cf (at_time 9) (state_after ex_cf ex_history)
     (OList (Some (Selector 0 5 (make_continue 0 (2^31)) Ascending)))).1.2 = OutPanic.
Proof. split; vm_compute; reflexivity. Qed.

(** ** Events *)

Lemma replace_silent :
  (run ex_cf [(at_time 1, OReplace [ex_entry "s1" "r1"])]).1.2 = [OutErr None] /\
  (run ex_cf [(at_time 1, OReplace [ex_entry "s1" "r1"])]).2 = [] /\
  contents (state_after ex_cf [(at_time 1, OReplace [ex_entry "s1" "r1"])]) !! "s1"%string = Some (ex_entry "s1" "r1", 1%Z).
Proof. repeat split; vm_compute; reflexivity. Qed.

Lemma no_id_unencodable a : Encode vanflow_registry (vrec_any (ex_site "")) <> EncOk a.
Proof. intros H. destruct (good_identity (ex_site "") a (ex_site_good "") H) as [_ Hne]. apply Hne. reflexivity. Qed.

(** A record without identity is stored once; accumulating it again fails, and
    reports an addition. *)
Lemma failing_accumulate_event : exists s1 ev1 p,
  run_op ex_cf (at_time 1) new_simap (OAccumulate ex_src (Some (ex_site ""))) = (s1, OutErr None, ev1) /\
  run_op ex_cf (at_time 2) s1 (OAccumulate ex_src (Some (ex_site ""))) =
    (s1, OutErr (Some (SPatch p)), [EvAdd zero_entry]).
Proof.
  destruct (accumulate_first ex_cf (at_time 1) new_simap ex_src (ex_site "") "") as (s1 & Hrun & Hc);
    [reflexivity|rewrite contents_new; apply lookup_empty|].
  destruct (accumulate_fails ex_cf (at_time 2) s1 ex_src (ex_site "") ""
    (Entry (Metadata ex_src (GoTime 1 0) ∅) (vrec_meta (ex_site "")) (Some (ex_site ""))) 1%Z (ex_site "")) as [p Hp].
  - apply at_time_ok.
  - reflexivity.
  - rewrite Hc. unfold put. rewrite lookup_insert. rewrite contents_new. reflexivity.
  - reflexivity.
  - apply ex_site_good.
  - apply ex_site_good.
  - left. apply no_id_unencodable.
  - eexists s1, _, p. split; [exact Hrun|exact Hp].
Qed.

(** ** Accumulation *)

(** The same site with its provider cleared and its name changed. *)
Definition ex_site2 : vrec :=
  VRec false SiteRecord (VStruct [VStruct [VStr "s1"; VPtr None; VPtr None];
    VPtr None; VPtr None; VPtr None; VPtr None; VPtr (Some (VStr "west")); VPtr None; VPtr None]).
Definition ex_router : vrec :=
  VRec true RouterRecord (VStruct [VStruct [VStr "s1"; VPtr None; VPtr None];
    VPtr None; VPtr None; VPtr None; VPtr None; VPtr None; VPtr None; VPtr (Some (VStr "east")); VPtr None]).

Local Transparent record_types.
Lemma ex_site2_good : good_record ex_site2.
Proof.
  eexists _, _, _. split; [reflexivity|]. split; [reflexivity|]. split; [apply elem_of_list_here|].
  split; [cbn; tauto|]. intros f v t Hl E. exfalso. leaves Hl; discriminate E.
Qed.
Lemma ex_router_good : good_record ex_router.
Proof.
  eexists _, _, _. split; [reflexivity|]. split; [reflexivity|]. split; [apply elem_of_list_further, elem_of_list_here|].
  split; [cbn; tauto|]. intros f v t Hl E. exfalso. leaves Hl; discriminate E.
Qed.

Local Opaque record_types.

(** The attributes of a record. *)
Definition attrs_of (r : vrec) : attrset :=
  match Encode vanflow_registry (vrec_any r) with EncOk a => a | _ => ∅ end.

Lemma attrs_of_ok r : bool_decide (attrs_of r = ∅) = false ->
  Encode vanflow_registry (vrec_any r) = EncOk (attrs_of r).
Proof. unfold attrs_of. intros H. destruct (Encode _ _); [done|by rewrite bool_decide_eq_false in H..]. Qed.

Definition attr_test (r : vrec) (c : N) (x : option attr) : bool := bool_decide (attrs_of r !! KU32 c = x).

Lemma ex_encodes : Encode vanflow_registry (vrec_any (ex_site "s1")) = EncOk (attrs_of (ex_site "s1")) /\
  Encode vanflow_registry (vrec_any ex_site2) = EncOk (attrs_of ex_site2) /\
  Encode vanflow_registry (vrec_any ex_router) = EncOk (attrs_of ex_router).
Proof. split; [|split]; apply attrs_of_ok; vm_compute; reflexivity. Qed.

Lemma ex_attrs :
  attrs_of (ex_site "s1") !! KU32 10 = Some (AStr "aws") /\ attrs_of ex_site2 !! KU32 10 = None /\
  attrs_of (ex_site "s1") !! KU32 30 = Some (AStr "east") /\ attrs_of ex_site2 !! KU32 30 = Some (AStr "west") /\
  attrs_of (ex_site "s1") !! KU32 0 = Some (AU32 0) /\ attrs_of ex_router !! KU32 0 = Some (AU32 1).
Proof.
  assert (attr_test (ex_site "s1") 10 (Some (AStr "aws")) && attr_test ex_site2 10 None &&
    attr_test (ex_site "s1") 30 (Some (AStr "east")) && attr_test ex_site2 30 (Some (AStr "west")) &&
    attr_test (ex_site "s1") 0 (Some (AU32 0)) && attr_test ex_router 0 (Some (AU32 1)) = true) as H
    by (vm_compute; reflexivity).
  unfold attr_test in H. rewrite !andb_true_iff, !bool_decide_eq_true in H. tauto.
Qed.
Local Opaque attrs_of.

Definition ex_calls2 : list acc_call :=
  [(at_time 1, (ex_src, ex_site "s1", attrs_of (ex_site "s1"))); (at_time 2, (zero_source, ex_site2, attrs_of ex_site2))].

Lemma ex_acc_ok : acc_ok ex_cf "s1" SiteRecord ex_calls2.
Proof.
  destruct ex_encodes as (E1 & E2 & _). unfold ex_calls2, acc_ok.
  apply Forall_cons; split; [|apply Forall_cons; split; [|constructor]].
  - split; [apply at_time_ok|]. split; [apply ex_site_good|]. split; [reflexivity|]. split; [reflexivity|exact E1].
  - split; [apply at_time_ok|]. split; [apply ex_site2_good|]. split; [reflexivity|]. split; [reflexivity|exact E2].
Qed.

(** A cleared field keeps its old value. *)
Lemma reset_lost : exists s evs x r v,
  run ex_cf [(at_time 1, OAccumulate ex_src (Some (ex_site "s1"))); (at_time 2, OAccumulate ex_src (Some ex_site2))] =
    (s, [OutErr None; OutErr None], evs) /\
  contents s !! "s1"%string = Some (x, v) /\ e_rec x = Some r /\
  attrs_of ex_site2 !! KU32 10 = None /\ attrs_of r !! KU32 10 = Some (AStr "aws") /\
  attrs_of r !! KU32 30 = Some (AStr "west").
Proof.
  destruct ex_attrs as (H1 & H2 & H3 & H4 & _).
  destruct (accumulate_all ex_cf "s1" SiteRecord (at_time 1) ex_src (ex_site "s1") (attrs_of (ex_site "s1"))
    [(at_time 2, (ex_src, ex_site2, attrs_of ex_site2))] new_simap)
    as (s & evs & x & r & v & Hrun & Hx & Hr & _ & _ & He & _).
  - rewrite contents_new. apply lookup_empty.
  - pose proof ex_acc_ok as Hok. unfold ex_calls2, acc_ok in *. apply Forall_cons in Hok as [Ha Hb].
    apply Forall_cons in Hb as [Hb _]. apply Forall_cons; split; [exact Ha|]. apply Forall_cons; split; [exact Hb|constructor].
  - exists s, evs, x, r, v. split; [exact Hrun|]. split; [exact Hx|]. split; [exact Hr|]. split; [exact H2|].
    Local Transparent attrs_of. unfold attrs_of at 1 2. rewrite He. Local Opaque attrs_of.
    unfold overridden. cbn [foldl]. split.
    + apply lookup_union_Some_raw. right. split; [exact H2|exact H1].
    + apply lookup_union_Some_raw. left. exact H4.
Qed.

(** A router accumulated over a site. *)
Lemma type_drifts : exists s evs x r v,
  run ex_cf [(at_time 1, OAccumulate ex_src (Some (ex_site "s1"))); (at_time 2, OAccumulate ex_src (Some ex_router))] =
    (s, [OutErr None; OutErr None], evs) /\
  contents s !! "s1"%string = Some (x, v) /\ e_rec x = Some r /\
  vr_type r = RouterRecord /\ e_tm x = TypeMeta "flow/v1" "SiteRecord" /\ vrec_meta r = TypeMeta "flow/v1" "RouterRecord".
Proof.
  destruct ex_encodes as (E1 & _ & E3). destruct ex_attrs as (_ & _ & _ & _ & A1 & A3).
  destruct (accumulate_first ex_cf (at_time 1) new_simap ex_src (ex_site "s1") "s1") as (s1 & Hrun1 & Hc1);
    [reflexivity|rewrite contents_new; apply lookup_empty|].
  destruct (accumulate_more ex_cf (at_time 2) s1 ex_src ex_router (attrs_of ex_router) "s1"
    (Entry (Metadata ex_src (GoTime 1 0) ∅) (vrec_meta (ex_site "s1")) (Some (ex_site "s1"))) 1%Z
    (ex_site "s1") (attrs_of (ex_site "s1"))) as [_ H2].
  - apply at_time_ok.
  - reflexivity.
  - rewrite Hc1. unfold put. rewrite lookup_insert. rewrite contents_new. reflexivity.
  - reflexivity.
  - apply ex_site_good.
  - exact E1.
  - apply ex_router_good.
  - exact E3.
  - destruct H2 as (s' & r' & a' & Hrun & Hc & Hg & Hp & Ht & _).
    { intros Hs. pose proof (lookup_weaken _ _ _ _ A3 Hs) as Hs'. rewrite A1 in Hs'. discriminate. }
    eexists s', _, _, r', _. split.
    { unfold run. cbn [run_from]. rewrite Hrun1. rewrite Hrun. reflexivity. }
    split; [rewrite Hc; unfold put; apply lookup_insert|]. split; [reflexivity|]. split; [exact Ht|].
    split; [vm_compute; reflexivity|]. unfold vrec_meta. rewrite Ht. vm_compute. reflexivity.
Qed.

Lemma ex_typed : typed_ops ex_cf (fun _ => SiteRecord)
  [(at_time 1, OAccumulate ex_src (Some (ex_site "s1"))); (at_time 2, OAccumulate ex_src (Some ex_site2));
   (at_time 3, OAdd (ex_entry "s2" "r1"))].
Proof.
  apply Forall_cons; split; [|apply Forall_cons; split; [|apply Forall_cons; split; [|constructor]]].
  - exists (ex_site "s1"). split; [reflexivity|]. split; [apply ex_site_good|]. intros; reflexivity.
  - exists ex_site2. split; [reflexivity|]. split; [apply ex_site2_good|]. intros; reflexivity.
  - exists (ex_site "s2"). split; [reflexivity|]. split; [apply ex_site_good|]. split; [vm_compute; reflexivity|].
    intros; reflexivity.
Qed.

(** ** Sources *)

Lemma source_collision : exists s t, s <> t /\ source_string s = source_string t.
Proof. exists (SourceRef "a" "b.c" "d"), (SourceRef "a" "b" "c.d"). split; [discriminate|reflexivity]. Qed.

Lemma source_index_mixes : exists x y e,
  m_source (e_meta x) <> m_source (e_meta y) /\ env_ok e /\
  (run_op ex_cf e (state_after ex_cf [(e, OReplace [y])]) (OIndex "source" x None)).1.2 = OutSet [y] "" None.
Proof.
  exists (Entry (Metadata (SourceRef "a" "b.c" "d") zero_time ∅) (TypeMeta "" "") None),
    (Entry (Metadata (SourceRef "a" "b" "c.d") zero_time ∅) (TypeMeta "" "") (Some (ex_site "s1"))), (at_time 0).
  split; [discriminate|]. split; [apply at_time_ok|]. vm_compute. reflexivity.
Qed.

(** ** More witnesses *)

Lemma ex_failures :
  failed (run_op ex_cf (at_time 9) (state_after ex_cf ex_history) (OAdd (ex_entry "s1" "r9"))).1.2 /\
  failed (run_op ex_cf (at_time 9) (state_after ex_cf ex_history) (OUpdate (ex_entry "s1" "r9") (Some ex_tag))).1.2 /\
  failed (run_op ex_cf (at_time 9) (state_after ex_cf ex_history) (OReplace [zero_entry])).1.2.
Proof. vm_compute. split; [eexists; reflexivity|]. split; [eexists; reflexivity|exact I]. Qed.

Lemma ex_values :
  (run_op ex_cf (at_time 9) (state_after ex_cf ex_history) (OIndexValues "source")).1.2 =
  OutValues ["flow/v1.ROUTER.r2"; "flow/v1.ROUTER.r3"]%string None.
Proof. vm_compute. reflexivity. Qed.

Lemma ex_effective : exists off, effective (Selector 0 5 (make_continue 0 (2^31)) Ascending) off /\ (off < 0)%Z.
Proof.
  exists (- 2^31)%Z. split; [|reflexivity]. right. split; [apply make_continue_ne|]. exact token_wraps.
Qed.

Lemma ex_replace :
  contents (run_op ex_cf (at_time 9) (state_after ex_cf ex_history)
    (OReplace [ex_entry "s1" "r7"; ex_entry "s4" "r7"; ex_entry "s1" "r8"])).1.1 !! "s1"%string = Some (ex_entry "s1" "r8", 3%Z).
Proof. vm_compute. reflexivity. Qed.

Lemma ex_c27 : acc_ok ex_cf "s1" SiteRecord ex_calls2 /\
  attrs_of (ex_site "s1") !! KU32 30 = Some (AStr "east") /\ attrs_of ex_site2 !! KU32 30 = Some (AStr "west").
Proof. destruct ex_attrs as (_ & _ & H3 & H4 & _). split; [exact ex_acc_ok|]. split; [exact H3|exact H4]. Qed.

Lemma ex_c28 :
  good_record (ex_site "s1") /\ Encode vanflow_registry (vrec_any (ex_site "s1")) = EncOk (attrs_of (ex_site "s1")) /\
  cf_key ex_cf (bare (ex_site "s1")) = Ok "s1"%string /\
  exists s1 ev, run_op ex_cf (at_time 1) new_simap (OAccumulate ex_src (Some (ex_site "s1"))) = (s1, OutErr None, ev) /\ ev <> [].
Proof.
  split; [apply ex_site_good|]. split; [apply ex_encodes|]. split; [reflexivity|].
  destruct (accumulate_first ex_cf (at_time 1) new_simap ex_src (ex_site "s1") "s1") as (s1 & Hrun1 & _);
    [reflexivity|rewrite contents_new; apply lookup_empty|].
  eexists _, _. split; [exact Hrun1|discriminate].
Qed.

Lemma ex_c29 : good_record (ex_site "s1") /\ good_record ex_site2 /\
  vr_type (ex_site "s1") = vr_type ex_site2 /\
  attrs_of (ex_site "s1") !! KU32 10 = Some (AStr "aws") /\ attrs_of ex_site2 !! KU32 10 = None.
Proof.
  destruct ex_attrs as (H1 & H2 & _). split; [apply ex_site_good|]. split; [apply ex_site2_good|].
  split; [reflexivity|]. split; [exact H1|exact H2].
Qed.

Lemma ex_c34 : reachable ex_cf (state_after ex_cf ex_history) /\
  cf_indexers ex_cf !! index_by_source = Some source_index /\
  dot_free (sr_api ex_src) /\ dot_free (sr_type ex_src).
Proof. split; [exact ex_reachable|]. split; [reflexivity|]. split; cbn; repeat split; discriminate. Qed.
