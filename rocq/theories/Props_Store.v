(** The store properties C15-C31 and C34.  The vocabulary is in SpecStore.v;
    [contents] is what a store holds, by key, with versions. *)
From Coq Require Import ZArith NArith Ascii String.
From stdpp Require Import base gmap strings list sorting.
From Verif Require Import SpecTokens B64Facts GoBase Encoding SpecEncoding Records Messages SpecMessages MessageFacts
  Env SyncMap Tokens TokenFacts Cache SpecStore StoreFacts StoreLemmas ListFacts EventFacts HistFacts StoreExamples.

Local Open Scope list_scope.
Local Opaque vanflow_registry builtin_types record_types Encode Decode attrs_of.

(** ** C15: the store behaves like a map *)

Theorem C15_store_is_a_map cf l s rs evs :
  envs_ok l -> run cf l = (s, rs, evs) -> spec_run cf ∅ (timed l) rs (contents s).
Proof. exact (run_refines cf l s rs evs). Qed.

Example C15_example : envs_ok ex_history /\ (run ex_cf ex_history).1.2 = replicate 5 (OutErr None) /\
  contents (state_after ex_cf ex_history) !! "s1"%string = Some (stored "s1" "r2" 3 2) /\
  contents (state_after ex_cf ex_history) !! "s2"%string = Some (stored "s2" "r3" 5 1) /\
  contents (state_after ex_cf ex_history) !! "s3"%string = None.
Proof. split; [exact ex_history_ok|]. split; [exact ex_history_results|exact ex_contents]. Qed.

Print Assumptions C15_store_is_a_map.

(** ** C16: Add succeeds exactly when the key is absent *)

Theorem C16_add_iff_absent cf e s x k :
  reachable cf s -> env_ok e -> cf_key cf x = Ok k ->
  (contents s !! k = None -> exists s', run_op cf e s (OAdd x) =
      (s', OutErr None, if cf_on_add cf then [EvAdd (with_updated (env_now e) x)] else []) /\
    contents s' = <[k := (with_updated (env_now e) x, 1%Z)]> (contents s)) /\
  (is_Some (contents s !! k) -> exists err, run_op cf e s (OAdd x) = (s, OutErr (Some err), [])).
Proof. exact (add_spec cf e s x k). Qed.

Example C16_example : reachable ex_cf (state_after ex_cf ex_history) /\
  cf_key ex_cf (ex_entry "s1" "r9") = Ok "s1"%string /\
  is_Some (contents (state_after ex_cf ex_history) !! "s1"%string) /\
  contents (state_after ex_cf ex_history) !! "s3"%string = None.
Proof.
  split; [exact ex_reachable|]. split; [reflexivity|]. destruct ex_contents as (-> & _ & ?). by split.
Qed.

Print Assumptions C16_add_iff_absent.

(** ** C17: If-Match updates detect every intervening write *)

(** [tag] was returned by a Get for the key of [x]; the key is never absent
    during [h].  Then an Update with that tag succeeds iff at every point of
    [h] a Get would have returned what the first one did. *)
Theorem C17_if_match cf pre h x k tag y x' e :
  envs_ok pre -> envs_ok h -> env_ok e ->
  (Z.of_nat (length pre + length h) < 2^63)%Z ->
  cf_key cf x = Ok k -> cf_key cf x' = Ok k ->
  get cf (state_after cf pre) x = OutSingle (Some (y, tag)) None ->
  Forall (fun s' => is_Some (contents s' !! k)) (states cf (state_after cf pre) h) ->
  (run_op cf e (run_from cf (state_after cf pre) h).1.1 (OUpdate x' (Some tag))).1.2 = OutErr None <->
  Forall (fun s' => get cf s' x = OutSingle (Some (y, tag)) None) (states cf (state_after cf pre) h).
Proof. exact (if_match_spec cf pre h x k tag y x' e). Qed.

Theorem C17_unparseable_rejected cf e s x k tag :
  cf_key cf x = Ok k -> decode_etag tag = None ->
  exists err, run_op cf e s (OUpdate x (Some tag)) = (s, OutErr (Some err), []).
Proof. exact (bad_etag cf e s x k tag). Qed.

(** Without the side condition it fails: after delete and add the old tag of
    another entry matches. *)
Theorem C17_refuted_after_delete : exists s1 s2,
  s1 = state_after ex_cf [(at_time 1, OAdd (ex_entry "s1" "r1"))] /\
  s2 = state_after ex_cf [(at_time 1, OAdd (ex_entry "s1" "r1")); (at_time 2, ODelete (ex_entry "s1" "r1"));
                          (at_time 3, OAdd (ex_entry "s1" "r2"))] /\
  get ex_cf s1 (ex_entry "s1" "") = OutSingle (Some (with_updated (GoTime 1 0) (ex_entry "s1" "r1"), ex_tag)) None /\
  (exists tag, get ex_cf s2 (ex_entry "s1" "") =
     OutSingle (Some (with_updated (GoTime 3 0) (ex_entry "s1" "r2"), tag)) None) /\
  (run_op ex_cf (at_time 4) s2 (OUpdate (ex_entry "s1" "r3") (Some ex_tag))).1.2 = OutErr None.
Proof. exact aba. Qed.

Example C17_example :
  get ex_cf (state_after ex_cf (take 2 ex_history)) (ex_entry "s1" "") =
    OutSingle (Some (with_updated (GoTime 1 0) (ex_entry "s1" "r1"), ex_tag)) None /\
  Forall (fun s' => is_Some (contents s' !! "s1"%string))
    (states ex_cf (state_after ex_cf (take 2 ex_history)) (drop 2 ex_history)) /\
  (run_op ex_cf (at_time 6) (run_from ex_cf (state_after ex_cf (take 2 ex_history)) (drop 2 ex_history)).1.1
     (OUpdate (ex_entry "s1" "r3") (Some ex_tag))).1.2 <> OutErr None.
Proof. exact ex_if_match. Qed.

Print Assumptions C17_if_match.
Print Assumptions C17_unparseable_rejected.
Print Assumptions C17_refuted_after_delete.

(** ** C18: tokens survive their text encoding *)

Theorem C18_etag_round_trip v u :
  (- 2^63 <= v < 2^63)%Z -> (- 2^63 <= u < 2^63)%Z -> decode_etag (make_etag v u) = Some (v, u).
Proof. exact (etag_round_trip v u). Qed.

Theorem C18_continue_round_trip nonce off :
  (- 2^31 <= off < 2^31)%Z -> decode_continue (make_continue nonce off) = Some off.
Proof. exact (continue_round_trip nonce off). Qed.

(** In general the offset comes back modulo 2^32. *)
Theorem C18_continue_wraps nonce off :
  exists k, decode_continue (make_continue nonce off) = Some (off + k * 2^32)%Z /\
    (- 2^31 <= off + k * 2^32 < 2^31)%Z.
Proof. exact (continue_wrap nonce off). Qed.

Theorem C18_refuted_large_offset : decode_continue (make_continue 0 (2^31)) = Some (- 2^31)%Z.
Proof. exact token_wraps. Qed.

(** Exactly the base64 texts (newlines apart) of at least sixteen, or twelve,
    bytes are accepted. *)
Theorem C18_etag_accepted_iff s : is_Some (decode_etag s) <->
  exists n, base64_text (filter (fun c => ~ newline c) (list_ascii_of_string s)) n /\ 16 <= n.
Proof. exact (etag_accepted_iff s). Qed.

Theorem C18_continue_accepted_iff s : is_Some (decode_continue s) <->
  exists n, base64_text (filter (fun c => ~ newline c) (list_ascii_of_string s)) n /\ 12 <= n.
Proof. exact (continue_accepted_iff s). Qed.

Example C18_example : decode_etag "" = None /\ decode_etag "AAAA" = None /\ decode_etag "!" = None /\
  decode_continue "AAAA" = None /\ decode_etag (make_etag 7 1700000000) = Some (7, 1700000000)%Z.
Proof. exact ex_tokens. Qed.

Print Assumptions C18_etag_round_trip.
Print Assumptions C18_continue_round_trip.
Print Assumptions C18_continue_wraps.
Print Assumptions C18_refuted_large_offset.
Print Assumptions C18_etag_accepted_iff.
Print Assumptions C18_continue_accepted_iff.

(** ** C19: a failed operation changes nothing *)

(** The whole state, indexes included. *)
Theorem C19_failure_changes_nothing cf e s o s' r ev :
  run_op cf e s o = (s', r, ev) -> failed r -> s' = s.
Proof. exact (failed_unchanged cf e s o s' r ev). Qed.

Example C19_example :
  failed (run_op ex_cf (at_time 9) (state_after ex_cf ex_history) (OAdd (ex_entry "s1" "r9"))).1.2 /\
  failed (run_op ex_cf (at_time 9) (state_after ex_cf ex_history) (OUpdate (ex_entry "s1" "r9") (Some ex_tag))).1.2 /\
  failed (run_op ex_cf (at_time 9) (state_after ex_cf ex_history) (OReplace [zero_entry])).1.2.
Proof. exact ex_failures. Qed.

Print Assumptions C19_failure_changes_nothing.

(** ** C20: index lookups are exact *)

Theorem C20_index_exact cf e s name f x :
  reachable cf s -> env_ok e -> cf_indexers cf !! name = Some f ->
  exists l, run_op cf e s (OIndex name x None) = (s, OutSet l "" None, []) /\
    enumerates (contents s) (fun y => exists b, b ∈ f x /\ b ∈ f y) l.
Proof. exact (index_exact cf e s name f x). Qed.

Theorem C20_unknown_index cf e s name x sel :
  cf_indexers cf !! name = None ->
  failed (run_op cf e s (OIndex name x sel)).1.2 /\ failed (run_op cf e s (OIndexValues name)).1.2.
Proof. exact (index_unknown cf e s name x sel). Qed.

Example C20_example : reachable ex_cf (state_after ex_cf ex_history) /\
  cf_indexers ex_cf !! index_by_source = Some source_index /\
  cf_indexers ex_cf !! index_by_site = Some site_index /\ cf_indexers ex_cf !! "type"%string = None.
Proof. split; [exact ex_reachable|exact ex_indexers]. Qed.

Print Assumptions C20_index_exact.
Print Assumptions C20_unknown_index.

(** ** C21: index values are exact *)

Theorem C21_index_values_exact cf e s name f :
  reachable cf s -> env_ok e -> cf_indexers cf !! name = Some f ->
  exists l, run_op cf e s (OIndexValues name) = (s, OutValues l None, []) /\ NoDup l /\
    forall b, b ∈ l <-> exists k x, entry_at (contents s) k = Some x /\ b ∈ f x.
Proof. exact (index_values_exact cf e s name f). Qed.

Example C21_example :
  (run_op ex_cf (at_time 9) (state_after ex_cf ex_history) (OIndexValues "source")).1.2 =
  OutValues ["flow/v1.ROUTER.r2"; "flow/v1.ROUTER.r3"]%string None.
Proof. exact ex_values. Qed.

Print Assumptions C21_index_values_exact.

(** ** C22: selected lists are complete and in key order *)

(** The result is the one sorted enumeration, whatever the environment. *)
Theorem C22_list_ordered cf e s sel l :
  env_ok e -> distinct_stored cf (contents s) ->
  s_continue sel = ""%string -> (s_limit sel <= 0)%Z -> (0 <= s_offset sel)%Z ->
  ordered cf (contents s) (s_ordering sel) (fun _ => True) l ->
  run_op cf e s (OList (Some sel)) = (s, OutSet (drop (Z.to_nat (s_offset sel)) l) "" None, []).
Proof. exact (list_ordered cf e s sel l). Qed.

Theorem C22_order_exists cf s o :
  distinct_stored cf (contents s) -> exists l, ordered cf (contents s) o (fun _ => True) l.
Proof. exact (ordered_list_exists cf s o). Qed.

Theorem C22_index_ordered cf e s name f x sel l :
  env_ok e -> reachable cf s -> cf_indexers cf !! name = Some f -> distinct_stored cf (contents s) ->
  s_continue sel = ""%string -> (s_limit sel <= 0)%Z -> (0 <= s_offset sel)%Z ->
  ordered cf (contents s) (s_ordering sel) (fun y => exists b, b ∈ f x /\ b ∈ f y) l ->
  run_op cf e s (OIndex name x (Some sel)) = (s, OutSet (drop (Z.to_nat (s_offset sel)) l) "" None, []).
Proof. exact (index_ordered cf e s name f x sel l). Qed.

(** Without a selector the list is complete, in an unspecified order. *)
Theorem C22_list_complete cf e s : env_ok e ->
  exists l, run_op cf e s (OList None) = (s, OutSet l "" None, []) /\ enumerates (contents s) (fun _ => True) l.
Proof. exact (list_complete cf e s). Qed.

(** Ascending lists are sorted even if keys repeat. *)
Theorem C22_ascending_sorted cf e s sel :
  env_ok e -> s_ordering sel = Ascending ->
  s_continue sel = ""%string -> (s_limit sel <= 0)%Z -> (0 <= s_offset sel)%Z ->
  exists l, enumerates (contents s) (fun _ => True) l /\
    StronglySorted (fun x y => ~ before cf Ascending y x) l /\
    run_op cf e s (OList (Some sel)) = (s, OutSet (drop (Z.to_nat (s_offset sel)) l) "" None, []).
Proof. exact (list_ascending cf e s sel). Qed.

(** Stores keyed by record ID have distinct keys. *)
Theorem C22_default_keys_distinct cf l :
  cf_key cf = key_by_record_id -> envs_ok l -> good_ops l -> distinct_stored cf (contents (state_after cf l)).
Proof. exact (default_distinct cf l). Qed.

Example C22_example :
  distinct_stored ex_cf (contents (state_after ex_cf ex_history)) /\
  (run_op ex_cf (at_time 9) (state_after ex_cf ex_history) (OList (Some (Selector 0 0 "" Descending)))).1.2 =
  OutSet [(stored "s2" "r3" 5 1).1; (stored "s1" "r2" 3 2).1] "" None.
Proof. split; [exact ex_distinct|exact ex_list]. Qed.

Print Assumptions C22_list_ordered.
Print Assumptions C22_order_exists.
Print Assumptions C22_index_ordered.
Print Assumptions C22_list_complete.
Print Assumptions C22_ascending_sorted.
Print Assumptions C22_default_keys_distinct.

(** ** C23: paging enumerates the store *)

(** Given enough calls for the number of pages, each with its own iteration
    order and clock, paging completes. *)
Theorem C23_paging_enumerates cf s sel envs l :
  distinct_stored cf (contents s) ->
  ordered cf (contents s) (s_ordering sel) (fun _ => True) l ->
  (0 < s_limit sel)%Z -> s_continue sel = ""%string -> s_offset sel = 0%Z ->
  (Z.of_nat (length l) < 2^31)%Z -> Forall env_ok envs ->
  (Z.of_nat (length l) <= s_limit sel * Z.of_nat (length envs))%Z -> envs <> [] ->
  exists init final, page_through cf s envs sel = Some (init ++ [final]) /\
    concat (init ++ [final]) = l /\
    Forall (fun p => Z.of_nat (length p) = s_limit sel) init /\ (Z.of_nat (length final) <= s_limit sel)%Z.
Proof. exact (paging cf s sel envs l). Qed.

Example C23_example :
  distinct_stored ex_cf (contents (state_after ex_cf ex_history)) /\
  page_through ex_cf (state_after ex_cf ex_history) [at_time 9; at_time 10] (Selector 0 1 "" Ascending) =
  Some [[(stored "s1" "r2" 3 2).1]; [(stored "s2" "r3" 5 1).1]].
Proof. split; [exact ex_distinct|exact ex_pages]. Qed.

Print Assumptions C23_paging_enumerates.

(** ** C24: when listing crashes *)

(** [effective sel off]: [off] is the token's offset if there is a token, and
    the selector's otherwise. *)
Theorem C24_list_crash_iff cf e s sel :
  (run_op cf e s (OList sel)).1.2 = OutPanic <->
  exists sel' off, sel = Some sel' /\ effective sel' off /\ (off < 0)%Z.
Proof. exact (list_panic cf e s sel). Qed.

Theorem C24_index_crash_iff cf e s name x sel :
  (run_op cf e s (OIndex name x sel)).1.2 = OutPanic <->
  is_Some (cf_indexers cf !! name) /\ exists sel' off, sel = Some sel' /\ effective sel' off /\ (off < 0)%Z.
Proof. exact (index_panic cf e s name x sel). Qed.

Theorem C24_refuted :
  (run_op ex_cf (at_time 9) (state_after ex_cf ex_history) (OList (Some (Selector (-1) 0 "" Ascending)))).1.2 = OutPanic /\
  (run_op ex_cf (at_time 9) (state_after ex_cf ex_history)
     (OList (Some (Selector 0 5 (make_continue 0 (2^31)) Ascending)))).1.2 = OutPanic.
Proof. exact list_crashes. Qed.

Example C24_example : exists off, effective (Selector 0 5 (make_continue 0 (2^31)) Ascending) off /\ (off < 0)%Z.
Proof. exact ex_effective. Qed.

Print Assumptions C24_list_crash_iff.
Print Assumptions C24_index_crash_iff.
Print Assumptions C24_refuted.

(** ** C25: Replace installs exactly the given set *)

Theorem C25_replace_exact cf e s l s' r ev :
  reachable cf s -> env_ok e -> run_op cf e s (OReplace l) = (s', r, ev) ->
  ((forall x, x ∈ l -> exists k, cf_key cf x = Ok k) /\ r = OutErr None /\ ev = [] /\
   forall k x v, contents s' !! k = Some (x, v) <-> last_with_key cf l k x /\ v = next_version (contents s) k) \/
  (failed r /\ s' = s /\ exists x, x ∈ l /\ forall k, cf_key cf x <> Ok k).
Proof. exact (replace_exact cf e s l s' r ev). Qed.

Example C25_example :
  contents (run_op ex_cf (at_time 9) (state_after ex_cf ex_history)
    (OReplace [ex_entry "s1" "r7"; ex_entry "s4" "r7"; ex_entry "s1" "r8"])).1.1 !! "s1"%string = Some (ex_entry "s1" "r8", 3%Z).
Proof. exact ex_replace. Qed.

Print Assumptions C25_replace_exact.

(** ** C26: change events replay to the contents *)

(** One call: the events tell exactly what happened. *)
Theorem C26_events_describe cf e s o s' r ev :
  observing cf -> env_ok e -> reachable cf s -> run_op cf e s o = (s', r, ev) ->
  ~ is_replace o -> (forall p, r <> OutErr (Some (SPatch p))) ->
  describes (contents s) ev (contents s').
Proof. exact (step_describes cf e s o s' r ev). Qed.

(** Histories, any key function: replaying over a bag of entries. *)
Theorem C26_events_replay cf s l s' rs evs l0 l1 :
  observing cf -> reachable cf s -> envs_ok l -> run_from cf s l = (s', rs, evs) -> faithful l rs ->
  enumerates (contents s) (fun _ => True) l0 -> enumerates (contents s') (fun _ => True) l1 ->
  replays l0 evs l1.
Proof. exact (events_replay cf s l s' rs evs l0 l1). Qed.

(** Stores keyed by record ID: replaying over a map by ID. *)
Theorem C26_events_replay_by_id cf l s rs evs :
  observing cf -> cf_key cf = key_by_record_id -> envs_ok l -> good_ops l ->
  run cf l = (s, rs, evs) -> faithful l rs -> foldl apply_event ∅ evs = fst <$> contents s.
Proof. exact (events_map_new cf l s rs evs). Qed.

Theorem C26_refuted_replace :
  (run ex_cf [(at_time 1, OReplace [ex_entry "s1" "r1"])]).1.2 = [OutErr None] /\
  (run ex_cf [(at_time 1, OReplace [ex_entry "s1" "r1"])]).2 = [] /\
  contents (state_after ex_cf [(at_time 1, OReplace [ex_entry "s1" "r1"])]) !! "s1"%string = Some (ex_entry "s1" "r1", 1%Z).
Proof. exact replace_silent. Qed.

Theorem C26_refuted_failing_accumulate : exists s1 ev1 p,
  run_op ex_cf (at_time 1) new_simap (OAccumulate ex_src (Some (ex_site ""))) = (s1, OutErr None, ev1) /\
  run_op ex_cf (at_time 2) s1 (OAccumulate ex_src (Some (ex_site ""))) =
    (s1, OutErr (Some (SPatch p)), [EvAdd zero_entry]).
Proof. exact failing_accumulate_event. Qed.

Example C26_example : observing ex_cf /\ cf_key ex_cf = key_by_record_id /\ envs_ok ex_history /\ good_ops ex_history /\
  faithful ex_history (run ex_cf ex_history).1.2.
Proof.
  split; [exact ex_cf_observing|]. split; [reflexivity|]. split; [exact ex_history_ok|].
  split; [exact ex_history_good|exact ex_faithful].
Qed.

Print Assumptions C26_events_describe.
Print Assumptions C26_events_replay.
Print Assumptions C26_events_replay_by_id.
Print Assumptions C26_refuted_replace.
Print Assumptions C26_refuted_failing_accumulate.

(** ** C27: Accumulate merges attributes *)

(** [acc_ok cf k t l]: all records of [l] are usable, of type [t], with key
    [k], and [l] pairs them with their encodings. *)
Theorem C27_accumulate_merges cf k t e src r0 a l s :
  contents s !! k = None -> acc_ok cf k t ((e, (src, r0, a)) :: l) ->
  exists s' evs x r v, run_from cf s (calls ((e, (src, r0, a)) :: l)) =
      (s', replicate (S (length l)) (OutErr None), evs) /\
    contents s' !! k = Some (x, v) /\ e_rec x = Some r /\ good_record r /\ vr_type r = t /\
    Encode vanflow_registry (vrec_any r) = EncOk (overridden a l) /\
    m_source (e_meta x) = src /\ m_annotations (e_meta x) = ∅ /\
    e_tm x = vrec_meta r0 /\ forall k', k' <> k -> contents s' !! k' = contents s !! k'.
Proof. exact (accumulate_all cf k t e src r0 a l s). Qed.

(** The union: every attribute has its value in the last record carrying it. *)
Theorem C27_later_values_win a l c x : overridden a l !! c = Some x <->
  (exists l1 e src r b l2, l = l1 ++ (e, (src, r, b)) :: l2 /\ b !! c = Some x /\
     Forall (fun '(_, (_, _, b')) => (b' : attrset) !! c = None) l2) \/
  (a !! c = Some x /\ Forall (fun '(_, (_, _, b')) => (b' : attrset) !! c = None) l).
Proof. exact (overridden_lookup a l c x). Qed.

Example C27_example : acc_ok ex_cf "s1" SiteRecord ex_calls2 /\
  attrs_of (ex_site "s1") !! KU32 30 = Some (AStr "east") /\ attrs_of ex_site2 !! KU32 30 = Some (AStr "west").
Proof. exact ex_c27. Qed.

Print Assumptions C27_accumulate_merges.
Print Assumptions C27_later_values_win.

(** ** C28: Accumulate is idempotent and silent when nothing changes *)

(** A record whose attributes the entry already has. *)
Theorem C28_no_change_is_silent cf e s src r b k x0 v0 r0 a :
  env_ok e -> cf_key cf (bare r) = Ok k -> contents s !! k = Some (x0, v0) -> e_rec x0 = Some r0 ->
  good_record r0 -> Encode vanflow_registry (vrec_any r0) = EncOk a ->
  good_record r -> Encode vanflow_registry (vrec_any r) = EncOk b -> b ⊆ a ->
  run_op cf e s (OAccumulate src (Some r)) = (s, OutErr None, []).
Proof. exact (silent_noop cf e s src r b k x0 v0 r0 a). Qed.

(** Otherwise it writes and reports one change. *)
Theorem C28_change_is_reported cf e s src r b k x0 v0 r0 a :
  env_ok e -> cf_key cf (bare r) = Ok k -> contents s !! k = Some (x0, v0) -> e_rec x0 = Some r0 ->
  good_record r0 -> Encode vanflow_registry (vrec_any r0) = EncOk a ->
  good_record r -> Encode vanflow_registry (vrec_any r) = EncOk b -> ~ b ⊆ a ->
  exists s' x', run_op cf e s (OAccumulate src (Some r)) =
      (s', OutErr None, if cf_on_change cf then [EvChange x0 x'] else []) /\
    contents s' = <[k := (x', v0 + 1)%Z]> (contents s) /\ m_updated (e_meta x') = env_now e.
Proof. exact (change_reported cf e s src r b k x0 v0 r0 a). Qed.

Theorem C28_repeat_is_noop cf e e' s src src' r b k s1 ev :
  env_ok e -> env_ok e' -> cf_key cf (bare r) = Ok k -> good_record r ->
  Encode vanflow_registry (vrec_any r) = EncOk b ->
  (forall x, entry_at (contents s) k = Some x -> good_entry good_record x) ->
  run_op cf e s (OAccumulate src (Some r)) = (s1, OutErr None, ev) ->
  run_op cf e' s1 (OAccumulate src' (Some r)) = (s1, OutErr None, []).
Proof. exact (accumulate_repeat cf e e' s src src' r b k s1 ev). Qed.

Example C28_example :
  good_record (ex_site "s1") /\ Encode vanflow_registry (vrec_any (ex_site "s1")) = EncOk (attrs_of (ex_site "s1")) /\
  cf_key ex_cf (bare (ex_site "s1")) = Ok "s1"%string /\
  exists s1 ev, run_op ex_cf (at_time 1) new_simap (OAccumulate ex_src (Some (ex_site "s1"))) = (s1, OutErr None, ev) /\ ev <> [].
Proof. exact ex_c28. Qed.

Print Assumptions C28_no_change_is_silent.
Print Assumptions C28_change_is_reported.
Print Assumptions C28_repeat_is_noop.

(** ** C29: resetting attributes through Accumulate *)

(** A value the incoming record does not carry stays. *)
Theorem C29_stale_value_stays cf e s src r b k x0 v0 r0 a c x :
  env_ok e -> cf_key cf (bare r) = Ok k -> contents s !! k = Some (x0, v0) -> e_rec x0 = Some r0 ->
  good_record r0 -> Encode vanflow_registry (vrec_any r0) = EncOk a ->
  good_record r -> Encode vanflow_registry (vrec_any r) = EncOk b -> vr_type r0 = vr_type r ->
  a !! c = Some x -> b !! c = None ->
  exists s' ev x1 v1 r1 a1, run_op cf e s (OAccumulate src (Some r)) = (s', OutErr None, ev) /\
    contents s' !! k = Some (x1, v1) /\ e_rec x1 = Some r1 /\
    Encode vanflow_registry (vrec_any r1) = EncOk a1 /\ a1 !! c = Some x.
Proof. exact (stale_stays cf e s src r b k x0 v0 r0 a c x). Qed.

Theorem C29_refuted : exists s evs x r v,
  run ex_cf [(at_time 1, OAccumulate ex_src (Some (ex_site "s1"))); (at_time 2, OAccumulate ex_src (Some ex_site2))] =
    (s, [OutErr None; OutErr None], evs) /\
  contents s !! "s1"%string = Some (x, v) /\ e_rec x = Some r /\
  attrs_of ex_site2 !! KU32 10 = None /\ attrs_of r !! KU32 10 = Some (AStr "aws") /\
  attrs_of r !! KU32 30 = Some (AStr "west").
Proof. exact reset_lost. Qed.

Example C29_example : good_record (ex_site "s1") /\ good_record ex_site2 /\
  vr_type (ex_site "s1") = vr_type ex_site2 /\
  attrs_of (ex_site "s1") !! KU32 10 = Some (AStr "aws") /\ attrs_of ex_site2 !! KU32 10 = None.
Proof. exact ex_c29. Qed.

Print Assumptions C29_stale_value_stays.
Print Assumptions C29_refuted.

(** ** C30: entries keep type and record consistent *)

Theorem C30_types_consistent cf typ l :
  envs_ok l -> typed_ops cf typ l ->
  forall k x, entry_at (contents (state_after cf l)) k = Some x ->
    exists r, e_rec x = Some r /\ good_record r /\ vr_type r = typ k /\ e_tm x = vrec_meta r.
Proof. exact (consistent_after cf typ l). Qed.

Theorem C30_refuted : exists s evs x r v,
  run ex_cf [(at_time 1, OAccumulate ex_src (Some (ex_site "s1"))); (at_time 2, OAccumulate ex_src (Some ex_router))] =
    (s, [OutErr None; OutErr None], evs) /\
  contents s !! "s1"%string = Some (x, v) /\ e_rec x = Some r /\
  vr_type r = RouterRecord /\ e_tm x = TypeMeta "flow/v1" "SiteRecord" /\ vrec_meta r = TypeMeta "flow/v1" "RouterRecord".
Proof. exact type_drifts. Qed.

(** Accumulating usable records never crashes. *)
Theorem C30_accumulate_never_crashes cf e s src r k :
  env_ok e -> good_record r -> cf_key cf (bare r) = Ok k ->
  (forall x, entry_at (contents s) k = Some x -> good_entry good_record x) ->
  (run_op cf e s (OAccumulate src (Some r))).1.2 <> OutPanic.
Proof. exact (accumulate_no_panic cf e s src r k). Qed.

Example C30_example : typed_ops ex_cf (fun _ => SiteRecord)
  [(at_time 1, OAccumulate ex_src (Some (ex_site "s1"))); (at_time 2, OAccumulate ex_src (Some ex_site2));
   (at_time 3, OAdd (ex_entry "s2" "r1"))].
Proof. exact ex_typed. Qed.

Print Assumptions C30_types_consistent.
Print Assumptions C30_refuted.
Print Assumptions C30_accumulate_never_crashes.

(** ** C31: timestamps say when an entry last changed *)

(** Every stored entry was written by some call, at that call's clock reading
    unless the call was Replace, and has not changed since. *)
Theorem C31_last_write cf l k x v :
  envs_ok l -> contents (state_after cf l) !! k = Some (x, v) ->
  exists l1 e o l2, l = l1 ++ (e, o) :: l2 /\
    match o with
    | OAdd y | OUpdate y _ => cf_key cf y = Ok k /\ x = with_updated (env_now e) y
    | OAccumulate src p => cf_key cf (Entry zero_meta (TypeMeta "" "") p) = Ok k /\ m_updated (e_meta x) = env_now e
    | OReplace given => last_with_key cf given k x
    | _ => False
    end /\
    contents (state_after cf l1) !! k <> Some (x, v) /\
    Forall (fun s' => contents s' !! k = Some (x, v)) (states cf (state_after cf (l1 ++ [(e, o)])) l2).
Proof. exact (last_write cf l k x v). Qed.

Example C31_example : envs_ok ex_history /\
  contents (state_after ex_cf ex_history) !! "s1"%string = Some (stored "s1" "r2" 3 2).
Proof. split; [exact ex_history_ok|]. by destruct ex_contents. Qed.

Print Assumptions C31_last_write.

(** ** C34: the source index separates sources *)

Theorem C34_source_index_exact cf e s x :
  reachable cf s -> env_ok e -> cf_indexers cf !! index_by_source = Some source_index ->
  (forall k y, entry_at (contents s) k = Some y ->
     source_string (m_source (e_meta x)) = source_string (m_source (e_meta y)) ->
     m_source (e_meta x) = m_source (e_meta y)) ->
  exists l, run_op cf e s (OIndex "source" x None) = (s, OutSet l "" None, []) /\
    enumerates (contents s) (fun y => m_source (e_meta y) = m_source (e_meta x)) l.
Proof. exact (source_index_exact cf e s x). Qed.

(** The rendering is unambiguous when version and type contain no dot. *)
Theorem C34_dot_free_sources s t :
  dot_free (sr_api s) -> dot_free (sr_type s) -> dot_free (sr_api t) -> dot_free (sr_type t) ->
  source_string s = source_string t -> s = t.
Proof. exact (source_string_inj s t). Qed.

Theorem C34_refuted : exists x y e,
  m_source (e_meta x) <> m_source (e_meta y) /\ env_ok e /\
  (run_op ex_cf e (state_after ex_cf [(e, OReplace [y])]) (OIndex "source" x None)).1.2 = OutSet [y] "" None.
Proof. exact source_index_mixes. Qed.

Example C34_example : reachable ex_cf (state_after ex_cf ex_history) /\
  cf_indexers ex_cf !! index_by_source = Some source_index /\
  dot_free (sr_api ex_src) /\ dot_free (sr_type ex_src).
Proof. exact ex_c34. Qed.

Print Assumptions C34_source_index_exact.
Print Assumptions C34_dot_free_sources.
Print Assumptions C34_refuted.
