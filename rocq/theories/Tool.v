(** Model of the data handling of cmd/vanflow-tool: the collector store
    (serve.go), grouping fixture data by source and replaying flows
    (fixture.go).  HTTP, JSON and logging are left out; parsing JSON is an
    argument. *)
From Coq Require Import ZArith NArith Ascii String.
From stdpp Require Import base gmap strings list pretty.
From Verif Require Import GoBase Encoding Records Env SyncMap Tokens Cache Diff.

Local Open Scope list_scope.

(** ** The store of the tool *)

(** serve.go l.206-208, keyByTypeAndID: panics on a nil record. *)
Definition fixture_key (x : entry) : res string string :=
  match e_rec x with
  | Some r => Ok (type_meta_string (e_tm x) ++ "/" ++ vrec_identity r)%string
  | None => Panic
  end.

(** serve.go l.213-218. *)
Definition by_type : indexer entry := fun x => [type_meta_string (e_tm x)].
Definition fixture_indexers : gmap string (indexer entry) :=
  <["ByType"%string := by_type]> {[ "BySource"%string := source_index ]}.

(** serve.go l.205-221, newFixtureStore. *)
Definition fixture_config : config :=
  new_config (Some fixture_key) (Some fixture_indexers) false false false.

(** serve.go l.21-37, getRecordTypes, by the two command line switches. *)
Definition tool_types (flows logs : bool) : list gotype :=
  [SiteRecord; LinkRecord; RouterRecord; ListenerRecord; ConnectorRecord; ProcessRecord] ++
  (if flows then [FlowRecord] else []) ++ (if logs then [LogRecord] else []).

(** ** Fixture data *)

Global Instance source_ref_countable : Countable source_ref.
Proof.
  refine (inj_countable' (fun s => (sr_api s, sr_type s, sr_name s)) (fun '(a, t, n) => SourceRef a t n) _).
  by intros [].
Defined.

(** api.go l.26-31, PartialEntry. *)
Record partial_entry := PartialEntry { pe_meta : metadata; pe_tm : type_meta; pe_raw : string }.

(** fixture.go l.363-366, recordTypeMap. *)
Definition type_map (types : list gotype) : gmap type_meta gotype :=
  fold_left (fun m t => match get_type_meta t with Some k => <[k := t]> m | None => m end) types ∅.

(** json.Unmarshal into a new record of a type: the value, unless it fails. *)
Notation json_parser := (gotype -> string -> option goval).

(** fixture.go l.370-385: the entry a partial entry gives, if any. *)
Definition entry_from (parse : json_parser) (types : list gotype) (p : partial_entry) : option entry :=
  match type_map types !! pe_tm p with
  | None => None
  | Some t =>
      match parse t (pe_raw p) with
      | None => None
      | Some v => Some (Entry (pe_meta p) (pe_tm p) (Some (VRec true t v)))
      end
  end.

(** fixture.go l.361-389, groupEntriesBySource. *)
Definition group_by_source (parse : json_parser) (types : list gotype) (data : list partial_entry)
    : gmap source_ref (list entry) :=
  fold_left (fun m p =>
      match entry_from parse types p with
      | None => m
      | Some x => let src := m_source (pe_meta p) in <[src := default [] (m !! src) ++ [x]]> m
      end) data ∅.

(** fixture.go l.168-181: one store for each source.  Replace does not fail
    with this key function unless a record is nil. *)
Definition fixture_stores (es : source_ref -> env) (groups : gmap source_ref (list entry)) : gmap source_ref items :=
  map_imap (fun src l =>
      match l with
      | [] => None
      | _ => Some (replace fixture_config (es src) new_simap l).1.1
      end) groups.

(** fixture.go l.104-129: the managers by source name, the sources taken in
    the order [l]; of several with one name the last stays. *)
Definition managers_by_name (l : list (source_ref * items)) : gmap string items :=
  fold_left (fun m '(src, st) => <[sr_name src := st]> m) l ∅.

(** ** Replaying flows *)

(** The fields of a FlowRecord (records.go l.137-154) used by the replay. *)
Definition str_field (i : nat) (v : goval) : option string :=
  match get_path [i] v with Some (VPtr (Some (VStr s))) => Some s | _ => None end.
Definition num_field (i : nat) (v : goval) : option N :=
  match get_path [i] v with Some (VPtr (Some (VU64 n))) => Some n | _ => None end.
Definition fl_id (v : goval) : string := identity_of v.
Definition fl_parent := str_field 1.
Definition fl_counterflow := str_field 2.
Definition fl_host := str_field 3.
Definition fl_port := str_field 4.
Definition fl_octets := num_field 5.
Definition fl_latency := num_field 6.
Definition fl_trace := str_field 8.

(** The assertion that a record is a pointer to a FlowRecord. *)
Definition as_flow (r : option vrec) : option goval :=
  match r with
  | Some (VRec true t v) => if gotype_eqb t FlowRecord then Some v else None
  | _ => None
  end.

(** fixture.go l.201: the exemplar of the query. *)
Definition flow_exemplar : entry := Entry zero_meta (TypeMeta api_version "FlowRecord") None.

(** fixture.go l.206-212: the loop over the flows of one store; the type
    assertion may panic. *)
Fixpoint scan_flows (l : list entry) (acc : gmap string entry * gmap string string)
    : res unit (gmap string entry * gmap string string) :=
  match l with
  | [] => Ok acc
  | x :: l' =>
      match as_flow (e_rec x) with
      | None => Panic
      | Some v =>
          let entries := <[fl_id v := x]> acc.1 in
          let pairs := match fl_counterflow v with
                       | Some c => if bool_decide (c = ""%string) then acc.2 else <[fl_id v := c]> acc.2
                       | None => acc.2
                       end in
          scan_flows l' (entries, pairs)
      end
  end.

(** fixture.go l.200-213: all stores, in some order, each with the environment
    of its query. *)
Fixpoint scan_stores (l : list (env * items)) (acc : gmap string entry * gmap string string)
    : res unit (gmap string entry * gmap string string) :=
  match l with
  | [] => Ok acc
  | (e, s) :: l' =>
      let found := match index_of fixture_config e s "ByType" flow_exemplar None with
                   | OutSet l _ _ => l
                   | _ => []
                   end in
      res_bind (scan_flows found acc) (scan_stores l')
  end.

(** fixture.go l.186-189, flowPair. *)
Record flow_pair := FlowPair { fp_server : entry; fp_client : entry }.

(** fixture.go l.192-220: the pairs.  A missing key of a map of entries reads
    as the zero Entry. *)
Definition flow_pairs (e : env) (es : string -> env) (ms : gmap string items) : res unit (list flow_pair) :=
  let stores := (fun '(n, s) => (es n, s)) <$> env_iter e "stores" _ (map_to_list ms) in
  res_bind (scan_stores stores (∅, ∅)) (fun '(entries, ids) =>
    Ok ((fun '(sid, cid) => FlowPair (default zero_entry (entries !! sid)) (default zero_entry (entries !! cid)))
          <$> env_iter e "pairs" _ (map_to_list ids))).

(** A flow made by fakeFlow (fixture.go l.297-312): the fields it sets. *)
Record rflow := RFlow {
  rf_id : string;
  rf_start : gotime;
  rf_end : option gotime;
  rf_parent : option string;
  rf_counter : option string;
  rf_host : option string;
  rf_port : option string;
  rf_octets : N;
  rf_latency : N;
  rf_trace : option string;
}.

(** As a record, held by pointer. *)
Definition opt_str (s : option string) : goval := VPtr (VStr <$> s).
Definition opt_time (t : option gotime) : goval := VPtr (VTime <$> t).
Definition rflow_rec (f : rflow) : vrec :=
  VRec true FlowRecord (VStruct [
    VStruct [VStr (rf_id f); opt_time (Some (rf_start f)); opt_time (rf_end f)];
    opt_str (rf_parent f); opt_str (rf_counter f); opt_str (rf_host f); opt_str (rf_port f);
    VPtr (Some (VU64 (rf_octets f))); VPtr (Some (VU64 (rf_latency f))); VPtr None; opt_str (rf_trace f);
    VPtr None; VPtr None; VPtr None; VPtr None; VPtr None; VPtr None; VPtr None]).

(** fmt.Sprintf("%s:%d", id, i). *)
Definition numbered (id : string) (i : nat) : string := (id ++ ":" ++ pretty i)%string.

(** What fakeFlow draws: two identifiers, the start times of the i-th server
    and client flow, and the end time. *)
Record draw := Draw {
  dr_srv : string;
  dr_cli : string;
  dr_srv_start : nat -> gotime;
  dr_cli_start : nat -> gotime;
  dr_end : gotime;
}.

(** fixture.go l.277-313: the i-th flow of each side; [n] is increments. *)
Definition server_flow (d : draw) (n : N) (s : goval) (i : nat) : rflow :=
  RFlow (numbered (dr_srv d) i) (dr_srv_start d i) None (fl_parent s) (Some (numbered (dr_cli d) i))
    (fl_host s) (fl_port s) (default 0%N (fl_octets s)) (default 0%N (fl_latency s) / n) (fl_trace s).
Definition client_flow (d : draw) (n : N) (c : goval) (i : nat) : rflow :=
  RFlow (numbered (dr_cli d) i) (dr_cli_start d i) None (fl_parent c) None
    (fl_host c) (fl_port c) (default 0%N (fl_octets c)) (default 0%N (fl_latency c) / n) None.

(** uint64 addition of a value and its (i+1)-th part (l.331-332, l.344-345). *)
Definition grow (i : nat) (x : N) : N := ((x + x / N.of_nat (i + 1)) mod 2^64)%N.

(** fixture.go l.328-335: the next state of the i-th flow. *)
Definition next_flow (fin : option gotime) (i : nat) (f : rflow) : rflow :=
  RFlow (rf_id f) (rf_start f) fin (rf_parent f) (rf_counter f) (rf_host f) (rf_port f)
    (grow i (rf_octets f)) (grow i (rf_latency f)) (rf_trace f).

(** Which manager an update is published to. *)
Inductive side := Srv | Cli.
Notation publish := (side * rec_update)%type.

(** fixture.go l.315-320: the first updates of one side. *)
Definition created (s : side) (l : list rflow) : list publish :=
  (fun f => (s, RecUpdate None (Some (rflow_rec f)))) <$> l.
(** fixture.go l.327-352: one increment of one side. *)
Definition stepped (s : side) (fin : option gotime) (l : list rflow) : list publish :=
  imap (fun i f => (s, RecUpdate (Some (rflow_rec f)) (Some (rflow_rec (next_flow fin i f))))) l.

(** fixture.go l.321-353: the increments; [k] are left. *)
Fixpoint increments (d : draw) (k : nat) (srv cli : list rflow) : list publish :=
  match k with
  | O => []
  | S k' =>
      let fin := if bool_decide (k' = 0) then Some (dr_end d) else None in
      stepped Srv fin srv ++ stepped Cli fin cli ++
      increments d k' (imap (next_flow fin) srv) (imap (next_flow fin) cli)
  end.

(** fixture.go l.255-359, fakeFlow: the updates it publishes, in order.  [srv]
    and [cli] say whether the managers are non-nil; a type assertion on a nil
    record, a negative slice length and a publication to a nil manager panic.
    (Updates published before such a panic are not kept: it ends the process.)
    The pauses are left out. *)
Definition fake_flow (d : draw) (p : flow_pair) (srv cli : bool) (flows : Z) (incs : nat) : res unit (list publish) :=
  match as_flow (e_rec (fp_server p)), as_flow (e_rec (fp_client p)) with
  | Some s, Some c =>
      if (flows <? 0)%Z then Panic
      else
        let idx := seq 0 (Z.to_nat flows) in
        if (srv && cli) || bool_decide (idx = []) then
          let sf := server_flow d (N.of_nat incs) s <$> idx in
          let cf := client_flow d (N.of_nat incs) c <$> idx in
          Ok (created Srv sf ++ created Cli cf ++ increments d incs sf cf)
        else Panic
  | _, _ => Panic
  end.

(** fixture.go l.238-240: the replays a POST starts, one for each pair; [ds]
    are their draws. *)
Definition manager_of (ms : gmap string items) (x : entry) : bool :=
  match ms !! sr_name (m_source (e_meta x)) with Some _ => true | None => false end.
Definition replays_of (ms : gmap string items) (ds : nat -> draw) (pairs : list flow_pair) (flows : Z)
    : list (res unit (list publish)) :=
  imap (fun i p => fake_flow (ds i) p (manager_of ms (fp_server p)) (manager_of ms (fp_client p)) flows 4) pairs.

(** fixture.go l.191-253, a POST to /flows: what the replays publish, or
    [Panic] when the request handler or one of the replays panics. *)
Definition post_flows (e : env) (es : string -> env) (ds : nat -> draw) (ms : gmap string items) (flows : Z)
    : res unit (list (list publish)) :=
  res_bind (flow_pairs e es ms) (fun pairs =>
    fold_right (fun r acc => res_bind r (fun l => res_bind acc (fun ll => Ok (l :: ll)))) (Ok [])
      (replays_of ms ds pairs flows)).
