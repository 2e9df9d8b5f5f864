(** The collector with many sources: C114.  The vocabulary is at the top of
    CollectFacts.v ([dispatched], [handled], [came], [came_as], [latest],
    [holds]) and in CollectLive.v ([registered_first]); events are those of
    Client.v, Discovery.v, WatchClient.v and Collect.v. *)
From Coq Require Import ZArith NArith String Lia.
From stdpp Require Import base gmap strings list.
From Verif Require Import GoBase Encoding SpecEncoding Records Messages SpecMessages Env SyncMap Tokens Cache SpecStore StoreExamples
  Tool Http HttpFacts Run Keepalive Client ClientFacts Discovery WatchClient Collect.
From Verif Require Dispatch DispatchFacts CollectFacts CollectLive CollectMore.
Import CollectFacts (msg_in_range, all_in_range, tenvs_ok, dispatched, handled, records_of, came, came_as, latest, holds).
Import CollectLive (registered_first).
Import CollectMore (dispatcher_step).

Local Open Scope list_scope.

(** ** C114 *)

(** What happens to the discovery, the watches and the clients could happen to
    them without the collector: what is proved of them holds here. *)
Theorem C114_project flows logs infos n now ls s tr : trun flows logs infos (t_init n now) ls = Some (s, tr) ->
  exists ls', jrun infos (j_init n now) ls' = Some (t_j s, jevs tr).
Proof. apply CollectFacts.project_j. Qed.

(** The dispatcher made for a source after the tool's registrations, however many
    were made before it, has that source and sends every type collected to the
    one store. *)
Theorem C114_routes flows logs cs e src post : Forall (fun c => DispatchFacts.is_new c = true) cs ->
  DispatchFacts.cmds_ok (tool_registers flows logs ++ cs ++ Dispatch.CNew e src :: post) ->
  exists a, Dispatch.d_disp (Dispatch.run_cmds (tool_registers flows logs ++ cs ++ Dispatch.CNew e src :: post)) !! length cs = Some (src, a) /\
    Dispatch.deref (Dispatch.run_cmds (tool_registers flows logs ++ cs ++ Dispatch.CNew e src :: post)) a = tool_routes flows logs.
Proof. apply CollectMore.dispatchers. Qed.
Theorem C114_routes_types flows logs r i : good_record r ->
  tool_routes flows logs !! Dispatch.type_key r = Some i <-> i = 0 /\ vr_type r ∈ tool_types flows logs.
Proof. apply CollectFacts.routes. Qed.

(** Each listener dispatches the records of the messages its client's dispatcher
    was called with, in order, none twice and none left out; at most the tail of
    the last message is yet to come. *)
Theorem C114_order flows logs infos n now ls s tr j i : trun flows logs infos (t_init n now) ls = Some (s, tr) ->
  dispatched j i tr ++ default [] (t_todo s !! (j, i)) = concat (records_of <$> handled j i tr).
Proof. apply CollectFacts.order. Qed.

(** It does nothing else until all records of the message are dispatched. *)
Theorem C114_waits flows logs infos n now ls s a j i rm b1 e b2 :
  trun flows logs infos (t_init n now) ls = Some (s, a ++ TEv (JEC j (CCall i (User 1) (MsgRecord rm))) :: b1 ++ TEv (JEC j e) :: b2) -> of_listener i e = true ->
  rm_records rm `prefix_of` dispatched j i b1.
Proof. apply CollectLive.waits. Qed.

(** With the dispatcher registered before the listener reads the handlers, as the
    tool does, every message accepted is dispatched: when the listener is done
    with what it accepted, exactly the records of the accepted messages that
    decode have been dispatched. *)
Theorem C114_accepted flows logs infos n now ls s tr j i c : trun flows logs infos (t_init n now) ls = Some (s, tr) -> registered_first j i tr ->
  j_cl (t_j s) !! j = Some c ->
  exists rest, dispatched j i tr ++ rest = concat (records_of <$> omap decoded (accepted i (cevs j (jevs tr)))) /\
    (t_todo s !! (j, i) = None -> (forall x, pc_of c i <> Some (LGet x)) -> (forall x hs, pc_of c i <> Some (Client.LRun x hs)) -> rest = []).
Proof. apply CollectLive.accepted_dispatched. Qed.

(** Whatever the sources send, nothing crashes, and the entry of an identity is
    what all records with it made: the source and the type label of the first
    that came, the type of the last; if all are of one type, each attribute is
    that of the last record that had it. *)
Theorem C114_merged flows logs infos n now ls s tr id : trun flows logs infos (t_init n now) ls = Some (s, tr) -> all_in_range tr -> tenvs_ok tr -> id <> ""%string ->
  t_crashed s = false /\ holds id (came_as id (came flows logs infos tr)) (entry_at (contents (t_store s)) ("//" ++ id)%string).
Proof.
  intros Hr H1 H2 Hid. destruct (CollectFacts.store_is _ _ _ _ _ _ _ _ Hr H1 H2) as [-> Hc]. split; [exact Hc|].
  apply CollectFacts.store_holds; [by eapply CollectFacts.came_fine|exact Hid].
Qed.

(** Of the records without an identity the first stays as it came. *)
Theorem C114_nameless flows logs infos n now ls s tr : trun flows logs infos (t_init n now) ls = Some (s, tr) -> all_in_range tr -> tenvs_ok tr ->
  match came_as "" (came flows logs infos tr) with
  | [] => entry_at (contents (t_store s)) "//" = None
  | (src0, r0) :: _ => exists x, entry_at (contents (t_store s)) "//" = Some x /\ m_source (e_meta x) = src0 /\ e_tm x = vrec_meta r0 /\ e_rec x = Some r0
  end.
Proof.
  intros Hr H1 H2. destruct (CollectFacts.store_is _ _ _ _ _ _ _ _ Hr H1 H2) as [-> _]. apply CollectFacts.store_nameless. by eapply CollectFacts.came_fine.
Qed.

(** An entry stays, with its source and type label, whatever comes after:
    whether its source falls silent, is forgotten or its client closed. *)
Theorem C114_kept flows logs infos n now ls s tr ls' s' tr' k x : trun flows logs infos (t_init n now) ls = Some (s, tr) -> trun flows logs infos s ls' = Some (s', tr') ->
  all_in_range (tr ++ tr') -> tenvs_ok (tr ++ tr') -> entry_at (contents (t_store s)) k = Some x ->
  exists y, entry_at (contents (t_store s')) k = Some y /\ m_source (e_meta y) = m_source (e_meta x) /\ e_tm y = e_tm x.
Proof. apply CollectMore.kept. Qed.

(** "/" lists one entry for each identity that came from any source, and no
    other - or nothing, if one of them has no JSON form. *)
Theorem C114_listed flows logs infos n now ls s tr zone e srcs : trun flows logs infos (t_init n now) ls = Some (s, tr) -> all_in_range tr -> tenvs_ok tr -> env_ok e ->
  exists ids l, NoDup ids /\ (forall id, id ∈ ids <-> exists e src r, (e, src, r) ∈ came flows logs infos tr /\ vrec_identity r = id) /\
    Forall2 (fun id x => entry_at (contents (t_store s)) ("//" ++ id)%string = Some x) ids l /\
    (Forall (fits zone) l /\ answer flows logs zone e (t_store s) srcs "/" = Reply 200 (Some (Body l false (offered flows logs))) \/
     ~ Forall (fits zone) l /\ answer flows logs zone e (t_store s) srcs "/" = Reply 200 None).
Proof.
  intros Hr H1 H2 He. destruct (CollectMore.listed _ _ _ _ _ _ _ _ zone e srcs Hr H1 H2 He) as (ids & l & Hn & Hi & HF & Ha). exists ids, l.
  split; [exact Hn|]. split; [exact Hi|]. split; [exact HF|]. rewrite Ha. pose proof (all_fit zone l) as Hf. destruct (forallb (entry_json_ok zone) l); [left|right]; (split; [by rewrite <- Hf|done]).
Qed.

(** Unless the process is gone, all dispatchers that run can return without
    anything else happening, whatever the sources sent. *)
Theorem C114_can_finish flows logs infos n now e ls s tr : env_ok e -> trun flows logs infos (t_init n now) ls = Some (s, tr) -> all_in_range tr -> tenvs_ok tr ->
  j_crashed (t_j s) = false ->
  exists ls' s' tr', Forall (fun l => dispatcher_step l = true) ls' /\ trun flows logs infos s ls' = Some (s', tr') /\ t_j s' = t_j s /\
    t_todo s' = ∅ /\ t_crashed s' = false /\ tenvs_ok (tr ++ tr').
Proof. apply CollectMore.finish. Qed.

(** When a client's Close has returned, nothing of what its listeners received
    comes any more. *)
Theorem C114_after_close flows logs infos n now ls s a j b i ad cr : trun flows logs infos (t_init n now) ls = Some (s, a ++ TEv (JEC j CClosed) :: b) ->
  TEv (JEC j (CListening i ad cr)) ∈ a -> dispatched j i b = [] /\ t_todo s !! (j, i) = None.
Proof. apply CollectLive.after_close. Qed.

(** Two routers, "a" and "b", each with a client; both send the same site, at
    another place. *)
Definition ex_infos (j : nat) : info := match j with O => Info "a" 1 "ROUTER" "mc/sfe.a" "sfe.a" | _ => Info "b" 1 "ROUTER" "mc/sfe.b" "sfe.b" end.
Definition ex_msg (ids : list string) (place : string) : amqp_msg :=
  AmqpMsg (Some (AmqpProps None (Some "RECORD"%string) None)) ∅ (MList ((fun id => EMap (Some {[ KU32 0 := AU32 0; KU32 1 := AStr id; KU32 9 := AStr place ]})) <$> ids)).
Definition ex_join (j : nat) (w : nat) : list tlabel :=
  TJ <$> [JD (LUser (OAdd (DSource (ex_infos j) 0))); JNew j (WCfg (i_id (ex_infos j)) 10 5 2); JReg w; JReg w; JD (LWStart w); JD (LWLook w);
          JC j (LReg OnRec 1); JC j LListenAdd; JC j (LListen FromAddress)].
Definition ex_get (j : nat) (m : amqp_msg) : list tlabel :=
  TJ <$> [JC j (LLNext 0 (NMsg m)); JC j (LLAccept 0 AccOk); JC j (LLGet 0); JC j (LLRun 0); JStore j 0; JC j (LLRun 0)].
Definition ex_both : list tlabel :=
  ex_join 0 0 ++ ex_join 1 1 ++ ex_get 0 (ex_msg ["s1"; "s2"] "east") ++ [TPut 0 0 (at_time 1)] ++ ex_get 1 (ex_msg ["s1"] "west") ++
  [TPut 1 0 (at_time 2); TReturn 1 0; TPut 0 0 (at_time 3); TReturn 0 0].
Definition shown (x : entry) : string * option string * option string :=
  (sr_name (m_source (e_meta x)), vrec_identity <$> e_rec x,
   match e_rec x with Some r => match Encode vanflow_registry (vrec_any r) with EncOk a => match a !! KU32 9 with Some (AStr p) => Some p | _ => None end | _ => None end | None => None end).
Definition seen_root (s : tstate) : option (list (string * option string * option string)) :=
  match answer false false (fun _ => 3600%Z) (at_time 9) (t_store s) [] "/" with Reply 200 (Some b) => Some (shown <$> b_data b) | _ => None end.

Example C114_example : match trun false false ex_infos (t_init 2 0) ex_both with
  | Some (s, tr) => t_crashed s = false /\ j_crashed (t_j s) = false /\ map_to_list (t_todo s) = [] /\
      length (dispatched 0 0 tr) = 2 /\ length (dispatched 1 0 tr) = 1 /\ length (came false false ex_infos tr) = 3 /\
      seen_root s = Some [("a", Some "s2", Some "east"); ("a", Some "s1", Some "west")]%string
  | None => False end.
Proof. vm_compute. repeat split. Qed.

(** The hypotheses of C114_merged and C114_accepted are met. *)
Lemma ex_msg_in_range ids place : msg_in_range (ex_msg ids place).
Proof.
  intros l a k x [= <-] Hin Hx. apply elem_of_list_fmap in Hin as (id & [= ->] & _).
  repeat (apply lookup_insert_Some in Hx as [[_ <-]|[_ Hx]]; [done|]). apply lookup_singleton_Some in Hx as [_ <-]. done.
Qed.
Definition listens (tr : list tev) : list (nat * amqp_msg) := omap (fun e => match e with TEv (JEC j (CRecv _ m)) => Some (j, m) | _ => None end) tr.
Definition clocks (tr : list tev) : list env := omap (fun e => match e with TDisp _ _ e _ => Some e | _ => None end) tr.
Lemma in_range_listens tr : Forall (fun p => msg_in_range p.2) (listens tr) -> all_in_range tr.
Proof.
  rewrite Forall_forall. intros H j i m Hin. apply (H (j, m)). apply elem_of_list_omap. eexists. split; [exact Hin|reflexivity].
Qed.
Lemma envs_clocks tr : Forall env_ok (clocks tr) -> tenvs_ok tr.
Proof. rewrite Forall_forall. intros H j i e r Hin. apply H. apply elem_of_list_omap. eexists. split; [exact Hin|reflexivity]. Qed.

Definition is_reg (e : cev) : bool := match e with CReg OnRec (User 1) => true | _ => false end.
Fixpoint reg_first (i : nat) (evs : list cev) : bool :=
  match evs with
  | [] => false
  | e :: l => if is_reg e then negb (existsb is_reg l) else match e with CRead k _ => negb (k =? i) && reg_first i l | _ => reg_first i l end
  end.
Lemma is_reg_eq e : is_reg e = true -> e = CReg OnRec (User 1).
Proof. destruct e as [[] [[|[|]]|]| | | | | | | | | | | |]; intros H; try discriminate H. reflexivity. Qed.
Lemma reg_first_ok j i tr : reg_first i (cevs j (jevs tr)) = true -> registered_first j i tr.
Proof.
  intros H. unfold registered_first. induction (cevs j (jevs tr)) as [|e l IH]; [discriminate H|]. cbn [reg_first] in H. destruct (is_reg e) eqn:Er.
  - apply is_reg_eq in Er as ->. exists [], l. split; [reflexivity|]. split; [intros Hx; by apply elem_of_nil in Hx|]. split; [|intros x Hx; by apply elem_of_nil in Hx].
    intros Hin. apply negb_true_iff in H. assert (existsb is_reg l = true) as E; [|rewrite E in H; discriminate H]. apply existsb_exists. eexists. split; [by apply elem_of_list_In|reflexivity].
  - assert (reg_first i l = true /\ forall x, e <> CRead i x) as [Hl He].
    { destruct e; try (split; [exact H|intros ? E; discriminate E]). apply andb_true_iff in H as [H1 H2]. split; [exact H2|]. intros y E. injection E as -> _. rewrite Nat.eqb_refl in H1. discriminate H1. }
    destruct (IH Hl) as (a & b & -> & Ha & Hb & Hn). exists (e :: a), b. split; [reflexivity|]. split.
    { intros [E|E]%elem_of_cons; [subst e; discriminate Er|by apply Ha]. }
    split; [exact Hb|]. intros x [E|E]%elem_of_cons; [by apply (He x)|by apply (Hn x)].
Qed.
Lemma ex_both_runs : trun false false ex_infos (t_init 2 0) ex_both = None -> False.
Proof.
  intros H. assert (match trun false false ex_infos (t_init 2 0) ex_both with Some _ => true | None => false end = true) as E by (vm_compute; reflexivity). rewrite H in E. discriminate E.
Qed.
Lemma clocks_ev (ev : list jev) : clocks (TEv <$> ev) = [].
Proof. induction ev as [|? ? IHe]; [done|]. exact IHe. Qed.
Lemma clocks_labels flows logs infos ls s s' tr : trun flows logs infos s ls = Some (s', tr) -> clocks tr = omap (fun l => match l with TPut _ _ e => Some e | _ => None end) ls.
Proof.
  revert s' tr. induction ls as [|l ls IH] using rev_ind; intros s' tr Hr; [by injection Hr as <- <-|].
  apply run_snoc in Hr as (s1 & ev1 & ev2 & H1 & H2 & ->). unfold clocks in *. rewrite !omap_app, (IH _ _ H1). f_equal.
  apply CollectFacts.tstep_moves in H2 as [_ []]; try done. apply clocks_ev.
Qed.
Example C114_example_meets : exists s tr, trun false false ex_infos (t_init 2 0) ex_both = Some (s, tr) /\ all_in_range tr /\ tenvs_ok tr /\
  registered_first 0 0 tr /\ registered_first 1 0 tr.
Proof.
  destruct (trun false false ex_infos (t_init 2 0) ex_both) as [[s tr]|] eqn:Hr; [|by apply ex_both_runs in Hr]. exists s, tr. split; [reflexivity|].
  assert (match trun false false ex_infos (t_init 2 0) ex_both with
    | Some (s, tr) => listens tr = [(0, ex_msg ["s1"; "s2"] "east"); (1, ex_msg ["s1"] "west")]%string /\
        reg_first 0 (cevs 0 (jevs tr)) = true /\ reg_first 0 (cevs 1 (jevs tr)) = true
    | None => False end) as H by (vm_compute; repeat split).
  rewrite Hr in H. destruct H as (H1 & H3 & H4).
  split; [apply in_range_listens; rewrite H1; repeat constructor; apply ex_msg_in_range|].
  split; [apply envs_clocks; rewrite (clocks_labels _ _ _ _ _ _ _ Hr); repeat constructor; apply at_time_ok|].
  split; by apply reg_first_ok.
Qed.

(** An entry need not be labelled with the source its attributes are from: the
    place is as "b" says, the label says "a". *)
Theorem C114_source_refuted : exists ls s tr x r, trun false false ex_infos (t_init 2 0) ls = Some (s, tr) /\
  entry_at (contents (t_store s)) "//s1" = Some x /\ m_source (e_meta x) = source_of (ex_infos 0) /\ e_rec x = Some r /\
  (exists a, Encode vanflow_registry (vrec_any r) = EncOk a /\ a !! KU32 9 = Some (AStr "west")) /\
  Forall (fun p => p.1 = 0 -> p.2 = ex_msg ["s1"; "s2"]%string "east") (listens tr).
Proof.
  exists ex_both. destruct (trun false false ex_infos (t_init 2 0) ex_both) as [[s tr]|] eqn:Hr; [|by apply ex_both_runs in Hr].
  assert (match trun false false ex_infos (t_init 2 0) ex_both with
    | Some (s, tr) => listens tr = [(0, ex_msg ["s1"; "s2"] "east"); (1, ex_msg ["s1"] "west")]%string /\
        match entry_at (contents (t_store s)) "//s1" with
        | Some x => m_source (e_meta x) = source_of (ex_infos 0) /\ match e_rec x with
            | Some r => match Encode vanflow_registry (vrec_any r) with EncOk a => a !! KU32 9 = Some (AStr "west") | _ => False end
            | None => False end
        | None => False end
    | None => False end) as H by (vm_compute; repeat split).
  rewrite Hr in H. destruct H as [H1 H2]. destruct (entry_at (contents (t_store s)) "//s1") as [x|] eqn:Ex; [|contradiction]. destruct H2 as [H2 H3].
  destruct (e_rec x) as [r|] eqn:Er; [|contradiction]. destruct (Encode vanflow_registry (vrec_any r)) as [a| |] eqn:Ea; try contradiction.
  exists s, tr, x, r. split; [reflexivity|]. split; [exact Ex|]. split; [exact H2|]. split; [exact Er|]. split; [exists a; split; [exact Ea|exact H3]|].
  rewrite H1. repeat constructor. cbn [fst snd]. intros E. discriminate E.
Qed.

(** Source "a" falls silent; its watch forgets it and closes its client.  Its
    entries are served as before. *)
Definition ex_gone : list tlabel := ex_both ++ (TJ <$> [JC 0 (LLRun 0); JD (LDTime 4); JD (LWTick 0); JD (LWTakeTick 0); JD (LWSeen 0); JD (LWReset 0);
  JD (LDTime 10); JD (LWFire 0); JD (LWTakeTimer 0); JD (LWForget 0); JClose 0; JC 0 LCloseWait; JC 0 (LLNext 0 (NErr true)); JC 0 (LLClose 0); JC 0 LCloseWake; JD (LWEnd 0)]).
Lemma ex_gone_runs : trun false false ex_infos (t_init 2 0) ex_gone = None -> False.
Proof.
  intros H. assert (match trun false false ex_infos (t_init 2 0) ex_gone with Some _ => true | None => false end = true) as E by (vm_compute; reflexivity). rewrite H in E. discriminate E.
Qed.
Lemma happened (f : tev -> bool) tr e : existsb f tr = true -> (forall x, f x = true -> x = e) -> e ∈ tr.
Proof. intros (x & Hx & Hf)%existsb_exists H. rewrite <- (H x Hf). by apply elem_of_list_In. Qed.
Theorem C114_forgotten_refuted : exists ls s tr t x, trun false false ex_infos (t_init 2 0) ls = Some (s, tr) /\
  TEv (JED (DDecide 0 t)) ∈ tr /\ TEv (JED (DWatchEnd 0)) ∈ tr /\ TEv (JEC 0 CClosed) ∈ tr /\
  entry_at (contents (t_store s)) "//s2" = Some x /\ m_source (e_meta x) = source_of (ex_infos 0) /\
  seen_root s = Some [("a", Some "s2", Some "east"); ("a", Some "s1", Some "west")]%string.
Proof.
  exists ex_gone. destruct (trun false false ex_infos (t_init 2 0) ex_gone) as [[s tr]|] eqn:Hr; [|by apply ex_gone_runs in Hr].
  set (f1 := fun e => match e with TEv (JED (DDecide w t)) => (w =? 0) && (t =? 14)%Z | _ => false end).
  set (f2 := fun e => match e with TEv (JED (DWatchEnd w)) => w =? 0 | _ => false end).
  set (f3 := fun e => match e with TEv (JEC j CClosed) => j =? 0 | _ => false end).
  assert (match trun false false ex_infos (t_init 2 0) ex_gone with
    | Some (s, tr) => existsb f1 tr = true /\ existsb f2 tr = true /\ existsb f3 tr = true /\
        match entry_at (contents (t_store s)) "//s2" with Some x => m_source (e_meta x) = source_of (ex_infos 0) | None => False end /\
        seen_root s = Some [("a", Some "s2", Some "east"); ("a", Some "s1", Some "west")]%string
    | None => False end) as H by (vm_compute; repeat split).
  rewrite Hr in H. destruct H as (H1 & H2 & H3 & H4 & H5). destruct (entry_at (contents (t_store s)) "//s2") as [x|] eqn:Ex; [|contradiction].
  exists s, tr, 14%Z, x. split; [reflexivity|]. split; [|split; [|split; [|split; [exact Ex|split; [exact H4|exact H5]]]]].
  - apply (happened f1); [exact H1|]. intros [[e| |]| |] E; try discriminate E. destruct e; try discriminate E.
    cbn in E. apply andb_true_iff in E as [E1 E2]. apply Nat.eqb_eq in E1 as ->. apply Z.eqb_eq in E2 as ->. reflexivity.
  - apply (happened f2); [exact H2|]. intros [[e| |]| |] E; try discriminate E. destruct e; try discriminate E. cbn in E. apply Nat.eqb_eq in E as ->. reflexivity.
  - apply (happened f3); [exact H3|]. intros [[|k e|]| |] E; try discriminate E. destruct e; try discriminate E. cbn in E. apply Nat.eqb_eq in E as ->. reflexivity.
Qed.

(** The hypotheses of C114_after_close are met in that run, those of C114_routes
    by two sources. *)
Example C114_example_closed : match trun false false ex_infos (t_init 2 0) ex_gone with
  | Some (s, tr) => existsb (fun e => match e with TEv (JEC 0 (CListening 0 _ _)) => true | _ => false end) tr = true /\ j_crashed (t_j s) = false /\ t_crashed s = false
  | None => False end.
Proof. vm_compute. repeat split. Qed.
Example C114_example_routes :
  DispatchFacts.cmds_ok (tool_registers true false ++ [Dispatch.CNew (at_time 1) (source_of (ex_infos 0))] ++ Dispatch.CNew (at_time 2) (source_of (ex_infos 1)) :: []) /\
  Forall (fun c => DispatchFacts.is_new c = true) [Dispatch.CNew (at_time 1) (source_of (ex_infos 0))] /\ size (tool_routes true false) = length (tool_types true false).
Proof.
  split; [|split; [by repeat constructor|vm_compute; reflexivity]]. unfold DispatchFacts.cmds_ok. intros. repeat constructor; apply at_time_ok.
Qed.

Print Assumptions C114_project.
Print Assumptions C114_routes.
Print Assumptions C114_routes_types.
Print Assumptions C114_order.
Print Assumptions C114_waits.
Print Assumptions C114_accepted.
Print Assumptions C114_merged.
Print Assumptions C114_nameless.
Print Assumptions C114_kept.
Print Assumptions C114_listed.
Print Assumptions C114_can_finish.
Print Assumptions C114_after_close.
Print Assumptions C114_source_refuted.
Print Assumptions C114_forgotten_refuted.
