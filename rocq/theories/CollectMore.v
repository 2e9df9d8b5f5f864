(** The collector: dispatchers, what stays, what is served, and that handlers
    return. *)
From Coq Require Import ZArith NArith Ascii String Lia.
From stdpp Require Import base gmap strings list.
From Verif Require Import GoBase Encoding SpecEncoding Records Messages SpecMessages Env SyncMap Tokens Cache SpecStore
  Tool ToolFacts Http HttpFacts Run Keepalive Client Discovery WatchClient ClientFacts WatchClientFacts WatchClientInv Collect CollectFacts CollectLive.
From Verif Require Dispatch DispatchFacts.

Local Open Scope list_scope.
Local Opaque vanflow_registry builtin_types record_types Encode Decode.

(** ** Dispatchers *)

Lemma last_such {A} (P : A -> bool) (l : list A) x : x ∈ l -> P x = true ->
  exists l1 y l2, l = l1 ++ y :: l2 /\ P y = true /\ forall z, z ∈ l2 -> P z = false.
Proof.
  induction l as [|a l IH] using rev_ind; intros Hx HP; [by apply elem_of_nil in Hx|]. destruct (P a) eqn:Ea.
  - exists l, a, []. split; [done|]. split; [done|]. intros z Hz. by apply elem_of_nil in Hz.
  - apply elem_of_app in Hx as [Hx|Hx]; [|apply elem_of_list_singleton in Hx; congruence].
    destruct (IH Hx HP) as (l1 & y & l2 & -> & Hy & Hz). exists l1, y, (l2 ++ [a]). split; [by rewrite <- app_assoc|]. split; [done|].
    intros z [Hz'|Hz']%elem_of_app; [by apply Hz|]. apply elem_of_list_singleton in Hz'. by rewrite Hz'.
Qed.

Lemma registered_routes flows logs cs k st : Forall (fun c => DispatchFacts.is_new c = true) cs ->
  DispatchFacts.last_registered (tool_registers flows logs ++ cs) k st <-> tool_routes flows logs !! k = Some st.
Proof.
  intros Hcs. unfold tool_routes. rewrite const_map. rewrite Forall_forall in Hcs.
  assert (forall r st', Dispatch.CRegister r st' ∈ tool_registers flows logs ++ cs -> st' = 0 /\ exists t, t ∈ tool_types flows logs /\ r = Some (VRec false t (zero_value t))) as Hin.
  { intros r st' [H|H]%elem_of_app; [|by apply Hcs in H]. unfold tool_registers in H. apply elem_of_list_fmap in H as (t & [= -> ->] & Ht). eauto. }
  split.
  - intros (l1 & r & l2 & E & Hk & _). destruct (Hin (Some r) st) as (-> & t & Ht & [= ->]).
    { rewrite E. apply elem_of_app. right. left. }
    split; [done|]. exists t. split; [done|]. rewrite <- Hk. reflexivity.
  - intros [-> (t & Ht & Hk)].
    destruct (last_such (fun c => match c with Dispatch.CRegister (Some r) _ => bool_decide (Dispatch.type_key r = k) | _ => false end)
      (tool_registers flows logs ++ cs) (Dispatch.CRegister (Some (VRec false t (zero_value t))) 0)) as (l1 & y & l2 & E & Hy & Hz).
    + apply elem_of_app. left. unfold tool_registers. apply elem_of_list_fmap. eauto.
    + apply bool_decide_eq_true_2. rewrite <- Hk. reflexivity.
    + destruct y as [[r|] st'|]; try discriminate Hy. apply bool_decide_eq_true_1 in Hy.
      destruct (Hin (Some r) st') as [-> _]; [rewrite E; apply elem_of_app; right; left|].
      exists l1, r, l2. split; [exact E|]. split; [exact Hy|]. intros r' st'' Hr'. apply Hz in Hr'. by apply bool_decide_eq_false_1 in Hr'.
Qed.

Lemma dispatchers flows logs cs e src post : Forall (fun c => DispatchFacts.is_new c = true) cs ->
  DispatchFacts.cmds_ok (tool_registers flows logs ++ cs ++ Dispatch.CNew e src :: post) ->
  exists a, Dispatch.d_disp (Dispatch.run_cmds (tool_registers flows logs ++ cs ++ Dispatch.CNew e src :: post)) !! length cs = Some (src, a) /\
    Dispatch.deref (Dispatch.run_cmds (tool_registers flows logs ++ cs ++ Dispatch.CNew e src :: post)) a = tool_routes flows logs.
Proof.
  intros Hcs Hok. rewrite app_assoc in *. destruct (DispatchFacts.dispatcher_snapshot _ _ _ _ Hok) as (a & Ha & Hm). exists a. split.
  - rewrite <- Ha. f_equal. rewrite filter_app, app_length.
    assert (forall l, Forall (fun c => DispatchFacts.is_new c = true) l -> length (filter DispatchFacts.is_new l) = length l) as H1.
    { intros l Hl. induction Hl as [|c l Hc Hl IH]; [done|]. rewrite filter_cons_True by (by rewrite Hc). cbn [length]. by rewrite IH. }
    assert (forall l, length (filter DispatchFacts.is_new ((fun t => Dispatch.CRegister (Some (VRec false t (zero_value t))) 0) <$> l)) = 0) as H2.
    { intros l. induction l as [|t l IH]; [done|]. exact IH. }
    unfold tool_registers. rewrite H2, (H1 _ Hcs). reflexivity.
  - apply map_eq. intros k. apply option_eq. intros st. rewrite Hm. by apply registered_routes.
Qed.

(** ** Entries stay *)

Lemma came_as_some id l : came_as id l <> [] <-> exists e src r, (e, src, r) ∈ l /\ vrec_identity r = id.
Proof.
  split.
  - intros H. destruct (came_as id l) as [|[src r] l'] eqn:E; [done|].
    assert ((src, r) ∈ came_as id l) as Hin by (rewrite E; left). unfold came_as in Hin. apply elem_of_list_omap in Hin as ([[e src'] r'] & Hin & Hs).
    case_bool_decide as Ed; [|discriminate Hs]. injection Hs as -> ->. eauto.
  - intros (e & src & r & Hin & Hid) E. assert ((src, r) ∈ came_as id l) as H; [|rewrite E in H; by apply elem_of_nil in H].
    unfold came_as. apply elem_of_list_omap. eexists. split; [exact Hin|]. cbn. by rewrite bool_decide_eq_true_2.
Qed.

(** Every key is that of a record that came. *)
Lemma key_came l k x : Forall fine l -> entry_at (contents (state_after fixture_config (hist l))) k = Some x ->
  exists e src r, (e, src, r) ∈ l /\ k = ("//" ++ vrec_identity r)%string.
Proof.
  intros HF Hx. unfold entry_at in Hx. destruct (contents (state_after fixture_config (hist l)) !! k) as [[y v]|] eqn:E; [|discriminate Hx].
  destruct (collected_key (hist l) k y v (hist_envs _ HF)) as (r & (e & src & Hin) & ->); [|exact E|].
  - unfold collects, hist. rewrite Forall_fmap. apply Forall_forall. intros [[e src] r] _. done.
  - unfold hist in Hin. apply elem_of_list_fmap in Hin as ([[e' src'] r'] & [= <- <- <-] & Hin). eauto.
Qed.

(** The entry at a key: that of the first record with the identity. *)
Lemma first_kept l id : Forall fine l ->
  match came_as id l with
  | [] => entry_at (contents (state_after fixture_config (hist l))) ("//" ++ id)%string = None
  | (src0, r0) :: _ => exists x, entry_at (contents (state_after fixture_config (hist l))) ("//" ++ id)%string = Some x /\ m_source (e_meta x) = src0 /\ e_tm x = vrec_meta r0
  end.
Proof.
  intros HF. destruct (decide (id = ""%string)) as [->|Hid].
  - pose proof (store_nameless l HF) as H. change ("//" ++ "")%string with "//"%string. destruct (came_as "" l) as [|[src0 r0] l']; [exact H|].
    destruct H as (x & H1 & H2 & H3 & _). eauto.
  - pose proof (store_holds l id HF Hid) as H. destruct (came_as id l) as [|[src0 r0] l']; [exact H|].
    destruct H as (x & r & a & src1 & r1 & H1 & H2 & H3 & _). eauto.
Qed.

Lemma in_range_app a b : all_in_range (a ++ b) -> all_in_range a.
Proof. intros H j i m Hin. eapply H. apply elem_of_app. left. exact Hin. Qed.
Lemma envs_app a b : tenvs_ok (a ++ b) -> tenvs_ok a.
Proof. intros H j i e r Hin. eapply H. apply elem_of_app. left. exact Hin. Qed.

Lemma kept flows logs infos n now ls s tr ls' s' tr' k x : trun flows logs infos (t_init n now) ls = Some (s, tr) -> trun flows logs infos s ls' = Some (s', tr') ->
  all_in_range (tr ++ tr') -> tenvs_ok (tr ++ tr') -> entry_at (contents (t_store s)) k = Some x ->
  exists y, entry_at (contents (t_store s')) k = Some y /\ m_source (e_meta y) = m_source (e_meta x) /\ e_tm y = e_tm x.
Proof.
  intros H1 H2 Hr He Hx.
  assert (trun flows logs infos (t_init n now) (ls ++ ls') = Some (s', tr ++ tr')) as H3 by (by rewrite run_app, H1, H2).
  destruct (store_is _ _ _ _ _ _ _ _ H1 (in_range_app _ _ Hr) (envs_app _ _ He)) as [E1 _]. destruct (store_is _ _ _ _ _ _ _ _ H3 Hr He) as [E3 _].
  pose proof (came_fine _ _ _ _ _ _ _ _ H1 (in_range_app _ _ Hr) (envs_app _ _ He)) as F1. pose proof (came_fine _ _ _ _ _ _ _ _ H3 Hr He) as F3.
  rewrite E1 in Hx. rewrite E3. destruct (key_came _ _ _ F1 Hx) as (e & src & r & Hin & ->).
  pose proof (first_kept _ (vrec_identity r) F1) as K1. pose proof (first_kept _ (vrec_identity r) F3) as K3.
  rewrite came_app, came_as_app in K3. destruct (came_as (vrec_identity r) (came flows logs infos tr)) as [|[src0 r0] l'] eqn:El; [congruence|].
  cbn [app] in K3. rewrite <- came_app in K3. destruct K1 as (x' & Hx' & A1 & A2). destruct K3 as (y & Hy & B1 & B2). rewrite Hx in Hx'. injection Hx' as <-.
  exists y. split; [exact Hy|]. split; congruence.
Qed.

(** ** What is served *)

Lemma listed flows logs infos n now ls s tr zone e srcs : trun flows logs infos (t_init n now) ls = Some (s, tr) -> all_in_range tr -> tenvs_ok tr -> env_ok e ->
  exists ids l, NoDup ids /\ (forall id, id ∈ ids <-> exists e src r, (e, src, r) ∈ came flows logs infos tr /\ vrec_identity r = id) /\
    Forall2 (fun id x => entry_at (contents (t_store s)) ("//" ++ id)%string = Some x) ids l /\
    answer flows logs zone e (t_store s) srcs "/" = Reply 200 (if forallb (entry_json_ok zone) l then Some (Body l false (offered flows logs)) else None).
Proof.
  intros Hr Hrange Hen He. destruct (store_is _ _ _ _ _ _ _ _ Hr Hrange Hen) as [Es _]. pose proof (came_fine _ _ _ _ _ _ _ _ Hr Hrange Hen) as HF.
  destruct (root_answer flows logs zone e (t_store s) srcs He) as (l & (ks & Hnd & HF2 & Hks) & Ha).
  assert (forall k, k ∈ ks -> exists id, k = ("//" ++ id)%string) as Hform.
  { intros k Hk. apply Hks in Hk as (x & Hx & _). rewrite Es in Hx. destruct (key_came _ _ _ HF Hx) as (? & ? & r & _ & ->). eauto. }
  assert (exists ids, ks = (fun id => ("//" ++ id)%string) <$> ids) as [ids ->].
  { clear -Hform. induction ks as [|k ks IH]; [by exists []|]. destruct (Hform k) as [id ->]; [left|]. destruct IH as [ids ->]; [intros; apply Hform; by right|]. by exists (id :: ids). }
  exists ids, l. split; [by eapply NoDup_fmap_1|]. split.
  - intros id. trans (("//" ++ id)%string ∈ (fun id => ("//" ++ id)%string) <$> ids).
    { rewrite elem_of_list_fmap. split; [by eauto|]. intros (id' & [= ->] & H). exact H. }
    rewrite Hks. rewrite <- came_as_some, Es. pose proof (first_kept _ id HF) as K. split.
    + intros (x & Hx & _) E. rewrite E in K. congruence.
    + intros H. destruct (came_as id _) as [|[? ?] ?]; [done|]. destruct K as (x & Hx & _). eauto.
  - split; [by apply Forall2_fmap_l in HF2|exact Ha].
Qed.

(** ** Dispatchers return *)

Definition dispatcher_step (l : tlabel) : bool := match l with TPut _ _ _ | TReturn _ _ => true | TJ _ => false end.

Lemma finish_one flows logs infos n now e : env_ok e -> forall rs ls s tr j i, trun flows logs infos (t_init n now) ls = Some (s, tr) -> all_in_range tr -> tenvs_ok tr ->
  j_crashed (t_j s) = false -> t_todo s !! (j, i) = Some rs ->
  exists ls' s' tr', Forall (fun l => dispatcher_step l = true) ls' /\ trun flows logs infos s ls' = Some (s', tr') /\ t_j s' = t_j s /\
    t_todo s' = delete (j, i) (t_todo s) /\ all_in_range (tr ++ tr') /\ tenvs_ok (tr ++ tr').
Proof.
  intros He. induction rs as [|r rs IH]; intros ls s tr j i Hr Hrange Hen Hc Ht.
  - destruct (store_is _ _ _ _ _ _ _ _ Hr Hrange Hen) as [_ Hcr].
    exists [TReturn j i], (TState (t_j s) (t_w s) (delete (j, i) (t_todo s)) false), [TRet j i]. split; [by constructor|]. split.
    { rewrite run_one. unfold tstep. by rewrite Hcr, Hc, Ht. }
    split; [done|]. split; [done|]. split.
    + intros j' i' m [Hin|Hin]%elem_of_app; [by eapply Hrange|]. apply elem_of_list_singleton in Hin. discriminate Hin.
    + intros j' i' e' r' [Hin|Hin]%elem_of_app; [by eapply Hen|]. apply elem_of_list_singleton in Hin. discriminate Hin.
  - destruct (store_is _ _ _ _ _ _ _ _ Hr Hrange Hen) as [_ Hcr].
    destruct (Dispatch.dispatch (fun _ => fixture_config) (tool_routes flows logs) (source_of (infos j)) [(e, r)] (t_w s)) as [[w de] p] eqn:Ed.
    set (s1 := TState (t_j s) w (<[(j, i) := rs]> (t_todo s)) p).
    assert (tstep flows logs infos s (TPut j i e) = Some (s1, [TDisp j i e r])) as H1 by (unfold tstep; by rewrite Hcr, Hc, Ht, Ed).
    assert (trun flows logs infos (t_init n now) (ls ++ [TPut j i e]) = Some (s1, tr ++ [TDisp j i e r])) as Hr1 by (by rewrite run_app, Hr, run_one, H1).
    assert (all_in_range (tr ++ [TDisp j i e r])) as Hrange1.
    { intros j' i' m [Hin|Hin]%elem_of_app; [by eapply Hrange|]. apply elem_of_list_singleton in Hin. discriminate Hin. }
    assert (tenvs_ok (tr ++ [TDisp j i e r])) as Hen1.
    { intros j' i' e' r' [Hin|Hin]%elem_of_app; [by eapply Hen|]. apply elem_of_list_singleton in Hin. by injection Hin as _ _ -> _. }
    destruct (IH _ _ _ j i Hr1 Hrange1 Hen1 Hc) as (ls' & s' & tr' & F & R & J & T & A1 & A2).
    { unfold s1. cbn [t_todo]. by rewrite lookup_insert. }
    exists (TPut j i e :: ls'), s', (TDisp j i e r :: tr'). split; [by constructor|]. split.
    { change (TPut j i e :: ls') with ([TPut j i e] ++ ls'). change (TDisp j i e r :: tr') with ([TDisp j i e r] ++ tr'). by rewrite run_app, run_one, H1, R. }
    split; [done|]. split; [rewrite T; unfold s1; cbn [t_todo]; by rewrite delete_insert_delete|].
    rewrite <- app_assoc in A1, A2. split; [exact A1|exact A2].
Qed.

Lemma finish flows logs infos n now e ls s tr : env_ok e -> trun flows logs infos (t_init n now) ls = Some (s, tr) -> all_in_range tr -> tenvs_ok tr ->
  j_crashed (t_j s) = false ->
  exists ls' s' tr', Forall (fun l => dispatcher_step l = true) ls' /\ trun flows logs infos s ls' = Some (s', tr') /\ t_j s' = t_j s /\
    t_todo s' = ∅ /\ t_crashed s' = false /\ tenvs_ok (tr ++ tr').
Proof.
  intros He. remember (size (t_todo s)) as k eqn:Ek. revert ls s tr Ek. induction k as [|k IH]; intros ls s tr Ek Hr Hrange Hen Hc.
  - exists [], s, []. split; [constructor|]. split; [done|]. split; [done|]. split; [by apply map_size_empty_inv|]. rewrite app_nil_r. split; [|done].
    by destruct (store_is _ _ _ _ _ _ _ _ Hr Hrange Hen).
  - destruct (map_choose (t_todo s)) as ([j i] & rs & Ht).
    { intros E. rewrite E, map_size_empty in Ek. discriminate Ek. }
    destruct (finish_one _ _ _ _ _ _ He _ _ _ _ _ _ Hr Hrange Hen Hc Ht) as (ls1 & s1 & tr1 & F1 & R1 & J1 & T1 & A1 & B1).
    destruct (IH (ls ++ ls1) s1 (tr ++ tr1)) as (ls2 & s2 & tr2 & F2 & R2 & J2 & T2 & C2 & B2).
    + rewrite T1, map_size_delete, Ht. cbn. lia.
    + by rewrite run_app, Hr, R1.
    + exact A1.
    + exact B1.
    + by rewrite J1.
    + exists (ls1 ++ ls2), s2, (tr1 ++ tr2). split; [by apply Forall_app|]. split; [by rewrite run_app, R1, R2|]. split; [congruence|]. split; [exact T2|]. split; [exact C2|]. by rewrite app_assoc.
Qed.
