(** Records of many sources arrive at the tool: C115.  The vocabulary is at the
    top of Arrive.v ([sends], [carries], [got], [alone]), EndToEnd.v ([legit],
    [versions], [sendable], [wires]) and CollectFacts.v. *)
From Coq Require Import ZArith NArith String Lia.
From stdpp Require Import base gmap strings list pretty.
From Verif Require Import GoBase Encoding SpecEncoding Records Messages SpecMessages Env SyncMap Tokens Cache SpecStore StoreExamples
  Dispatch Diff DiffFacts ConvergeFacts Manager ManagerFacts ManagerPass ManagerLive ManagerExamples EndToEnd EndToEndExamples
  Tool Http HttpFacts Run Keepalive Client ClientFacts Discovery WatchClient Collect Arrive.
From Verif Require CollectFacts CollectLive CollectMore Props_Collect.
Import CollectFacts (msg_in_range, all_in_range, tenvs_ok, dispatched, came).
Import Props_Collect (ex_infos, ex_join, ex_get, ex_msg, listens, clocks, reg_first).

Local Open Scope list_scope.

(** ** C115 *)

(** Any number of sources are collected, each whenever it likes.  When listener
    [i] of client [j] has accepted what a manager sent after it asked for a
    flush, or all it ever sent, and nobody else has a record with that identity,
    the store has the record with all attributes of the last version published,
    labelled with source [j] - and no others, unless a version cleared one. *)
Theorem C115_arrives flows logs infos n now ls s tr ty k rs ws j i r : trun flows logs infos (t_init n now) ls = Some (s, tr) -> all_in_range tr -> tenvs_ok tr ->
  sends ty (tool_routes flows logs) k rs ws -> last rs = Some r -> k.2 <> ""%string -> vr_type r ∈ tool_types flows logs ->
  got j i ws s tr -> alone flows logs j i k.2 tr ->
  exists x q a, entry_at (contents (t_store s)) ("//" ++ k.2)%string = Some x /\
    m_source (e_meta x) = SourceRef (pretty (i_version (infos j))) (i_type (infos j)) (i_id (infos j)) /\ e_tm x = vrec_meta r /\
    e_rec x = Some q /\ vrec_identity q = k.2 /\ vr_type q = vr_type r /\ Encode vanflow_registry (vrec_any q) = EncOk a /\ attrs_of r ⊆ a /\
    (never_clears rs -> a = attrs_of r).
Proof. apply arrives_tool. Qed.

(** "/" serves it, unless some entry has no JSON form. *)
Theorem C115_served flows logs infos n now ls s tr ty k rs ws j i r zone e srcs b : trun flows logs infos (t_init n now) ls = Some (s, tr) -> all_in_range tr -> tenvs_ok tr ->
  sends ty (tool_routes flows logs) k rs ws -> last rs = Some r -> k.2 <> ""%string -> vr_type r ∈ tool_types flows logs ->
  got j i ws s tr -> alone flows logs j i k.2 tr -> env_ok e ->
  answer flows logs zone e (t_store s) srcs "/" = Reply 200 (Some b) ->
  exists x q a, x ∈ b_data b /\ e_tm x = vrec_meta r /\ e_rec x = Some q /\ vrec_identity q = k.2 /\
    Encode vanflow_registry (vrec_any q) = EncOk a /\ attrs_of r ⊆ a /\ (never_clears rs -> a = attrs_of r).
Proof.
  intros Hr H1 H2 Hs Hl Hid Ht Hg Hal He Ha.
  destruct (arrives_tool _ _ _ _ _ _ _ _ _ _ _ _ _ _ _ Hr H1 H2 Hs Hl Hid Ht Hg Hal) as (x & q & a & Hx & _ & Htm & Hq & Hqi & _ & Hqe & Hsub & Heq).
  exists x, q, a. split; [|exact (conj Htm (conj Hq (conj Hqi (conj Hqe (conj Hsub Heq)))))].
  destruct (CollectMore.listed _ _ _ _ _ _ _ _ zone e srcs Hr H1 H2 He) as (ids & l & _ & Hi & HF & Ha').
  rewrite Ha' in Ha. destruct (forallb (entry_json_ok zone) l); [|discriminate Ha]. injection Ha as <-. cbn [b_data].
  assert (k.2 ∈ ids) as Hin.
  { apply Hi. destruct (CollectFacts.store_is _ _ _ _ _ _ _ _ Hr H1 H2) as [Hst _]. rewrite Hst in Hx.
    destruct (CollectMore.key_came _ _ _ (CollectFacts.came_fine _ _ _ _ _ _ _ _ Hr H1 H2) Hx) as (e0 & src & r0 & Hc & Hk).
    exists e0, src, r0. split; [exact Hc|]. injection Hk as Hk. by symmetry. }
  apply elem_of_list_lookup in Hin as [p Hp]. destruct (Forall2_lookup_l _ _ _ _ _ HF Hp) as (y & Hy & Hy').
  rewrite Hx in Hy'. injection Hy' as <-. apply elem_of_list_lookup. by exists p.
Qed.

(** A router renames a site and tells of it; then the tool comes, asks for a
    flush and gets the site whole.  Meanwhile another router sends its own. *)
Definition ex_am : amqp_msg := match encode_mmsg [Some ex_site2] with Ok am => am | _ => ex_msg [] "" end.
Definition ex_two : list tlabel :=
  ex_join 0 0 ++ ex_join 1 1 ++ ex_get 0 ex_am ++ ex_get 1 (ex_msg ["s9"] "west") ++
  [TPut 1 0 (at_time 1); TPut 0 0 (at_time 2); TReturn 0 0; TReturn 1 0; TJ (JC 0 (LLRun 0))].

Lemma ex_sends : sends ex_ty (tool_routes false false) ex_key ex_rs [ex_am].
Proof.
  destruct (ex_late (tool_routes false false)) as (s1 & ev1 & s2 & ev2 & am & H1 & H2 & H3 & H4 & H5 & H6 & H7 & H8 & H9 & H10 & H11 & H12 & H13).
  assert (ex_am = am) as -> by (unfold ex_am; rewrite H13; reflexivity).
  exists ex_mc, 1, ex_w1, ex_first, ex_second, s1, ev1, s2, ev2.
  split; [apply ex_rs_ok|]. split; [exact H5|]. split; [exact H6|]. split; [exact H7|]. split; [exact H1|]. split; [exact H2|]. split; [exact H3|]. split; [exact H4|].
  split; [exact H8|]. split; [left; exact H10|]. split; [exact H11|].
  inversion H12 as [|x y l1 l2 (_ & _ & E) H12' E1 E2]. inversion H12'. subst. cbn in *. by rewrite E.
Qed.

Lemma ex_two_runs : trun false false ex_infos (t_init 2 0) ex_two = None -> False.
Proof.
  intros H. assert (match trun false false ex_infos (t_init 2 0) ex_two with Some _ => true | None => false end = true) as E by (vm_compute; reflexivity). rewrite H in E. discriminate E.
Qed.
Definition in_rangeb (a : attr) : bool :=
  match a with
  | AU32 n => bool_decide (n < 2^32)%N | AU64 n => bool_decide (n < 2^64)%N
  | AI32 z => bool_decide (- 2^31 <= z < 2^31)%Z | AI64 z => bool_decide (- 2^63 <= z < 2^63)%Z
  | _ => true
  end.
Lemma in_rangeb_ok a : in_rangeb a = true -> attr_in_range a.
Proof. destruct a; intros H; try exact I; by apply bool_decide_eq_true_1 in H. Qed.
Definition msg_rangeb (m : amqp_msg) : bool :=
  match am_value m with
  | MList l => forallb (fun x => match x with EMap (Some a) => forallb (fun p => in_rangeb p.2) (map_to_list a) | _ => true end) l
  | _ => true
  end.
Lemma msg_rangeb_ok m : msg_rangeb m = true -> msg_in_range m.
Proof.
  unfold msg_rangeb. intros H l a k x El Hin Hx. rewrite El in H. pose proof (proj1 (forallb_forall _ _) H (EMap (Some a))) as H0. cbn beta iota in H0.
  specialize (H0 (proj1 (elem_of_list_In _ _) Hin)). apply in_rangeb_ok.
  apply (proj1 (forallb_forall _ _) H0 (k, x)). apply elem_of_list_In. by apply elem_of_map_to_list.
Qed.
Definition aloneb (j i : nat) (id : string) (tr : list tev) : bool :=
  forallb (fun e => match e with TDisp j' i' _ (Some q) => (Nat.eqb j' j && Nat.eqb i' i) || negb (String.eqb (vrec_identity q) id) | _ => true end) tr.
Lemma aloneb_ok flows logs j i id tr : aloneb j i id tr = true -> alone flows logs j i id tr.
Proof.
  intros H j' i' e q Hin Hq _. pose proof (proj1 (forallb_forall _ _) H _ (proj1 (elem_of_list_In _ _) Hin)) as H0. cbn beta iota in H0. rewrite Hq, String.eqb_refl, orb_false_r in H0.
  apply andb_true_iff in H0 as [H1 H2]. split; by apply Nat.eqb_eq.
Qed.

Definition ex_check (s : tstate) (tr : list tev) : bool :=
  forallb (fun p => msg_rangeb p.2) (listens tr) && reg_first 0 (cevs 0 (jevs tr)) && aloneb 0 0 "s1" tr &&
  match t_todo s !! (0, 0) with Some _ => false | None => true end &&
  match j_cl (t_j s) !! 0 with Some c => match pc_of c 0 with Some LNext => true | _ => false end | None => false end.
Definition ex_accepted (tr : list tev) : list amqp_msg := accepted 0 (cevs 0 (jevs tr)).
Example C115_example : exists s tr, trun false false ex_infos (t_init 2 0) ex_two = Some (s, tr) /\ all_in_range tr /\ tenvs_ok tr /\
  sends ex_ty (tool_routes false false) ex_key ex_rs [ex_am] /\ last ex_rs = Some ex_site2 /\ ex_key.2 = "s1"%string /\ vr_type ex_site2 ∈ tool_types false false /\
  got 0 0 [ex_am] s tr /\ alone false false 0 0 ex_key.2 tr /\ length (came false false ex_infos tr) = 2 /\
  match answer false false (fun _ => 3600%Z) (at_time 9) (t_store s) [] "/" with Reply 200 (Some b) => length (b_data b) = 2 | _ => False end.
Proof.
  destruct (trun false false ex_infos (t_init 2 0) ex_two) as [[s tr]|] eqn:Hr; [|by apply ex_two_runs in Hr]. exists s, tr. split; [reflexivity|].
  assert (match trun false false ex_infos (t_init 2 0) ex_two with
    | Some (s, tr) => ex_check s tr = true /\ filter (fun m => carries m = true) (ex_accepted tr) = [ex_am] /\ length (came false false ex_infos tr) = 2 /\
      match answer false false (fun _ => 3600%Z) (at_time 9) (t_store s) [] "/" with Reply 200 (Some b) => length (b_data b) = 2 | _ => False end
    | None => False end) as H by (vm_compute; repeat split).
  rewrite Hr in H. destruct H as (H1 & H2 & H3 & H4). unfold ex_check in H1.
  apply andb_true_iff in H1 as [H1 Hpc]. apply andb_true_iff in H1 as [H1 Htodo]. apply andb_true_iff in H1 as [H1 Hal]. apply andb_true_iff in H1 as [H1 Hreg].
  split. { apply Props_Collect.in_range_listens. apply Forall_forall. intros p Hp. apply msg_rangeb_ok. by apply (proj1 (forallb_forall _ _) H1), elem_of_list_In. }
  split. { apply Props_Collect.envs_clocks. rewrite (Props_Collect.clocks_labels _ _ _ _ _ _ _ Hr). repeat constructor; apply at_time_ok. }
  split; [exact ex_sends|]. split; [reflexivity|]. split; [reflexivity|]. split; [left|].
  split; [|split; [by apply aloneb_ok|split; [exact H3|exact H4]]].
  split; [by apply Props_Collect.reg_first_ok|]. split; [exact H2|].
  split. { destruct (t_todo s !! (0, 0)); [discriminate Htodo|reflexivity]. }
  destruct (j_cl (t_j s) !! 0) as [c|]; [|discriminate Hpc]. exists c. split; [reflexivity|]. destruct (pc_of c 0) as [[]|]; try discriminate Hpc. split; discriminate.
Qed.

(** What the tool shows of it. *)
Example C115_example_shown : match trun false false ex_infos (t_init 2 0) ex_two with
  | Some (s, tr) => Props_Collect.seen_root s <> None /\
      match entry_at (contents (t_store s)) "//s1" with
      | Some x => sr_name (m_source (e_meta x)) = "a"%string /\ match e_rec x with
          | Some q => match Encode vanflow_registry (vrec_any q) with EncOk a => a !! KU32 30 = Some (AStr "west") | _ => False end
          | None => False end
      | None => False end
  | None => False end.
Proof. vm_compute. repeat split. discriminate. Qed.

Print Assumptions C115_arrives.
Print Assumptions C115_served.
