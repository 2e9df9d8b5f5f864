(** From the managers of many sources to the store of the tool: what EndToEnd.v
    says of one source and one collector, for the collector of Collect.v. *)
From Coq Require Import ZArith NArith Ascii String Lia.
From stdpp Require Import base gmap strings list pretty.
From Verif Require Import GoBase Encoding SpecEncoding Records Messages SpecMessages MessageFacts Env SyncMap Cache SpecStore StoreExamples
  Dispatch Diff DiffFacts ConvergeFacts Manager ManagerFacts ManagerPass ManagerLive EndToEnd
  Tool Run Keepalive Client ClientFacts Discovery WatchClient Collect.
From Verif Require CollectFacts CollectLive CollectMore.
Import CollectFacts (all_in_range, tenvs_ok, dispatched, handled, records_of, came, came_as, latest).
Import CollectLive (registered_first).

Local Open Scope list_scope.
Local Opaque vanflow_registry builtin_types record_types Encode Decode attrs_of decode_msg.

(** ** Specification *)

(** A manager runs; [ws] are the messages it sent in the second part of its run,
    and none of these failed.  All versions [rs] of record [k] are published and
    sent by then, and in that part it sent the whole record because of a flush -
    or that part is the whole run, with the first version. *)
Definition sends (ty : nat -> string -> gotype) (m : gmap string nat) (k : string * string) (rs : list vrec) (ws : list amqp_msg) : Prop :=
  exists c o w ls1 ls2 s1 ev1 s2 ev2,
    Forall (fun x => legit ty m x /\ rkey x = k) rs /\ labels_ok (ls1 ++ ls2) /\
    at_all_times c w (ls1 ++ ls2) (sendable ty m c) /\ at_all_times c w (ls1 ++ ls2) (versions k rs o c) /\
    mrun c (m_init w) ls1 = Some (s1, ev1) /\ mrun c s1 ls2 = Some (s2, ev2) /\ m_crashed s2 = false /\ resting s2 /\
    o + length (about k (published (ev1 ++ ev2))) = length rs /\
    ((exists r, Some r ∈ concat (flush_msgs ev2) /\ rkey r = k) \/ ev1 = [] /\ o = 0) /\
    (forall mm am, MSent mm am false ∉ ev2) /\ ws = snd <$> wires ev2.

(** The message has records. *)
Definition carries (m : amqp_msg) : bool := match decoded m with Some (MsgRecord _) => true | _ => false end.

(** Listener [i] of client [j] accepted just these record messages, with the
    dispatcher registered before, and is done with them. *)
Definition got (j i : nat) (ws : list amqp_msg) (s : tstate) (tr : list tev) : Prop :=
  registered_first j i tr /\ filter (fun m => carries m = true) (accepted i (cevs j (jevs tr))) = ws /\
  t_todo s !! (j, i) = None /\
  exists c, j_cl (t_j s) !! j = Some c /\ (forall x, pc_of c i <> Some (LGet x)) /\ (forall x hs, pc_of c i <> Some (Client.LRun x hs)).

(** Only that listener brought records with this identity. *)
Definition alone (flows logs : bool) (j i : nat) (id : string) (tr : list tev) : Prop :=
  forall j' i' e q, TDisp j' i' e (Some q) ∈ tr -> vrec_identity q = id -> vr_type q ∈ tool_types flows logs -> j' = j /\ i' = i.

(** ** What was sent *)

Lemma sent_end ty m k rs ws i r : sends ty m k rs ws -> last rs = Some r -> m !! k.1 = Some i ->
  exists bs a, Forall2 (fun w b => encode_record_msg (RecordMsg (MsgProps "" "" "") (Some <$> b)) = Ok w) ws bs /\ Forall (legit ty m) (concat bs) /\
    concerning m i k.2 (concat bs) = of_key k (concat bs) /\
    laid None (of_key k (concat bs)) = Some a /\ attrs_of r ⊆ a /\ (never_clears rs -> a = attrs_of r).
Proof.
  intros (c & o & w & ls1 & ls2 & s1 & ev1 & s2 & ev2 & HF & Hok & HS & HW & Hr1 & Hr2 & Hc & Hrest & Hn & Hor & Hsent & ->) Hlast Hm.
  assert (versions_ok k rs) as HV. { eapply Forall_impl; [exact HF|]. intros x [[? _] ?]. done. }
  destruct (taken ty m c k rs o w ls1 ls2 s1 ev1 s2 ev2 HV Hok HS HW Hr1 Hr2 Hc Hrest Hn) as (bs & l1 & Hbs & Hleg & Hem & Hnil & Hfl).
  assert (mrun c (m_init w) (ls1 ++ ls2) = Some (s2, ev1 ++ ev2)) as Hr by (by rewrite mrun_app, Hr1, Hr2).
  destruct (send_inv_run c w (ls1 ++ ls2) s2 (ev1 ++ ev2) Hr) as (lost & _ & _ & _ & Hfa).
  apply Forall_app in Hfa as [_ Hfa].
  assert (Forall2 (fun w b => encode_record_msg (RecordMsg (MsgProps "" "" "") (Some <$> b)) = Ok w) (snd <$> wires ev2) bs) as Hdel.
  { assert (Forall (fun b => encodable (Some <$> b)) bs) as Henc.
    { clear -Hleg. induction bs as [|b bs IH]; [constructor|]. cbn [concat] in Hleg. apply Forall_app in Hleg as [H1 H2].
      constructor; [by eapply legit_encodable|by apply IH]. }
    clear -Hfa Hsent Hbs Henc. revert bs Hbs Henc. induction Hfa as [|x ev Hx HF IH]; intros bs Hb He.
    - destruct bs; [|done]. constructor.
    - assert (forall mm am, MSent mm am false ∉ ev) as Hok' by (intros mm am Hin; apply (Hsent mm am); by right).
      specialize (IH Hok'). unfold processed, wires in *. destruct x as [u|b0 mm| | | | |mm am ok|mm]; cbn [omap list_omap] in *; try (by apply IH).
      + destruct bs as [|b bs]; [done|]. rewrite fmap_cons in Hb. injection Hb as -> Hb. apply Forall_cons in He as [_ He].
        destruct ok; [|exfalso; eapply Hsent; left]. cbn. constructor; [|by apply IH]. exact Hx.
      + destruct bs as [|b bs]; [done|]. rewrite fmap_cons in Hb. injection Hb as -> Hb. apply Forall_cons in He as [[am He] _].
        destruct Hx as [er Her]. exfalso. unfold encode_mmsg in *. rewrite He in Her. discriminate Her. }
  assert (concerning m i k.2 (concat bs) = of_key k (concat bs)) as Hck.
  { apply (concerning_of_key ty m i k); [eapply Forall_impl; [exact Hleg|by intros x [_ ?]]|exact Hm|].
    exists r. apply last_Some_elem_of in Hlast. apply (proj1 (Forall_forall _ _) HF) in Hlast as [[_ ?] ?]. done. }
  assert (exists a, laid None (of_key k (concat bs)) = Some a /\ fresh rs (length rs) a) as (a & Ha & Hfr).
  { destruct Hor as [Hf|[-> ->]].
    - destruct (Hfl Hf) as (l2 & r1 & n & h & l3 & -> & Hrn & Hle & Hem3). rewrite laid_app.
      set (acc := laid None l2).
      change (laid acc (r1 :: l3)) with (laid (Some (attrs_of r1 ∪ default ∅ acc)) l3).
      destruct (laid_Some_app (attrs_of r1 ∪ default ∅ acc) l3) as [a Ha]. exists a. split; [exact Ha|].
      eapply (emits_fresh k); [exact HV|exact Hem3| |exact Ha]. by apply (fresh_whole rs h n).
    - rewrite (Hnil eq_refl) in Hem. apply (emits_first k); [exact HV|exact Hem|]. destruct rs; [done|simpl; lia]. }
  exists bs, a. split; [exact Hdel|]. split; [exact Hleg|]. split; [exact Hck|]. split; [exact Ha|].
  pose proof (fresh_last rs r a Hlast Hfr) as Hsub. split; [exact Hsub|].
  intros Hnc.
  pose proof (emits_dom k rs o _ _ r HV Hnc Hlast Hem) as Hdom. apply Forall_app in Hdom as [_ Hdom].
  pose proof (laid_dom (attrs_of r) _ a Ha Hdom) as Hd.
  apply map_eq. intros x. apply option_eq. intros y. split.
  - intros Hx. destruct (Hd x) as [z Hz]; [eauto|]. pose proof (lookup_weaken _ _ _ _ Hz Hsub). congruence.
  - intros Hx. by eapply lookup_weaken.
Qed.

(** What these messages decode to. *)
Lemma sent_decoded ws bs : Forall2 (fun w b => encode_record_msg (RecordMsg (MsgProps "" "" "") (Some <$> b)) = Ok w) ws bs -> Forall publishable (concat bs) ->
  exists R, concat (records_of <$> omap decoded ws) = Some <$> R /\ Forall2 same_content (concat bs) R.
Proof.
  induction 1 as [|w b ws bs Hw HF IH]; intros Hp.
  - exists []. split; [done|constructor].
  - cbn [concat] in Hp. apply Forall_app in Hp as [Hp0 Hp]. destruct (IH Hp) as (R & HR & HS).
    destruct (record_msg_round_trip (RecordMsg (MsgProps "" "" "") (Some <$> b)) w b eq_refl) as (rs' & HF' & Hd).
    { eapply Forall_impl; [exact Hp0|]. intros r [G _]. exact G. }
    { exact Hw. }
    exists (rs' ++ R). cbn [omap list_omap]. unfold decoded at 1. rewrite Hd. cbn [fmap list_fmap concat records_of rm_records]. split.
    + rewrite fmap_app. f_equal. exact HR.
    + cbn [concat]. apply Forall2_app; [|exact HS]. clear -HF' Hp0. induction HF' as [|r r' rs rs' Hn HF IH]; [constructor|]. apply Forall_cons in Hp0 as [Hp0 Hp].
      constructor; [by apply wire_normal|by apply IH].
Qed.

(** Other messages have no records. *)
Lemma carrying l : concat (records_of <$> omap decoded l) = concat (records_of <$> omap decoded (filter (fun m => carries m = true) l)).
Proof.
  induction l as [|m l IH]; [done|]. rewrite filter_cons. cbn [omap list_omap]. destruct (decide (carries m = true)) as [H|H].
  - cbn [omap list_omap]. destruct (decoded m) as [x|]; [|exact IH]. cbn. f_equal. exact IH.
  - unfold carries in H. destruct (decoded m) as [[]|]; first [exact IH|by destruct H].
Qed.

(** ** What came *)

Lemma came_alone flows logs infos j i id tr : alone flows logs j i id tr ->
  came_as id (came flows logs infos tr) =
  (fun r => (SourceRef (pretty (i_version (infos j))) (i_type (infos j)) (i_id (infos j)), r)) <$>
    filter (fun r => vr_type r ∈ tool_types flows logs /\ vrec_identity r = id) (omap (fun x => x) (dispatched j i tr)).
Proof.
  unfold came_as, came, dispatched. induction tr as [|e tr IH]; intros Ho; [done|].
  assert (alone flows logs j i id tr) as Ho' by (intros j' i' e' q Hin; apply (Ho j' i' e' q); by right). specialize (IH Ho').
  destruct e as [x|j' i' e r|j' i']; [exact IH| |exact IH]. cbn [omap list_omap]. destruct r as [r|].
  - destruct (decide (vr_type r ∈ tool_types flows logs)) as [Ht|Ht].
    + rewrite (bool_decide_eq_true_2 (vr_type r ∈ _) Ht). cbn [omap list_omap]. destruct (decide (vrec_identity r = id)) as [Hi|Hi].
      * destruct (Ho j' i' e r) as [-> ->]; [by left|exact Hi|exact Ht|]. rewrite (bool_decide_eq_true_2 _ Hi), bool_decide_eq_true_2 by done.
        cbn [omap list_omap]. rewrite filter_cons, decide_True by done. cbn [fmap list_fmap]. f_equal. exact IH.
      * rewrite (bool_decide_eq_false_2 _ Hi). case_bool_decide; [|exact IH]. cbn [omap list_omap]. rewrite filter_cons, decide_False by tauto. exact IH.
    + rewrite (bool_decide_eq_false_2 (vr_type r ∈ _) Ht). case_bool_decide; [|exact IH]. cbn [omap list_omap]. rewrite filter_cons, decide_False by tauto. exact IH.
  - case_bool_decide; exact IH.
Qed.

Lemma omap_Some (l : list vrec) : omap (fun x => x) (Some <$> l) = l.
Proof. induction l as [|x l IH]; [done|]. cbn. f_equal. exact IH. Qed.

Lemma filter_concerning flows logs id l : Forall publishable l ->
  filter (fun r => vr_type r ∈ tool_types flows logs /\ vrec_identity r = id) l = concerning (tool_routes flows logs) 0 id l.
Proof.
  unfold concerning. induction 1 as [|r l [Hg _] HF IH]; [done|]. rewrite !filter_cons, IH.
  pose proof (CollectFacts.routes flows logs r 0 Hg) as HR.
  destruct (decide (vr_type r ∈ tool_types flows logs /\ vrec_identity r = id)) as [[H1 H2]|H].
  - rewrite decide_True; [done|]. split; [by apply HR|done].
  - rewrite decide_False; [done|]. intros [H1 H2]. apply H. split; [by apply HR|done].
Qed.

Lemma latest_laid src l a : Forall publishable l -> laid None l = Some a -> forall c v, a !! c = Some v <-> latest ((fun r => (src, r)) <$> l) c v.
Proof.
  intros Hp Ha c v. rewrite (laid_lookup None l a Ha). split.
  - intros [(l1 & r & l2 & -> & Hr & Hl2)|(_ & a0 & E & _)]; [|discriminate E].
    apply Forall_app in Hp as [_ Hp]. apply Forall_cons in Hp as [[_ Hr0] Hp].
    exists ((fun r => (src, r)) <$> l1), src, r, (attrs_of r), ((fun r => (src, r)) <$> l2). rewrite fmap_app, fmap_cons. split; [done|]. split; [exact Hr0|]. split; [exact Hr|].
    apply Forall_fmap. apply Forall_forall. intros q Hq. cbn [compose snd]. intros b' Hb.
    apply (proj1 (Forall_forall _ _) Hp) in Hq as Hq'. destruct Hq' as [_ Hq']. cbn in Hb. rewrite Hq' in Hb. injection Hb as <-.
    by apply (proj1 (Forall_forall _ _) Hl2) in Hq.
  - intros (l1 & s0 & r & b & l2 & E & Hb & Hv & Hl2). left.
    apply fmap_app_inv in E as (m1 & m2 & -> & E & ->). symmetry in E. apply fmap_cons_inv in E as (r0 & m3 & [= _ ->] & -> & ->).
    apply Forall_app in Hp as [_ Hp]. apply Forall_cons in Hp as [[_ Hr0] Hp]. rewrite Hr0 in Hb. injection Hb as <-.
    exists m1, r0, m3. split; [done|]. split; [exact Hv|]. apply Forall_forall. intros q Hq.
    apply (proj1 (Forall_forall _ _) Hp) in Hq as Hq'. destruct Hq' as [_ Hq'].
    apply Forall_fmap in Hl2. apply (proj1 (Forall_forall _ _) Hl2) in Hq. cbn in Hq. by apply Hq.
Qed.

Lemma arrives_tool flows logs infos n now ls s tr ty k rs ws j i r : trun flows logs infos (t_init n now) ls = Some (s, tr) -> all_in_range tr -> tenvs_ok tr ->
  sends ty (tool_routes flows logs) k rs ws -> last rs = Some r -> k.2 <> ""%string -> vr_type r ∈ tool_types flows logs ->
  got j i ws s tr -> alone flows logs j i k.2 tr ->
  exists x q a, entry_at (contents (t_store s)) ("//" ++ k.2)%string = Some x /\
    m_source (e_meta x) = SourceRef (pretty (i_version (infos j))) (i_type (infos j)) (i_id (infos j)) /\ e_tm x = vrec_meta r /\
    e_rec x = Some q /\ vrec_identity q = k.2 /\ vr_type q = vr_type r /\ Encode vanflow_registry (vrec_any q) = EncOk a /\ attrs_of r ⊆ a /\
    (never_clears rs -> a = attrs_of r).
Proof.
  intros Hr Hrange He Hs Hlast Hid Hty (Hreg & Hacc & Htodo & c & Hcl & Hg1 & Hg2) Hal.
  assert (legit ty (tool_routes flows logs) r /\ rkey r = k) as [[Hpr Htr] Hkr].
  { destruct Hs as (? & ? & ? & ? & ? & ? & ? & ? & ? & HF & _). apply last_Some_elem_of in Hlast. by apply (proj1 (Forall_forall _ _) HF) in Hlast. }
  assert (tool_routes flows logs !! k.1 = Some 0) as Hm.
  { rewrite <- Hkr. unfold rkey. cbn [fst]. apply CollectFacts.routes; [apply Hpr|done]. }
  destruct (sent_end _ _ _ _ _ _ _ Hs Hlast Hm) as (bs & a & HF & Hleg & Hck & Ha & Hsub & Heq).
  assert (Forall publishable (concat bs)) as Hpub by (eapply Forall_impl; [exact Hleg|by intros x [? _]]).
  assert (Forall (typed_as ty (tool_routes flows logs)) (concat bs)) as Htyp by (eapply Forall_impl; [exact Hleg|by intros x [_ ?]]).
  destruct (sent_decoded ws bs HF Hpub) as (R & HR & HSame).
  destruct (CollectLive.accepted_dispatched _ _ _ _ _ _ _ _ j i c Hr Hreg Hcl) as (rest & Hd & Hrest).
  rewrite (Hrest Htodo Hg1 Hg2), app_nil_r, carrying, Hacc, HR in Hd.
  assert (Forall publishable R) as HpR by (clear -HSame; induction HSame as [|? ? ? ? [? _] ? ?]; by constructor).
  pose proof (same_typed _ _ _ _ HSame Htyp) as HtR.
  destruct (CollectFacts.store_is _ _ _ _ _ _ _ _ Hr Hrange He) as [Hst _].
  pose proof (CollectFacts.store_holds (came flows logs infos tr) k.2 (CollectFacts.came_fine _ _ _ _ _ _ _ _ Hr Hrange He) Hid) as Hh. rewrite <- Hst in Hh.
  rewrite (came_alone flows logs infos j i k.2 tr Hal), Hd, omap_Some, (filter_concerning _ _ _ _ HpR) in Hh.
  set (src := SourceRef _ _ _) in *. set (L := concerning (tool_routes flows logs) 0 k.2 R) in *.
  assert (laid None L = Some a) as HaL by (unfold L; rewrite (same_concerning _ _ _ _ _ HSame), Hck; exact Ha).
  assert (Forall publishable L) as HpL by (apply Forall_forall; intros q Hq; apply elem_of_list_filter in Hq as [_ Hq]; by apply (proj1 (Forall_forall _ _) HpR) in Hq).
  assert (forall q, q ∈ L -> vr_type q = vr_type r) as HtL.
  { intros q Hq. apply elem_of_list_filter in Hq as [[Hq1 Hq2] Hq]. apply (proj1 (Forall_forall _ _) HtR) in Hq.
    rewrite (Hq 0 Hq1), Hq2. symmetry. rewrite (Htr 0); [by rewrite <- Hkr|]. by rewrite <- Hkr in Hm. }
  unfold CollectFacts.holds in Hh. destruct L as [|q0 L'] eqn:EL; [discriminate HaL|]. cbn [fmap list_fmap] in Hh.
  destruct Hh as (x & q & b & src1 & r1 & Hx & Hsrc & Htm & Hq & Hqi & Hqe & Hl & Hqt & _ & Hall).
  exists x, q, b. split; [exact Hx|]. split; [exact Hsrc|].
  split. { rewrite Htm. unfold vrec_meta. by rewrite (HtL q0) by left. }
  split; [exact Hq|]. split; [exact Hqi|].
  split. { rewrite Hqt. apply last_Some_elem_of in Hl. change ((src, q0) :: ((fun r => (src, r)) <$> L')) with ((fun r => (src, r)) <$> q0 :: L') in Hl. apply elem_of_list_fmap in Hl as (q1 & [= _ ->] & Hin). by apply HtL. }
  split; [exact Hqe|].
  assert (b = a) as ->; [|done].
  apply map_eq. intros cc. apply option_eq. intros v.
  rewrite (latest_laid src (q0 :: L') a HpL HaL). apply Hall. change ((src, q0) :: ((fun r => (src, r)) <$> L')) with ((fun r => (src, r)) <$> q0 :: L').
  apply Forall_fmap. apply Forall_forall. intros q1 Hq1. cbn. rewrite (HtL q1 Hq1), (HtL q0); [done|left].
Qed.
