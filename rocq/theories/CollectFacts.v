(** Facts about the collector of the tool. *)
From Coq Require Import ZArith NArith Ascii String Lia.
From stdpp Require Import base gmap strings list pretty.
From Verif Require Import GoBase Encoding SpecEncoding EncodingFacts CodecFacts DecodeFacts CodecTop CodecLemmas Records BuiltinFacts
  Messages SpecMessages MessageFacts AccumFacts Env SyncMap Tokens Cache SpecStore StoreFacts StoreLemmas ListFacts EventFacts HistFacts
  Tool ToolFacts Run Keepalive Client Discovery WatchClient WatchClientFacts Collect.
From Verif Require Dispatch DispatchFacts ClientFacts WatchClientInv.

Local Open Scope list_scope.
Local Opaque vanflow_registry builtin_types record_types Encode Decode.

(** ** Specification *)

(** All numbers of a message are within their width, as those of every Go value
    are. *)
Definition msg_in_range (m : amqp_msg) : Prop :=
  forall l a k x, am_value m = MList l -> EMap (Some a) ∈ l -> a !! k = Some x -> attr_in_range x.
Definition all_in_range (tr : list tev) : Prop := forall j i m, TEv (JEC j (CRecv i m)) ∈ tr -> msg_in_range m.

(** Likewise for the clocks and choices of the runtime. *)
Definition tenvs_ok (tr : list tev) : Prop := forall j i e r, TDisp j i e r ∈ tr -> env_ok e.

(** The records dispatched by listener [i] of client [j], in order; the messages
    it called Dispatch for; and their records. *)
Definition dispatched (j i : nat) (tr : list tev) : list (option vrec) :=
  omap (fun e => match e with TDisp j' i' _ r => if bool_decide (j' = j /\ i' = i) then Some r else None | _ => None end) tr.
Definition handled (j i : nat) (tr : list tev) : list message :=
  omap (fun e => match e with
    | TEv (JEC j' (CCall i' (User 1) x)) => if bool_decide (j' = j /\ i' = i) then Some x else None | _ => None end) tr.
Definition records_of (x : message) : list (option vrec) := match x with MsgRecord rm => rm_records rm | _ => [] end.

(** What was dispatched for the store: the records of the types the tool
    collects, each with its source: version, type and name, in that order. *)
Definition came (flows logs : bool) (infos : nat -> info) (tr : list tev) : list (env * source_ref * vrec) :=
  omap (fun e => match e with
    | TDisp j i e (Some r) => if bool_decide (vr_type r ∈ tool_types flows logs) then Some (e, SourceRef (pretty (i_version (infos j))) (i_type (infos j)) (i_id (infos j)), r) else None
    | _ => None end) tr.
Definition came_as (id : string) (l : list (env * source_ref * vrec)) : list (source_ref * vrec) :=
  omap (fun '(_, src, r) => if bool_decide (vrec_identity r = id) then Some (src, r) else None) l.

(** [latest l c v]: [v] is the value of attribute [c] in the last of the records
    that has it. *)
Definition latest (l : list (source_ref * vrec)) (c : akey) (v : attr) : Prop :=
  exists l1 src r b l2, l = l1 ++ (src, r) :: l2 /\ Encode vanflow_registry (vrec_any r) = EncOk b /\ b !! c = Some v /\
    Forall (fun p => forall b', Encode vanflow_registry (vrec_any p.2) = EncOk b' -> b' !! c = None) l2.

(** ** What is decoded is usable *)

Lemma decode_code reg a t v : reg_wf reg -> Decode reg (Some a) = Ok (record_any true t v) ->
  exists c, a !! KU32 0 = Some (AU32 c) /\ registered reg t c.
Proof.
  intros [W1 W2] Hd. Transparent Decode. unfold Decode in Hd. Opaque Decode. unfold type_of_record in Hd.
  destruct (a !! KU32 0) as [[| c| | | | |]|]; try discriminate Hd. exists c. split; [reflexivity|].
  destruct (decodings reg !! c) as [te|] eqn:Ed; [|discriminate Hd].
  destruct (decode_fields (te_fields te) a (zero_value (te_t te))) as [w| |]; [|discriminate Hd..]. injection Hd as Ht _.
  destruct (W2 _ _ Ed) as [Hcode Hl]. rewrite Ht in Hl. exists te. split; [exact Hl|exact Hcode].
Qed.

Lemma decoded_good a r : elem_decodes (EMap (Some a)) r -> (forall k x, a !! k = Some x -> attr_in_range x) ->
  good_record r /\ (vrec_identity r <> ""%string -> exists b, Encode vanflow_registry (vrec_any r) = EncOk b).
Proof.
  intros (a' & [= <-] & Hp & Hin & Hd) Hrange.
  destruct (record_types_builtin _ Hin) as [c Hc].
  destruct (builtin_shape _ _ Hc) as (n & rest & Et). 
  assert (exists fs, vr_type r = GStruct n fs) as [fs Ets] by (eexists; exact Et).
  pose proof Hc as Hb. rewrite Ets in Hc, Hd.
  pose proof (builtin_registered _ _ Hc) as Hreg. pose proof (builtin_no_zero _ _ _ Hc) as Hz.
  destruct (registered_attributes _ _ _ _ vanflow_wf Hreg) as (l & Hat & _).
  assert (a !! KU32 0 = Some (AU32 c)) as H0.
  { destruct (decode_code _ _ _ _ vanflow_wf Hd) as (c' & H0 & Hr'). rewrite (registered_type_inj _ _ _ _ Hreg Hr'). exact H0. }
  assert (forall k x, k <> KU32 0 -> a !! k = Some x -> attr_in_range x) as Hrange' by (intros; by eapply Hrange).
  destruct (decode_typed _ _ _ _ _ _ _ vanflow_wf Hreg Hat Hz Hrange' H0 Hd) as (ws & E & Hty & Hfit & Hleaf).
  injection E as E. split.
  - exists n, fs, ws. done.
  - intros Hid.
    destruct (reencode _ _ _ _ _ _ _ vanflow_wf Hreg Hat Hz Hrange' H0 Hd) as [(b & Hb' & _)|[_ (f & x & Hf & Hq & Hx & Hemp)]].
    + exists b. unfold vrec_any. rewrite Hp. cbn [vr_ptr vr_type vr_val]. rewrite Ets. exact Hb'.
    + exfalso. apply Hid.
      destruct (attribute_leaf _ _ _ _ Hat Hty Hf) as (v & Hv & _).
      pose proof (builtin_id_leaf _ _ _ _ _ _ Hc Hty Hv Hq) as Ev.
      pose proof (Hleaf f v Hv) as Hw. rewrite Hx in Hw. destruct Hw as [Hw1 Hw2].
      unfold vrec_identity. rewrite E. 
      assert (empty_value v) as Hev by (rewrite Hw2; by apply dec_attr_value_empty).
      rewrite Ev in Hev. by apply Hev.
Qed.

(** The records of a message decoded without error. *)
Lemma decoded_records m x : ClientFacts.decoded m = Some x -> msg_in_range m ->
  forall p, p ∈ records_of x -> exists r, p = Some r /\ good_record r /\
    (vrec_identity r <> ""%string -> exists b, Encode vanflow_registry (vrec_any r) = EncOk b).
Proof.
  intros Hx Hm p Hp. unfold ClientFacts.decoded in Hx. destruct x as [| | |rm]; cbn [records_of] in Hp; try (by apply elem_of_nil in Hp).
  destruct (decode_msg (Some m)) as [[y|] [er|]|] eqn:Ed; try discriminate Hx. injection Hx as ->.
  destruct (decode_kind _ _ _ Ed) as (m' & q & sub & [= <-] & Hq & ->).
  pose proof (decode_records_prefix m q Hq) as Hd. unfold msg_in_range in Hm. destruct (am_value m) as [l|w] eqn:Ev.
  2:{ destruct Hd as (rm' & er & Hd & _). rewrite Ed in Hd. discriminate Hd. }
  destruct Hd as (l1 & rs & l2 & -> & HF & Hd).
  assert (rm_records rm = Some <$> rs) as Er.
  { destruct Hd as [(-> & rm' & Hd & Hr)|(e & l3 & -> & _ & [(a & _ & _ & Hd)|(_ & rm' & er & Hd & _)])]; rewrite Ed in Hd; [|discriminate Hd..].
    by injection Hd as ->. }
  rewrite Er in Hp. apply elem_of_list_fmap in Hp as (r & -> & Hr). exists r. split; [reflexivity|].
  destruct (elem_of_list_lookup_1 _ _ Hr) as [k Hk]. destruct (Forall2_lookup_r _ _ _ _ _ HF Hk) as (e & He & Hel).
  pose proof Hel as (a & -> & _). apply (decoded_good a r Hel). intros k' x Hx.
  eapply Hm; [reflexivity| |exact Hx]. apply elem_of_app. left. by eapply elem_of_list_lookup_2.
Qed.

(** ** Steps *)

Lemma cstep_call c s lb s' ev i h x : cstep c s lb = Some (s', ev) -> CCall i h x ∈ ev -> lb = LLRun i /\ ev = [CCall i h x].
Proof.
  intros Hs Hin. unfold cstep in Hs. destruct (c_crashed s); [discriminate Hs|].
  assert (forall s0 i0 l, listener_step s0 i0 l lb = Some (s', ev) -> (lb = LLRun i0 \/ lb <> LLRun i0) -> match lb with LLNext k _ | LLAccept k _ | LLGet k | LLRun k | LLClose k => k = i0 | _ => False end -> lb = LLRun i /\ ev = [CCall i h x]) as Hl.
  { intros s0 i0 l H0 _ Hlb. unfold listener_step in H0.
    destruct lb; try contradiction; subst; destruct (l_pc l) as [|m|y|y [|h0 hs]| |]; try discriminate H0;
      repeat match type of H0 with
      | match ?a with _ => _ end = _ => destruct a; try discriminate H0
      | Some _ = Some _ => injection H0 as <- <-
      end; try (by apply elem_of_nil in Hin); rewrite ?elem_of_cons, ?elem_of_nil in Hin;
      repeat match goal with H : _ \/ _ |- _ => destruct H | H : False |- _ => contradiction | H : CCall _ _ _ = _ |- _ => first [discriminate H|injection H as -> -> ->] end; split; reflexivity. }
  destruct lb; repeat match type of Hs with
      | listener_step _ _ _ _ = _ => fail 1
      | flush_step _ _ _ _ _ = _ => unfold flush_step in Hs
      | match ?a with _ => _ end = _ => destruct a; try discriminate Hs
      | Some _ = Some _ => injection Hs as <- <-
      end; try (by eapply Hl; [exact Hs|first [left; reflexivity|right; discriminate]|reflexivity]);
    try (by apply elem_of_nil in Hin); rewrite ?elem_of_cons, ?elem_of_nil in Hin;
    repeat match goal with H : _ \/ _ |- _ => destruct H | H : False |- _ => contradiction | H : CCall _ _ _ = _ |- _ => discriminate H end.
Qed.

Lemma fmap_ec j (ev : list cev) j' e : JEC j' e ∈ JEC j <$> ev <-> j' = j /\ e ∈ ev.
Proof.
  rewrite elem_of_list_fmap. split.
  - by intros (y & [= -> ->] & Hy).
  - intros [-> H]. eauto.
Qed.

(** Dispatch is called by a step of its own, of a listener. *)
Lemma jcalls infos s l s' ev : jstep infos s l = Some (s', ev) ->
  (exists j i x, l = JC j (LLRun i) /\ ev = [JEC j (CCall i (User 1) x)]) \/ (forall j i x, JEC j (CCall i (User 1) x) ∉ ev).
Proof.
  intros Hs. destruct (jstep_moves _ _ _ _ _ Hs) as [_ Hm].
  assert (forall j c lb c' (ev : list cev), cstep (infos j) c lb = Some (c', ev) ->
    (exists i x, lb = LLRun i /\ ev = [CCall i (User 1) x]) \/ (forall j' i x, JEC j' (CCall i (User 1) x) ∉ JEC j <$> ev)) as Hc.
  { intros j c lb c' ev0 H0. destruct lb; try (right; intros j' i0 x Hin; apply fmap_ec in Hin as [_ Hin]; by destruct (cstep_call _ _ _ _ _ _ _ _ H0 Hin)).
    destruct (run_events _ _ _ _ _ H0) as [_ [->|(h & x & ->)]].
    - right. intros j' i0 x Hin. by apply elem_of_nil in Hin.
    - destruct (decide (h = User 1)) as [->|Hne]; [left; eauto|]. right. intros j' i0 x0 Hin. apply fmap_ec in Hin as [_ Hin].
      apply elem_of_list_singleton in Hin. congruence. }
  assert (forall ev : list dev, forall j i x, JEC j (CCall i (User 1) x) ∉ JED <$> ev) as Hd.
  { intros ev0 j i x Hin. apply elem_of_list_fmap in Hin as (? & ? & _). discriminate. }
  destruct Hm.
  - right. apply Hd.
  - right. apply Hd.
  - right. apply Hd.
  - destruct (Hc _ _ _ _ _ H2) as [(? & ? & E & _)|?]; [discriminate E|by right].
  - destruct (Hc _ _ _ _ _ H1) as [(i & x & -> & ->)|?]; [|by right]. left. exists j, i, x. done.
  - right. intros j' i' x' Hin. apply elem_of_cons in Hin as [E|Hin]; [injection E as _ _ E _; lia|]. apply elem_of_list_singleton in Hin. discriminate Hin.
  - right. apply Hd.
  - destruct (Hc _ _ _ _ _ H4) as [(? & ? & E & _)|?]; [discriminate E|by right].
Qed.

Lemma dispatching_none ev : (forall j i x, JEC j (CCall i (User 1) x) ∉ ev) -> dispatching ev = None.
Proof.
  intros H. unfold dispatching. repeat match goal with |- match ?a with _ => _ end = _ => destruct a; try reflexivity end.
  exfalso. eapply H. left.
Qed.

Lemma jevs_app a b : jevs (a ++ b) = jevs a ++ jevs b.
Proof. unfold jevs. by rewrite omap_app. Qed.
Lemma jevs_ev ev : jevs (TEv <$> ev) = ev.
Proof. unfold jevs. induction ev as [|e ev IH]; [done|]. cbn. by rewrite IH. Qed.
Lemma jevs_elem e tr : e ∈ jevs tr <-> TEv e ∈ tr.
Proof.
  unfold jevs. rewrite elem_of_list_omap. split.
  - intros (y & Hy & E). destruct y; try discriminate E. by injection E as ->.
  - intros H. by exists (TEv e).
Qed.
Lemma ev_elem e (ev : list jev) : TEv e ∈ TEv <$> ev <-> e ∈ ev.
Proof. rewrite elem_of_list_fmap. split; [by intros (y & [= ->] & Hy)|eauto]. Qed.

(** The steps, by kind. *)
Inductive tmove (flows logs : bool) (infos : nat -> info) (s : tstate) : tlabel -> tstate -> list tev -> Prop :=
  | tm_call j i x js : t_todo s !! (j, i) = None -> jstep infos (t_j s) (JC j (LLRun i)) = Some (js, [JEC j (CCall i (User 1) x)]) ->
      tmove flows logs infos s (TJ (JC j (LLRun i)))
        (TState js (t_w s) (match x with MsgRecord rm => <[(j, i) := rm_records rm]> (t_todo s) | _ => t_todo s end) false)
        [TEv (JEC j (CCall i (User 1) x))]
  | tm_other l js ev : t_held s l = false -> jstep infos (t_j s) l = Some (js, ev) -> (forall j i x, JEC j (CCall i (User 1) x) ∉ ev) ->
      tmove flows logs infos s (TJ l) (TState js (t_w s) (t_todo s) false) (TEv <$> ev)
  | tm_put j i e r rs w de p : t_todo s !! (j, i) = Some (r :: rs) -> j_crashed (t_j s) = false ->
      Dispatch.dispatch (fun _ => fixture_config) (tool_routes flows logs) (source_of (infos j)) [(e, r)] (t_w s) = (w, de, p) ->
      tmove flows logs infos s (TPut j i e) (TState (t_j s) w (<[(j, i) := rs]> (t_todo s)) p) [TDisp j i e r]
  | tm_ret j i : t_todo s !! (j, i) = Some [] -> j_crashed (t_j s) = false ->
      tmove flows logs infos s (TReturn j i) (TState (t_j s) (t_w s) (delete (j, i) (t_todo s)) false) [TRet j i].

Lemma tstep_moves flows logs infos s lb s' ev : tstep flows logs infos s lb = Some (s', ev) -> t_crashed s = false /\ tmove flows logs infos s lb s' ev.
Proof.
  unfold tstep. destruct (t_crashed s); [discriminate|]. intros Hs. split; [reflexivity|]. destruct lb as [l|j i e|j i].
  - destruct (t_held s l) eqn:Eh; [discriminate Hs|]. destruct (jstep infos (t_j s) l) as [[js jev]|] eqn:Ej; [|discriminate Hs].
    injection Hs as <- <-. destruct (jcalls _ _ _ _ _ Ej) as [(j & i & x & -> & ->)|Hn].
    + cbn [t_held] in Eh. destruct (t_todo s !! (j, i)) eqn:Et; [discriminate Eh|].
      pose proof (tm_call flows logs infos s j i x js Et Ej) as H. destruct x; exact H.
    + rewrite (dispatching_none _ Hn). by apply tm_other.
  - destruct (j_crashed (t_j s)) eqn:Ec; [discriminate Hs|]. destruct (t_todo s !! (j, i)) as [[|r rs]|] eqn:Et; try discriminate Hs.
    destruct (Dispatch.dispatch _ _ _ _ _) as [[w de] p] eqn:Ed. injection Hs as <- <-. by eapply tm_put.
  - destruct (j_crashed (t_j s)) eqn:Ec; [discriminate Hs|]. destruct (t_todo s !! (j, i)) as [[|r rs]|] eqn:Et; try discriminate Hs.
    injection Hs as <- <-. by apply tm_ret.
Qed.

(** What is proved of watches and clients holds of the collector's. *)
Lemma project_j flows logs infos n now ls s tr : trun flows logs infos (t_init n now) ls = Some (s, tr) ->
  exists ls', jrun infos (j_init n now) ls' = Some (t_j s, jevs tr).
Proof.
  revert s tr. induction ls as [|l ls IH] using rev_ind; intros s tr Hr.
  { injection Hr as <- <-. by exists []. }
  apply run_snoc in Hr as (s1 & ev1 & ev2 & H1 & H2 & ->). destruct (IH _ _ H1) as [ls' Hls]. rewrite jevs_app.
  apply tstep_moves in H2 as [_ Hm].
  assert (forall lb js ev, jstep infos (t_j s1) lb = Some (js, ev) -> exists ls', jrun infos (j_init n now) ls' = Some (js, jevs ev1 ++ ev)) as Hext.
  { intros lb js ev E. exists (ls' ++ [lb]). rewrite run_app, Hls, run_one, E. reflexivity. }
  destruct Hm.
  - cbn [t_j]. eapply Hext. eassumption.
  - cbn [t_j]. rewrite jevs_ev. eapply Hext. eassumption.
  - cbn [t_j jevs omap list_omap]. rewrite app_nil_r. eauto.
  - cbn [t_j jevs omap list_omap]. rewrite app_nil_r. eauto.
Qed.

Lemma dispatched_app j i a b : dispatched j i (a ++ b) = dispatched j i a ++ dispatched j i b.
Proof. unfold dispatched. by rewrite omap_app. Qed.
Lemma handled_app j i a b : handled j i (a ++ b) = handled j i a ++ handled j i b.
Proof. unfold handled. by rewrite omap_app. Qed.
Lemma dispatched_ev j i (ev : list jev) : dispatched j i (TEv <$> ev) = [].
Proof. unfold dispatched. induction ev as [|e ev IH]; [done|]. exact IH. Qed.
Lemma handled_none j i (ev : list jev) : (forall j i x, JEC j (CCall i (User 1) x) ∉ ev) -> handled j i (TEv <$> ev) = [].
Proof.
  intros H. unfold handled. induction ev as [|e ev IH]; [done|]. cbn [fmap list_fmap omap list_omap].
  assert (omap (fun e0 => match e0 with TEv (JEC j' (CCall i' (User 1) x)) => if bool_decide (j' = j /\ i' = i) then Some x else None | _ => None end) (TEv <$> ev) = []) as E.
  { apply IH. intros j0 i0 x0 Hin. eapply H. right. exact Hin. }
  repeat match goal with |- context [match match ?a with _ => _ end with _ => _ end] => destruct a; try exact E end.
  exfalso. eapply H. left.
Qed.

(** Each record of each message handled is dispatched once, in order. *)
Lemma order flows logs infos n now ls s tr j i : trun flows logs infos (t_init n now) ls = Some (s, tr) ->
  dispatched j i tr ++ default [] (t_todo s !! (j, i)) = concat (records_of <$> handled j i tr).
Proof.
  revert s tr. induction ls as [|l ls IH] using rev_ind; intros s tr Hr.
  { injection Hr as <- <-. reflexivity. }
  apply run_snoc in Hr as (s1 & ev1 & ev2 & H1 & H2 & ->). specialize (IH _ _ H1). rewrite dispatched_app, handled_app, fmap_app, concat_app, <- IH.
  apply tstep_moves in H2 as [_ Hm]. destruct Hm as [j' i' x js Ht Hj|l js ev Hh Hj Hn|j' i' e r rs w de p Ht Hc Hd|j' i' Ht Hc]; cbn [t_todo].
  - change (dispatched j i [TEv (JEC j' (CCall i' (User 1) x))]) with (@nil (option vrec)). rewrite app_nil_r.
    unfold handled. cbn [omap list_omap]. case_bool_decide as E.
    + destruct E as [-> ->]. rewrite Ht. cbn [fmap list_fmap concat default]. rewrite !app_nil_r.
      destruct x; cbn [records_of]; rewrite ?Ht, ?lookup_insert; cbn; rewrite ?app_nil_r; reflexivity.
    + cbn [fmap list_fmap concat]. rewrite app_nil_r. destruct x; try reflexivity. rewrite lookup_insert_ne; [reflexivity|]. intros [= -> ->]. by apply E.
  - rewrite dispatched_ev, (handled_none _ _ _ Hn). cbn. by rewrite !app_nil_r.
  - unfold handled. cbn [omap list_omap fmap list_fmap concat]. rewrite app_nil_r. unfold dispatched at 2. cbn [omap list_omap]. case_bool_decide as E.
    + destruct E as [-> ->]. rewrite lookup_insert, Ht. cbn. by rewrite <- app_assoc.
    + rewrite lookup_insert_ne; [by rewrite app_nil_r|]. intros [= -> ->]. by apply E.
  - change (dispatched j i [TRet j' i']) with (@nil (option vrec)). change (handled j i [TRet j' i']) with (@nil message). cbn [fmap list_fmap concat]. rewrite !app_nil_r.
    destruct (decide ((j', i') = (j, i))) as [[= -> ->]|Hne]; [by rewrite lookup_delete, Ht|by rewrite lookup_delete_ne].
Qed.

(** ** The records are usable *)

Lemma handled_elem j i tr x : x ∈ handled j i tr <-> TEv (JEC j (CCall i (User 1) x)) ∈ tr.
Proof.
  unfold handled. rewrite elem_of_list_omap. split.
  - intros (e & He & Hx).
    repeat match type of Hx with
      | (if bool_decide _ then _ else _) = _ => fail 1
      | match ?a with _ => _ end = _ => destruct a; try discriminate Hx end.
    case_bool_decide as E; [|discriminate Hx]. destruct E as [-> ->]. by injection Hx as ->.
  - intros H. eexists. split; [exact H|]. cbn. by rewrite bool_decide_eq_true_2.
Qed.

Lemma has_client infos s ls s' tr j e : jrun infos s ls = Some (s', tr) -> JEC j e ∈ tr -> is_Some (j_cl s' !! j).
Proof.
  revert s' tr. induction ls as [|l ls IH] using rev_ind; intros s' tr Hr Hin.
  { injection Hr as <- <-. by apply elem_of_nil in Hin. }
  apply run_snoc in Hr as (s1 & ev1 & ev2 & H1 & H2 & ->).
  destruct (sub_step _ _ _ _ _ H2) as (_ & Hlen & _).
  apply lookup_lt_is_Some. rewrite Hlen. apply lookup_lt_is_Some. apply elem_of_app in Hin as [Hin|Hin]; [by eapply IH|].
  assert (forall (ev : list dev), JEC j e ∈ JED <$> ev -> False) as Hd.
  { intros ev0 H. apply elem_of_list_fmap in H as (? & ? & _). discriminate. }
  apply jstep_moves in H2 as [_ Hm]. destruct Hm; try (exfalso; by eapply Hd); try (apply fmap_ec in Hin as [-> _]; by eexists).
  apply elem_of_cons in Hin as [[= -> ->]|Hin]; [by eexists|]. apply elem_of_list_singleton in Hin. discriminate Hin.
Qed.

Lemma due_read i b evs h x : (h, x) ∈ ClientFacts.due i b evs -> CRead i x ∈ evs.
Proof.
  revert b. induction evs as [|e evs IH]; intros b; cbn [ClientFacts.due]; [by rewrite elem_of_nil|]. rewrite elem_of_app.
  intros [H|H]; [|right; by eapply IH]. destruct e; try (by apply elem_of_nil in H). case_bool_decide; [|by apply elem_of_nil in H].
  apply elem_of_list_fmap in H as (? & [= -> ->] & _). subst. left.
Qed.

(** A message Dispatch is called with was received, and decoded without error. *)
Lemma handled_received flows logs infos n now ls s tr j i x : trun flows logs infos (t_init n now) ls = Some (s, tr) ->
  x ∈ handled j i tr -> exists m, TEv (JEC j (CRecv i m)) ∈ tr /\ ClientFacts.decoded m = Some x.
Proof.
  intros Hr Hx. destruct (project_j _ _ _ _ _ _ _ _ Hr) as [ls' Hj]. destruct (project _ _ _ _ _ _ Hj) as (_ & _ & Hcl).
  apply handled_elem in Hx. apply jevs_elem in Hx. destruct (has_client _ _ _ _ _ _ _ Hj Hx) as [c Hc].
  destruct (Hcl _ _ Hc) as [lsc Hrc]. destruct (ClientFacts.delivery _ i _ _ _ Hrc) as (H1 & H2 & H3).
  assert ((User 1, x) ∈ ClientFacts.calls i (cevs j (jevs tr))) as Hcall.
  { unfold ClientFacts.calls. apply elem_of_list_omap. exists (CCall i (User 1) x). split; [by apply WatchClientInv.cevs_elem|]. cbn. by rewrite bool_decide_eq_true_2. }
  assert (CRead i x ∈ cevs j (jevs tr)) as Hread. { eapply due_read with (b := []). rewrite H2. apply elem_of_app. by left. }
  assert (x ∈ omap ClientFacts.decoded (ClientFacts.accepted i (cevs j (jevs tr)))) as Ho.
  { rewrite H1. apply elem_of_app. left. unfold ClientFacts.reads. apply elem_of_list_omap. exists (CRead i x). split; [done|]. cbn. by rewrite bool_decide_eq_true_2. }
  apply elem_of_list_omap in Ho as (m & Hm & Hd). exists m. split; [|exact Hd].
  assert (m ∈ ClientFacts.received i (cevs j (jevs tr))) as H4 by (eapply elem_of_submseteq; [exact Hm|by apply sublist_submseteq]).
  unfold ClientFacts.received in H4. apply elem_of_list_omap in H4 as (e & He & E).
  destruct e; try discriminate E. case_bool_decide; [|discriminate E]. injection E as ->. subst. by apply WatchClientInv.cevs_elem, jevs_elem in He.
Qed.

(** So all records there are, dispatched or to be, are usable. *)
Definition usable_rec (p : option vrec) : Prop := exists r, p = Some r /\ good_record r /\
  (vrec_identity r <> ""%string -> exists b, Encode vanflow_registry (vrec_any r) = EncOk b).

Lemma all_usable flows logs infos n now ls s tr j i : trun flows logs infos (t_init n now) ls = Some (s, tr) -> all_in_range tr ->
  Forall usable_rec (dispatched j i tr ++ default [] (t_todo s !! (j, i))).
Proof.
  intros Hr Hrange. rewrite (order _ _ _ _ _ _ _ _ j i Hr). apply Forall_forall. intros p Hp. apply elem_of_list_In, in_concat in Hp as (l & Hl & Hp). apply elem_of_list_In in Hl, Hp.
  apply elem_of_list_fmap in Hl as (x & -> & Hx). destruct (handled_received _ _ _ _ _ _ _ _ _ _ _ Hr Hx) as (m & Hm & Hd).
  eapply decoded_records; [exact Hd|by eapply Hrange|exact Hp].
Qed.

(** ** The store *)

Definition hist (l : list (env * source_ref * vrec)) : list (env * op) := (fun '(e, src, r) => (e, OAccumulate src (Some r))) <$> l.

Definition fine (x : env * source_ref * vrec) : Prop :=
  env_ok x.1.1 /\ good_record x.2 /\ (vrec_identity x.2 <> ""%string -> exists b, Encode vanflow_registry (vrec_any x.2) = EncOk b).

Lemma hist_envs l : Forall fine l -> envs_ok (hist l).
Proof. unfold envs_ok, hist. rewrite Forall_fmap. intros HF. eapply Forall_impl; [exact HF|]. intros [[e src] r] (H & _). exact H. Qed.
Lemma hist_app l1 l2 : hist (l1 ++ l2) = hist l1 ++ hist l2.
Proof. unfold hist. by rewrite fmap_app. Qed.
Lemma came_as_app id l1 l2 : came_as id (l1 ++ l2) = came_as id l1 ++ came_as id l2.
Proof. unfold came_as. by rewrite omap_app. Qed.

Lemma latest_snoc l src r b c v : Encode vanflow_registry (vrec_any r) = EncOk b ->
  latest (l ++ [(src, r)]) c v <-> b !! c = Some v \/ (b !! c = None /\ latest l c v).
Proof.
  intros Hb. split.
  - intros (l1 & src' & r' & b' & l2 & E & Hb' & Hv & HF). destruct l2 as [|p l2 _] using rev_ind.
    + apply app_inj_tail in E as [-> E]. injection E as -> ->. left. congruence.
    + rewrite app_comm_cons, app_assoc in E. apply app_inj_tail in E as [-> <-]. apply Forall_app in HF as [HF H1].
      right. split; [|by exists l1, src', r', b', l2]. inversion H1 as [|? ? H2 _]. by apply H2.
  - intros [Hv|[Hn (l1 & src' & r' & b' & l2 & -> & Hb' & Hv & HF)]].
    + exists l, src, r, b, []. done.
    + exists l1, src', r', b', (l2 ++ [(src, r)]). rewrite app_comm_cons, app_assoc. split; [done|]. split; [done|]. split; [done|].
      apply Forall_app. split; [done|]. constructor; [|constructor]. cbn [snd]. intros b2 H2. congruence.
Qed.
Lemma latest_nil c v : ~ latest [] c v.
Proof. intros (l1 & ? & ? & ? & l2 & E & _). by destruct l1. Qed.

(** The entry of an identity, as the records that came with it leave it. *)
Definition holds (id : string) (l : list (source_ref * vrec)) (o : option entry) : Prop :=
  match l with
  | [] => o = None
  | (src0, r0) :: _ => exists x r a src1 r1, o = Some x /\ m_source (e_meta x) = src0 /\ e_tm x = vrec_meta r0 /\
      e_rec x = Some r /\ vrec_identity r = id /\ Encode vanflow_registry (vrec_any r) = EncOk a /\
      last l = Some (src1, r1) /\ vr_type r = vr_type r1 /\ (forall b, Encode vanflow_registry (vrec_any r1) = EncOk b -> b ⊆ a) /\
      (Forall (fun p => vr_type p.2 = vr_type r0) l -> forall c v, a !! c = Some v <-> latest l c v)
  end.

Definition good_store (st : SpecStore.plain) : Prop := forall k x, entry_at st k = Some x -> good_entry good_record x.

Lemma fixture_bare r : cf_key fixture_config (bare r) = Ok ("//" ++ vrec_identity r)%string.
Proof. reflexivity. Qed.

Lemma put_keeps e s src r s' out ev id : env_ok e -> reachable fixture_config s -> run_op fixture_config e s (OAccumulate src (Some r)) = (s', out, ev) ->
  vrec_identity r <> id -> contents s' !! ("//" ++ id)%string = contents s !! ("//" ++ id)%string.
Proof. intros He Hr Hrun Hne. eapply accumulate_elsewhere; [exact He|exact Hr|exact Hrun|]. change (cf_key fixture_config (bare r) <> Ok ("//" ++ id)%string). rewrite fixture_bare. intros [= E]. done. Qed.

Lemma good_step e s src r s' out ev : env_ok e -> good_record r -> good_store (contents s) -> run_op fixture_config e s (OAccumulate src (Some r)) = (s', out, ev) ->
  good_store (contents s') /\ out <> OutPanic.
Proof.
  intros He Hg Hst Hrun. pose proof (accumulate_good fixture_config e s src r _ He Hg (fixture_bare r) (Hst _)) as H. rewrite Hrun in H.
  destruct H as [[-> H]|(x & r' & -> & Hc & Hx & Hg' & _)]; [done|]. split; [|done]. intros k y. rewrite Hc, entry_at_put. case_decide; [|apply Hst].
  intros [= <-]. by exists r'.
Qed.

Lemma good_after l : Forall fine l -> good_store (contents (state_after fixture_config (hist l))).
Proof.
  induction l as [|[[e src] r] l IH] using rev_ind; intros HF.
  { intros k x. cbn. done. }
  apply Forall_app in HF as [HF H1]. inversion H1 as [|? ? (He & Hg & _) _]. rewrite hist_app. cbn [hist fmap list_fmap]. rewrite state_after_snoc.
  destruct (run_op fixture_config e (state_after fixture_config (hist l)) (OAccumulate src (Some r))) as [[s' out] ev] eqn:E. cbn [fst].
  eapply good_step; [exact He|exact Hg|by apply IH|exact E].
Qed.

Lemma reach_hist l : Forall fine l -> reachable fixture_config (state_after fixture_config (hist l)).
Proof. intros H. exists (hist l). split; [by apply hist_envs|done]. Qed.

Lemma store_holds l id : Forall fine l -> id <> ""%string ->
  holds id (came_as id l) (entry_at (contents (state_after fixture_config (hist l))) ("//" ++ id)%string).
Proof.
  intros HF Hid. induction l as [|[[e src] r] l IH] using rev_ind.
  { reflexivity. }
  apply Forall_app in HF as [HF H1]. inversion H1 as [|? ? (He & Hg & Hb) _]; subst. cbn [fst snd] in He, Hg, Hb. specialize (IH HF).
  rewrite hist_app, came_as_app. cbn [hist fmap list_fmap]. rewrite state_after_snoc. set (s := state_after fixture_config (hist l)) in *.
  destruct (run_op fixture_config e s (OAccumulate src (Some r))) as [[s' out] ev] eqn:Erun. cbn [fst].
  unfold came_as at 2. cbn [omap list_omap]. case_bool_decide as E.
  2:{ rewrite app_nil_r. unfold entry_at in *. rewrite (put_keeps _ _ _ _ _ _ _ id He (reach_hist _ HF) Erun E). exact IH. }
  destruct (Hb ltac:(congruence)) as [b Eb]. pose proof (fixture_bare r) as Hk. rewrite E in Hk.
  destruct (contents s !! ("//" ++ id)%string) as [[x0 v0]|] eqn:Ex.
  - assert (entry_at (contents s) ("//" ++ id)%string = Some x0) as Ee by (unfold entry_at; by rewrite Ex). rewrite Ee in IH.
    destruct (came_as id l) as [|[src0 r0] l'] eqn:El; [discriminate IH|].
    destruct IH as (x & q & a & src1 & r1 & Hx & Hs & Htm & Hq & Hqi & Ha & Hl & Hty & Hsub & Hall). injection Hx as <-.
    destruct (good_after _ HF _ _ Ee) as (q' & Hq' & Gq). rewrite Hq in Hq'. injection Hq' as <-.
    destruct (accumulate_more fixture_config e s src r b _ x0 v0 q a He Hk Ex Hq Gq Ha Hg Eb) as [A1 A2].
    cbn [app holds].
    destruct (decide (b ⊆ a)) as [Hs'|Hs'].
    + rewrite (A1 Hs') in Erun. injection Erun as <- _ _. rewrite Ee. exists x0, q, a, src, r.
      do 4 (split; [first [reflexivity|assumption]|]). split; [exact Hqi|]. split; [exact Ha|].
      split; [by rewrite app_comm_cons, last_snoc|]. split.
      { eapply encoded_type; [exact Gq|exact Ha|exact Hg|exact Eb|].
        destruct (b !! KU32 0) as [t|] eqn:Et; [by eapply lookup_weaken|]. destruct (encoded_has_type _ _ Hg Eb) as [? ?]. congruence. }
      split; [intros b' E'; rewrite Eb in E'; injection E' as <-; exact Hs'|]. rewrite app_comm_cons. intros HFa c v. rewrite (latest_snoc _ _ _ _ _ _ Eb).
      apply Forall_app in HFa as [HFa _]. rewrite (Hall HFa c v). split.
      * intros H. destruct (b !! c) as [w|] eqn:Ew; [|by right]. left. apply Hall in H; [|exact HFa]. rewrite (lookup_weaken _ _ _ _ Ew Hs') in H. congruence.
      * intros [H|[_ H]]; [|exact H]. apply Hall; [exact HFa|]. by eapply lookup_weaken.
    + destruct (A2 Hs') as (s2 & r' & a' & Hrun & Hcs & Hg' & _ & Ht & Hi & He' & Hba & Hab & Hsame). rewrite Hrun in Erun. injection Erun as <- _ _.
      rewrite Hcs, entry_at_put, decide_True by done. eexists _, r', a', src, r.
      split; [reflexivity|]. split; [exact Hs|]. split; [exact Htm|]. split; [reflexivity|]. split; [congruence|]. split; [exact He'|].
      split; [by rewrite app_comm_cons, last_snoc|]. split; [exact Ht|]. split; [intros b' E'; rewrite Eb in E'; injection E' as <-; exact Hba|].
      rewrite app_comm_cons. intros HFa c v. rewrite (latest_snoc _ _ _ _ _ _ Eb).
      apply Forall_app in HFa as [HFa H0]. inversion H0 as [|? ? H0' _]; subst. cbn [snd] in H0'.
      assert (vr_type r1 = vr_type r0) as E1.
      { rewrite Forall_forall in HFa. apply (HFa (src1, r1)). by apply last_Some_elem_of. }
      rewrite (Hsame ltac:(rewrite Hty, E1; symmetry; exact H0')), <- (Hall HFa c v). rewrite lookup_union_Some_raw. tauto.
  - assert (entry_at (contents s) ("//" ++ id)%string = None) as Ee by (unfold entry_at; by rewrite Ex). rewrite Ee in IH.
    destruct (came_as id l) as [|[src0 r0] l'] eqn:El. 2: { destruct IH as (? & ? & ? & ? & ? & Hx & _). discriminate Hx. }
    destruct (accumulate_first fixture_config e s src r _ Hk Ex) as (s2 & Hrun & Hcs). rewrite Hrun in Erun. injection Erun as <- _ _.
    rewrite Hcs, entry_at_put, decide_True by done. cbn [app holds]. eexists _, r, b, src, r.
    split; [reflexivity|]. split; [reflexivity|]. split; [reflexivity|]. split; [reflexivity|]. split; [exact E|]. split; [exact Eb|].
    split; [reflexivity|]. split; [reflexivity|]. split; [intros b' E'; rewrite Eb in E'; injection E' as <-; reflexivity|]. intros _ c v.
    pose proof (latest_snoc [] src r b c v Eb) as HL. cbn [app] in HL. rewrite HL. pose proof (latest_nil c v). tauto.
Qed.

(** Records without an identity: the first stays, the others are lost. *)
Lemma store_nameless l : Forall fine l ->
  match came_as "" l with
  | [] => entry_at (contents (state_after fixture_config (hist l))) "//" = None
  | (src0, r0) :: _ => exists x, entry_at (contents (state_after fixture_config (hist l))) "//" = Some x /\ m_source (e_meta x) = src0 /\
      e_tm x = vrec_meta r0 /\ e_rec x = Some r0
  end.
Proof.
  intros HF. induction l as [|[[e src] r] l IH] using rev_ind.
  { reflexivity. }
  apply Forall_app in HF as [HF H1]. inversion H1 as [|? ? (He & Hg & Hb) _]; subst. cbn [fst snd] in He, Hg, Hb. specialize (IH HF).
  rewrite hist_app, came_as_app. cbn [hist fmap list_fmap]. rewrite state_after_snoc. set (s := state_after fixture_config (hist l)) in *.
  destruct (run_op fixture_config e s (OAccumulate src (Some r))) as [[s' out] ev] eqn:Erun. cbn [fst].
  unfold came_as at 2. cbn [omap list_omap]. case_bool_decide as E.
  2:{ rewrite app_nil_r. pose proof (put_keeps _ _ _ _ _ _ _ ""%string He (reach_hist _ HF) Erun E) as Hp. change ("//" ++ "")%string with "//"%string in Hp. unfold entry_at in *. rewrite Hp. exact IH. }
  pose proof (fixture_bare r) as Hk. rewrite E in Hk. change ("//" ++ "")%string with "//"%string in Hk.
  destruct (contents s !! "//"%string) as [[x0 v0]|] eqn:Ex.
  - assert (entry_at (contents s) "//" = Some x0) as Ee by (unfold entry_at; by rewrite Ex). rewrite Ee in IH.
    destruct (came_as "" l) as [|[src0 r0] l'] eqn:El; [discriminate IH|]. cbn [app].
    destruct IH as (x & [= <-] & Hs & Htm & Hx0).
    destruct (good_after _ HF _ _ Ee) as (q' & Hq' & Gq). rewrite Hx0 in Hq'. injection Hq' as <-.
    destruct (accumulate_fails fixture_config e s src r _ x0 v0 r0 He Hk Ex Hx0 Gq Hg) as [q Hq].
    { right. intros a Ha. destruct (good_identity _ _ Hg Ha) as [_ Hne]. contradiction. }
    rewrite Hq in Erun. injection Erun as <- _ _. rewrite Ee. exists x0. done.
  - assert (entry_at (contents s) "//" = None) as Ee by (unfold entry_at; by rewrite Ex). rewrite Ee in IH.
    destruct (came_as "" l) as [|[src0 r0] l'] eqn:El. 2: { destruct IH as (? & Hx & _). discriminate Hx. }
    destruct (accumulate_first fixture_config e s src r _ Hk Ex) as (s2 & Hrun & Hcs). rewrite Hrun in Erun. injection Erun as <- _ _.
    rewrite Hcs, entry_at_put, decide_True by done. cbn [app]. eexists. split; [reflexivity|]. done.
Qed.

(** ** Dispatching *)

Lemma tool_types_records flows logs t : t ∈ tool_types flows logs -> t ∈ record_types.
Proof.
  Transparent record_types. revert t. apply Forall_forall. destruct flows, logs; apply (bool_decide_eq_true_1 (Forall _ _)); vm_compute; reflexivity. Opaque record_types.
Qed.

Lemma const_map {A} (f : A -> string) (l : list A) k i :
  (list_to_map ((fun t => (f t, 0)) <$> l) : gmap string nat) !! k = Some i <-> i = 0 /\ exists t, t ∈ l /\ f t = k.
Proof.
  induction l as [|a l IH]; cbn [fmap list_fmap list_to_map foldr fst snd].
  { rewrite lookup_empty. split; [done|]. intros [_ (t & Ht & _)]. by apply elem_of_nil in Ht. }
  destruct (decide (f a = k)) as [E|E].
  - rewrite E, lookup_insert. split.
    + intros [= <-]. split; [done|]. exists a. split; [left|done].
    + intros [-> _]. done.
  - rewrite lookup_insert_ne by done. rewrite IH. split.
    + intros [-> (t & Ht & Hf)]. split; [done|]. exists t. split; [by right|done].
    + intros [-> (t & Ht & Hf)]. split; [done|]. exists t. apply elem_of_cons in Ht as [->|Ht]; [done|]. done.
Qed.

Lemma record_meta t : t ∈ record_types -> exists m, get_type_meta t = Some m.
Proof.
  revert t. apply Forall_forall. Transparent record_types. repeat (constructor; [by eexists|]). constructor. Opaque record_types.
Qed.

Lemma routes flows logs r i : good_record r ->
  tool_routes flows logs !! Dispatch.type_key r = Some i <-> i = 0 /\ vr_type r ∈ tool_types flows logs.
Proof.
  intros Hg. unfold tool_routes. rewrite const_map. pose proof (good_meta _ Hg) as Hm. split.
  - intros [-> (t & Ht & E)]. split; [done|]. destruct (record_meta _ (tool_types_records _ _ _ Ht)) as [m Em]. rewrite Em in E. cbn [default] in E.
    pose proof (type_string_inj _ _ _ _ Em Hm E) as ->. by rewrite <- (meta_inj _ _ _ Em Hm).
  - intros [-> Ht]. split; [done|]. exists (vr_type r). split; [exact Ht|]. rewrite Hm. reflexivity.
Qed.

Lemma came_app flows logs infos a b : came flows logs infos (a ++ b) = came flows logs infos a ++ came flows logs infos b.
Proof. unfold came. by rewrite omap_app. Qed.
Lemma came_ev flows logs infos (ev : list jev) : came flows logs infos (TEv <$> ev) = [].
Proof. unfold came. induction ev as [|e ev IH]; [done|]. exact IH. Qed.

Lemma dispatched_elem j i tr r : r ∈ dispatched j i tr <-> exists e, TDisp j i e r ∈ tr.
Proof.
  unfold dispatched. rewrite elem_of_list_omap. split.
  - intros (y & Hy & E). destruct y; try discriminate E. case_bool_decide as Eb; [|discriminate E]. destruct Eb as [-> ->]. injection E as ->. eauto.
  - intros [e He]. eexists. split; [exact He|]. cbn. by rewrite bool_decide_eq_true_2.
Qed.

Lemma came_fine flows logs infos n now ls s tr : trun flows logs infos (t_init n now) ls = Some (s, tr) -> all_in_range tr -> tenvs_ok tr ->
  Forall fine (came flows logs infos tr).
Proof.
  intros Hr Hrange He. apply Forall_forall. intros x Hx. unfold came in Hx. apply elem_of_list_omap in Hx as (y & Hy & E).
  destruct y as [|j i e [r|]|]; try discriminate E. case_bool_decide; [|discriminate E]. injection E as <-. split; [by eapply He|].
  pose proof (all_usable _ _ _ _ _ _ _ _ j i Hr Hrange) as HF. rewrite Forall_app in HF. destruct HF as [HF _]. rewrite Forall_forall in HF.
  destruct (HF (Some r)) as (r' & [= <-] & H1 & H2); [apply dispatched_elem; eauto|]. done.
Qed.

(** The store is what the records that came make of it, and nothing crashes. *)
Lemma store_is flows logs infos n now ls s tr : trun flows logs infos (t_init n now) ls = Some (s, tr) -> all_in_range tr -> tenvs_ok tr ->
  t_store s = state_after fixture_config (hist (came flows logs infos tr)) /\ t_crashed s = false.
Proof.
  revert s tr. induction ls as [|l ls IH] using rev_ind; intros s tr Hr Hrange He.
  { injection Hr as <- <-. done. }
  pose proof (came_fine _ _ _ _ _ _ _ _ Hr Hrange He) as Hfine.
  apply run_snoc in Hr as (s1 & ev1 & ev2 & H1 & H2 & ->).
  assert (all_in_range ev1) as Hr1 by (intros j i m Hin; eapply Hrange; apply elem_of_app; left; exact Hin).
  assert (tenvs_ok ev1) as He1 by (intros j i e r Hin; eapply He; apply elem_of_app; left; exact Hin).
  destruct (IH _ _ H1 Hr1 He1) as [IHs IHc]. rewrite came_app. pose proof (came_fine _ _ _ _ _ _ _ _ H1 Hr1 He1) as Hfine1.
  pose proof H2 as H2'. apply tstep_moves in H2 as [_ Hm]. destruct Hm as [j i x js Ht Hj|l js ev Hh Hj Hn|j i e r rs w de p Ht Hc Hd|j i Ht Hc]; unfold t_store in *; cbn [t_w t_crashed].
  - rewrite app_nil_r. done.
  - rewrite came_ev, app_nil_r. done.
  - pose proof (all_usable _ _ _ _ _ _ _ _ j i H1 Hr1) as HF. rewrite Ht in HF. cbn [default] in HF. rewrite Forall_app in HF. destruct HF as [_ HF].
    inversion HF as [|? ? (r' & -> & Hg & Hen) _]; subst.
    assert (env_ok e) as Hee by (eapply (He j i e (Some r')); apply elem_of_app; right; left).
    cbn [Dispatch.dispatch] in Hd.
    assert (came flows logs infos [TDisp j i e (Some r')] = if bool_decide (vr_type r' ∈ tool_types flows logs) then [(e, source_of (infos j), r')] else []) as ->
      by (unfold came; cbn [omap list_omap]; by case_bool_decide).
    destruct (tool_routes flows logs !! Dispatch.type_key r') as [k|] eqn:Ek.
    + apply (routes _ _ _ _ Hg) in Ek as [-> Hin]. rewrite bool_decide_eq_true_2 by exact Hin.
      rewrite hist_app. cbn [hist fmap list_fmap]. rewrite state_after_snoc. rewrite <- IHs.
      destruct (run_op fixture_config e (Dispatch.store_at (t_w s1) 0) (OAccumulate (source_of (infos j)) (Some r'))) as [[s' out] evs] eqn:Erun.
      assert (good_store (contents (Dispatch.store_at (t_w s1) 0))) as Hgs by (rewrite IHs; by apply good_after).
      destruct (good_step _ _ _ _ _ _ _ Hee Hg Hgs Erun) as [_ Hnp].
      destruct out; try contradiction; injection Hd as <- _ <-; cbn [fst]; rewrite DispatchFacts.store_at_insert, decide_True by done; done.
    + rewrite bool_decide_eq_false_2. 2:{ intros Hin. assert (tool_routes flows logs !! Dispatch.type_key r' = Some 0) by (by apply routes). congruence. }
      injection Hd as <- _ <-. rewrite app_nil_r. done.
  - rewrite app_nil_r. done.
Qed.
