(** Witnesses for runs from publisher to collector. *)
From Coq Require Import ZArith NArith Ascii String Lia.
From stdpp Require Import base gmap strings list.
From Verif Require Import GoBase Encoding SpecEncoding Records Messages SpecMessages MessageFacts AccumFacts EventFacts Env SyncMap Tokens Cache SpecStore
  StoreFacts StoreLemmas ListFacts StoreExamples Dispatch DispatchFacts Diff DiffFacts ConvergeFacts
  Manager ManagerFacts ManagerPass ManagerLive ManagerExamples EndToEnd.

Local Open Scope list_scope.
Local Opaque vanflow_registry builtin_types record_types Encode Decode attrs_of.

(** ** Runs in which nobody publishes or writes *)

Definition quiet (l : mlabel) : Prop := match l with LPublish _ | LStore _ _ _ => False | _ => True end.

Lemma finish_stores e buf s : m_stores (finish_batch e buf s) = m_stores s.
Proof. unfold finish_batch. by destruct (batch_records e buf) as [[|]|]. Qed.

Lemma quiet_step c s l s' ev : quiet l -> mstep c s l = Some (s', ev) -> m_stores s' = m_stores s /\ published ev = [].
Proof.
  intros Hq H. unfold mstep in H. destruct (m_crashed s); [done|]. destruct l; try done.
  - unfold serve_step, start_pass, drained, start_pass, buffered in H. destruct (m_serve s) as [|buf|m0|n|q tok|m0 q tok|]; destruct a; try discriminate H;
      repeat match type of H with
      | context [match ?x with _ => _ end] => destruct x eqn:?
      end; try discriminate H; injection H as <- <-; rewrite ?finish_stores, ?list_next_stores; done.
  - destruct (m_listening s); [|done]. unfold recv_step in H. injection H as <- <-. by destruct (_ <? 8)%Z, ok.
  - destruct (_ && _); [|done]. by injection H as <- <-.
  - destruct (m_sending s); [|done]. unfold send_step in H. destruct (m_sends s); [done|].
    destruct (encode_record_msg _); by injection H as <- <-.
  - destruct (_ && _); [|done]. by injection H as <- <-.
  - by injection H as <- <-.
Qed.

Lemma quiet_run c s ls s' ev : Forall quiet ls -> mrun c s ls = Some (s', ev) -> m_stores s' = m_stores s /\ published ev = [].
Proof.
  intros HF. revert s ev. induction HF as [|l ls Hl HF IH]; intros s ev Hr.
  - by injection Hr as <- <-.
  - cbn [mrun] in Hr. destruct (mstep c s l) as [[s1 ev1]|] eqn:E1; [|done].
    destruct (mrun c s1 ls) as [[s2 ev2]|] eqn:E2; [|done]. injection Hr as <- <-.
    destruct (quiet_step c s l s1 ev1 Hl E1) as [H1 H2]. destruct (IH s1 ev2 E2) as [H3 H4].
    unfold published in *. rewrite omap_app, H2, H4, H3. done.
Qed.

(** What holds at all times of a run, piece by piece; stretches in which stores
    and publications stay need to be looked at once. *)
Definition from (c : mcfg) (s : mstate) (ev0 : list mev) (ls : list mlabel) (P : mstate -> list mev -> Prop) : Prop :=
  forall la lb s' ev, ls = la ++ lb -> mrun c s la = Some (s', ev) -> P s' (ev0 ++ ev).

Definition slow (P : mstate -> list mev -> Prop) : Prop :=
  forall s s' ev ev', m_stores s = m_stores s' -> published ev = published ev' -> P s ev -> P s' ev'.

Lemma from_start c w ls P : from c (m_init w) [] ls P -> at_all_times c w ls P.
Proof. intros H la lb s ev. apply H. Qed.

Lemma from_step c s ev0 l ls (P : mstate -> list mev -> Prop) s1 ev1 : P s ev0 -> mstep c s l = Some (s1, ev1) -> from c s1 (ev0 ++ ev1) ls P ->
  from c s ev0 (l :: ls) P.
Proof.
  intros H0 Hs H la lb s' ev E Hr. destruct la as [|x la].
  - injection Hr as <- <-. by rewrite app_nil_r.
  - injection E as <- ->. cbn [mrun] in Hr. rewrite Hs in Hr. destruct (mrun c s1 la) as [[s2 ev2]|] eqn:E2; [|done].
    injection Hr as <- <-. rewrite app_assoc. by apply (H la lb).
Qed.

Lemma from_quiet c s ev0 ls1 ls2 (P : mstate -> list mev -> Prop) s1 ev1 : slow P -> Forall quiet ls1 -> P s ev0 -> mrun c s ls1 = Some (s1, ev1) ->
  from c s1 (ev0 ++ ev1) ls2 P -> from c s ev0 (ls1 ++ ls2) P.
Proof.
  intros HP HF. revert s ev0 ev1. induction HF as [|l ls1 Hl HF IH]; intros s ev0 ev1 H0 Hr H2.
  - injection Hr as <- <-. by rewrite app_nil_r in H2.
  - cbn [mrun] in Hr. destruct (mstep c s l) as [[s2 ev2]|] eqn:E; [|done].
    destruct (mrun c s2 ls1) as [[s3 ev3]|] eqn:E3; [|done]. injection Hr as <- <-. rewrite app_assoc in H2.
    cbn [app]. eapply from_step; [exact H0|exact E|]. eapply IH; [|exact E3|exact H2].
    destruct (quiet_step c s l s2 ev2 Hl E) as [Q1 Q2]. eapply HP; [| |exact H0]; [by symmetry|].
    unfold published in *. by rewrite omap_app, Q2, app_nil_r.
Qed.

Lemma from_end c s ev0 (P : mstate -> list mev -> Prop) : P s ev0 -> from c s ev0 [] P.
Proof.
  intros H la lb s' ev E Hr. symmetry in E. apply app_eq_nil in E as [-> ->]. injection Hr as <- <-. by rewrite app_nil_r.
Qed.

Lemma sendable_slow ty m c : slow (sendable ty m c).
Proof. intros s s' ev ev' H1 H2 [A B]. unfold sendable, holds in *. rewrite <- H1, <- H2. done. Qed.
Lemma versions_slow k rs o c : slow (versions k rs o c).
Proof. intros s s' ev ev' H1 H2 [A B]. unfold versions, holds in *. rewrite <- H1, <- H2. done. Qed.

(** ** A site whose name changes *)

Definition ex_ty : nat -> string -> gotype := fun _ _ => SiteRecord.
Definition ex_entry2 : entry :=
  Entry (Metadata (SourceRef "flow/v1" "ROUTER" "r1") zero_time ∅) (TypeMeta api_version "SiteRecord") (Some ex_site2).
Definition ex_w1 : stores := {[0 := state_after ex_cf [(at_time 1, OAdd (ex_entry "s1" "r1"))]]}.
Definition ex_w2 : stores :=
  {[0 := state_after ex_cf [(at_time 1, OAdd (ex_entry "s1" "r1")); (at_time 2, OUpdate ex_entry2 None)]]}.
Definition ex_change : rec_update := RecUpdate (Some (ex_site "s1")) (Some ex_site2).
Definition ex_key : string * string := rkey (ex_site "s1").
Definition ex_write : mlabel := LStore 0 (at_time 2) (OUpdate ex_entry2 None).

Lemma ex_legit1 m : legit ex_ty m (ex_site "s1").
Proof. split; [apply ex_publishable|]. intros ? ?. reflexivity. Qed.
Lemma ex_legit2 m : legit ex_ty m ex_site2.
Proof. split; [apply ex_publishable|]. intros ? ?. reflexivity. Qed.
Lemma ex_key2 : rkey ex_site2 = ex_key.
Proof. unfold ex_key, rkey. by rewrite ex_type_key. Qed.

Lemma holds_one (s : mstate) w x v k : m_stores s = w -> map_to_list (contents (store_at w 0)) = [(k, (x, v))] ->
  forall id y, entry_at (holds s 0) id = Some y -> y = x.
Proof.
  intros <- H id y Hy. unfold entry_at, holds in *. destruct (contents (store_at (m_stores s) 0) !! id) as [[y' v']|] eqn:E; [|done].
  apply elem_of_map_to_list in E. rewrite H in E. apply elem_of_list_singleton in E. injection E as _ -> _. by injection Hy as <-.
Qed.

Lemma ex_w1_holds : map_to_list (contents (store_at ex_w1 0)) = [("s1"%string, stored "s1" "r1" 1 1)].
Proof. vm_compute. reflexivity. Qed.
Lemma ex_w2_holds : map_to_list (contents (store_at ex_w2 0)) = [("s1"%string, (with_updated (GoTime 2 0) ex_entry2, 2%Z))].
Proof. vm_compute. reflexivity. Qed.

Definition ex_rs : list vrec := [ex_site "s1"; ex_site2].

Lemma ex_rs_ok m : Forall (fun x => legit ex_ty m x /\ rkey x = ex_key) ex_rs.
Proof. constructor; [split; [apply ex_legit1|reflexivity]|]. constructor; [split; [apply ex_legit2|exact ex_key2]|constructor]. Qed.

Lemma ex_about : about ex_key [ex_change] = [ex_change].
Proof. unfold about. rewrite filter_cons, decide_True; [done|]. cbn. by rewrite ex_key2. Qed.

(** Stores [w] with one entry of [x], and publications [us]. *)
Lemma ex_sendable m s ev x v k r : map_to_list (contents (store_at (m_stores s) 0)) = [(k, (x, v))] -> e_rec x = Some r ->
  legit ex_ty m r -> published ev = [] \/ published ev = [ex_change] -> sendable ex_ty m ex_mc s ev.
Proof.
  intros Hm Hx Hr Hp. split.
  - intros u Hu. destruct Hp as [Hp|Hp]; rewrite Hp in Hu; [by apply elem_of_nil in Hu|].
    apply elem_of_list_singleton in Hu as ->. exists ex_site2. split; [done|]. split; [apply ex_legit2|].
    intros p [= <-]. split; [apply ex_legit1|]. by rewrite ex_key2.
  - intros i id y Hi Hy. apply elem_of_list_singleton in Hi as ->.
    rewrite (holds_one s (m_stores s) x v k eq_refl Hm id y Hy). by exists r.
Qed.

Definition in_order (s : mstate) (ev : list mev) : Prop := forall j u, about ex_key (published ev) !! j = Some u ->
  ru_curr u = ex_rs !! (1 + j) /\ (ru_prev u = None \/ 0 < 1 + j /\ ru_prev u = ex_rs !! (1 + j - 1)).

Lemma ex_in_order s ev : published ev = [] \/ published ev = [ex_change] -> in_order s ev.
Proof.
  intros [Hp|Hp] j u Hj; rewrite Hp in Hj; [done|]. rewrite ex_about in Hj. destruct j; [|done]. injection Hj as <-.
  split; [done|]. right. split; [lia|done].
Qed.

Lemma ex_versions s ev x v k r n : map_to_list (contents (store_at (m_stores s) 0)) = [(k, (x, v))] -> e_rec x = Some r ->
  ex_rs !! n = Some r -> published ev = [] /\ n <= 1 \/ published ev = [ex_change] /\ n = 1 -> versions ex_key ex_rs 1 ex_mc s ev.
Proof.
  intros Hm Hx Hr Hp. split.
  - apply (ex_in_order s). destruct Hp as [[? _]|[? _]]; auto.
  - intros i id y r' Hi Hy Hr' _. apply elem_of_list_singleton in Hi as ->.
    rewrite (holds_one s (m_stores s) x v k eq_refl Hm id y Hy) in Hr'. exists n. split; [congruence|].
    destruct Hp as [[-> ?]|[-> ->]]; [cbn; lia|]. rewrite ex_about. cbn. lia.
Qed.

(** ** A collector that comes late and asks for a flush *)

Definition ex_first : list mlabel :=
  [ex_write; LPublish ex_change; ex_serve ATakeUpdate; ex_serve ATimeout; ex_serve ADo; LSend true].
Definition ex_second : list mlabel :=
  [LRecv true; ex_serve ATakeFlush; ex_serve ATimeout; ex_serve ADo; ex_serve ADo; ex_serve ADo; LSend true].

Definition ex_st (ch : list rec_update) (sn : list mmsg) (p : spc) (w : stores) : mstate := MState ch 0 sn p true true false false w.

Lemma ex_delta_rec : exists r, diff_record (at_time 9) ex_change = DRec (Some r) /\ publishable r.
Proof.
  destruct ex_publishable as [P1 P2]. destruct ex_attrs as (A1 & A2 & A3 & A4 & _).
  destruct (update_delta (at_time 9) (Some (ex_site "s1")) ex_site2 (at_time_ok 9) P2) as [(r & Hr & Pr & _)|(_ & p & [= <-] & Hs)].
  - intros p [= <-]. split; [exact P1|]. by rewrite ex_key2.
  - exists r. exact (conj Hr Pr).
  - exfalso. apply (lookup_weaken _ _ _ _ A4) in Hs. rewrite A3 in Hs. discriminate Hs.
Qed.

Lemma one_encodable r : publishable r -> encodable [Some r].
Proof.
  intros [H1 H2]. apply (encodable_iff [Some r] [r] eq_refl); [constructor; [exact H1|constructor]|]. constructor; [eauto|constructor].
Qed.

Lemma ex_write_step ch sn p : mstep ex_mc (ex_st ch sn p ex_w1) ex_write = Some (ex_st ch sn p ex_w2, []).
Proof.
  unfold mstep, ex_write. cbn [ex_st m_crashed m_stores].
  assert (store_at ex_w1 0 = state_after ex_cf [(at_time 1, OAdd (ex_entry "s1" "r1"))]) as -> by reflexivity.
  change (mc_store_cfg ex_mc 0) with ex_cf.
  destruct (run_op ex_cf (at_time 2) (state_after ex_cf [(at_time 1, OAdd (ex_entry "s1" "r1"))]) (OUpdate ex_entry2 None)) as [[st ?] ?] eqn:E.
  unfold ex_st, set_stores. cbn. f_equal. f_equal. f_equal. unfold ex_w1, ex_w2. rewrite insert_singleton. f_equal.
  change (state_after ex_cf [(at_time 1, OAdd (ex_entry "s1" "r1")); (at_time 2, OUpdate ex_entry2 None)]) with
    (run_op ex_cf (at_time 2) (state_after ex_cf [(at_time 1, OAdd (ex_entry "s1" "r1"))]) (OUpdate ex_entry2 None)).1.1.
  by rewrite E.
Qed.

(** Sending one update. *)
Lemma ex_update_run r w : diff_record (at_time 9) ex_change = DRec (Some r) ->
  mrun ex_mc (ex_st [ex_change] [] SIdle w) [ex_serve ATakeUpdate; ex_serve ATimeout; ex_serve ADo] =
    Some (ex_st [] [[Some r]] SIdle w, [MQueued true [Some r]]).
Proof.
  intros Hr. cbn [mrun].
  assert (mstep ex_mc (ex_st [ex_change] [] SIdle w) (ex_serve ATakeUpdate) = Some (ex_st [] [] (SBuffer [ex_change]) w, [])) as -> by reflexivity.
  assert (mstep ex_mc (ex_st [] [] (SBuffer [ex_change]) w) (ex_serve ATimeout) = Some (ex_st [] [] (SSend [Some r]) w, [])) as ->.
  { unfold mstep, ex_serve, serve_step, buffered, finish_batch. cbn [ex_st m_crashed m_serve m_cancelled batch_records]. by rewrite Hr. }
  reflexivity.
Qed.

(** A pass over one entry. *)
Lemma ex_flush_run sn w x r : (Z.of_nat (length sn) < 256)%Z ->
  (run_op ex_cf (at_time 9) (store_at w 0) (OList (Some (Selector 0 1 "" Ascending)))).1.2 = OutSet [x] "" None -> e_rec x = Some r ->
  mrun ex_mc (ex_st [] sn SIdle w) (take 6 ex_second) =
    Some (ex_st [] (sn ++ [[Some r]]) SIdle w, [MFlushReq; MPassStart; MQueued false [Some r]; MPassEnd]).
Proof.
  intros Hlen Hl Hx. cbn [take ex_second mrun].
  assert (mstep ex_mc (ex_st [] sn SIdle w) (LRecv true) = Some (MState [] 1 sn SIdle true true false false w, [MFlushReq])) as -> by reflexivity.
  assert (mstep ex_mc (MState [] 1 sn SIdle true true false false w) (ex_serve ATakeFlush) = Some (ex_st [] sn (SDrain 0) w, [])) as -> by reflexivity.
  assert (mstep ex_mc (ex_st [] sn (SDrain 0) w) (ex_serve ATimeout) = Some (ex_st [] sn (SPass [0] "") w, [MPassStart])) as -> by reflexivity.
  assert (mstep ex_mc (ex_st [] sn (SPass [0] "") w) (ex_serve ADo) = Some (ex_st [] sn (SPassSend [Some r] [] "") w, [])) as ->.
  { unfold mstep, ex_serve, serve_step, list_next. cbn [ex_st m_crashed m_serve m_stores].
    change (mc_store_cfg ex_mc 0) with ex_cf. change (mc_flush_batch ex_mc) with 1%Z. rewrite Hl. cbn. by rewrite Hx. }
  assert (mstep ex_mc (ex_st [] sn (SPassSend [Some r] [] "") w) (ex_serve ADo) =
    Some (ex_st [] (sn ++ [[Some r]]) (SPass [] "") w, [MQueued false [Some r]])) as ->.
  { unfold mstep, ex_serve, serve_step. cbn [ex_st m_crashed m_serve m_sends]. assert (Z.of_nat (length sn) <? 256 = true)%Z as -> by lia. done. }
  reflexivity.
Qed.

Lemma ex_list1 : (run_op ex_cf (at_time 9) (store_at ex_w1 0) (OList (Some (Selector 0 1 "" Ascending)))).1.2 =
  OutSet [(stored "s1" "r1" 1 1).1] "" None.
Proof. vm_compute. reflexivity. Qed.
Lemma ex_list2 : (run_op ex_cf (at_time 9) (store_at ex_w2 0) (OList (Some (Selector 0 1 "" Ascending)))).1.2 =
  OutSet [with_updated (GoTime 2 0) ex_entry2] "" None.
Proof. vm_compute. reflexivity. Qed.

Lemma ex_late_ok : labels_ok (ex_first ++ ex_second).
Proof.
  unfold labels_ok, ex_first, ex_second. cbn [app].
  repeat (apply Forall_cons; split; [first [exact I|apply at_time_ok]|]). apply Forall_nil. exact I.
Qed.

Lemma send_step_ok c s m q am ok : m_crashed s = false -> m_sending s = true -> m_sends s = m :: q -> encode_mmsg m = Ok am ->
  mstep c s (LSend ok) = Some (set_sends q s, [MSent m am ok]).
Proof.
  intros Hc Hs E Ham. unfold mstep. rewrite Hc, Hs. unfold send_step. rewrite E. fold (encode_mmsg m). by rewrite Ham.
Qed.

Lemma ex_late m : exists s1 ev1 s2 ev2 am,
  mrun ex_mc (m_init ex_w1) ex_first = Some (s1, ev1) /\ mrun ex_mc s1 ex_second = Some (s2, ev2) /\
  m_crashed s2 = false /\ resting s2 /\ labels_ok (ex_first ++ ex_second) /\
  at_all_times ex_mc ex_w1 (ex_first ++ ex_second) (sendable ex_ty m ex_mc) /\
  at_all_times ex_mc ex_w1 (ex_first ++ ex_second) (versions ex_key ex_rs 1 ex_mc) /\
  1 + length (about ex_key (published (ev1 ++ ev2))) = length ex_rs /\ last ex_rs = Some ex_site2 /\
  (exists r, Some r ∈ concat (flush_msgs ev2) /\ rkey r = ex_key) /\ (forall mm am, MSent mm am false ∉ ev2) /\
  takes [([at_time 20], am)] (wires ev2) /\ encode_mmsg [Some ex_site2] = Ok am.
Proof.
  destruct ex_delta_rec as (r & Hr & Pr). destruct ex_publishable as [_ P2].
  destruct (send_ok ex_mc (ex_st [] [[Some r]] SIdle ex_w2) [Some r] [] true eq_refl eq_refl eq_refl (one_encodable r Pr)) as [am1 Hs1].
  destruct (one_encodable _ P2) as [am2 E2].
  pose proof (send_step_ok ex_mc (ex_st [] [[Some ex_site2]] SIdle ex_w2) [Some ex_site2] [] am2 true eq_refl eq_refl eq_refl E2) as Hs2.
  assert (mrun ex_mc (ex_st [ex_change] [] SIdle ex_w2) [ex_serve ATakeUpdate; ex_serve ATimeout; ex_serve ADo; LSend true] =
    Some (ex_st [] [] SIdle ex_w2, [MQueued true [Some r]; MSent [Some r] am1 true])) as Hm1.
  { change [ex_serve ATakeUpdate; ex_serve ATimeout; ex_serve ADo; LSend true] with
      ([ex_serve ATakeUpdate; ex_serve ATimeout; ex_serve ADo] ++ [LSend true]).
    rewrite mrun_app, (ex_update_run r ex_w2 Hr). cbn [mrun]. rewrite Hs1. reflexivity. }
  assert (mrun ex_mc (ex_st [] [] SIdle ex_w2) ex_second = Some (ex_st [] [] SIdle ex_w2,
    [MFlushReq; MPassStart; MQueued false [Some ex_site2]; MPassEnd; MSent [Some ex_site2] am2 true])) as Hm2.
  { change ex_second with (take 6 ex_second ++ [LSend true]).
    rewrite mrun_app, (ex_flush_run [] ex_w2 (with_updated (GoTime 2 0) ex_entry2) ex_site2);
      [|reflexivity|exact ex_list2|reflexivity]. cbn [mrun app]. rewrite Hs2. reflexivity. }
  assert (forall P : mstate -> list mev -> Prop, slow P -> (forall s, m_stores s = ex_w1 -> P s []) -> (forall s, m_stores s = ex_w2 -> P s []) ->
    (forall s ev, m_stores s = ex_w2 -> published ev = [ex_change] -> P s ev) ->
    at_all_times ex_mc ex_w1 (ex_first ++ ex_second) P) as Htimes.
  { intros P HP HA HB HC. apply from_start. unfold ex_first. cbn [app].
    eapply from_step; [by apply HA|exact (ex_write_step [] [] SIdle)|].
    eapply from_step; [by apply HB|reflexivity|]. cbn [app].
    change (ex_serve ATakeUpdate :: ex_serve ATimeout :: ex_serve ADo :: LSend true :: ex_second) with
      ([ex_serve ATakeUpdate; ex_serve ATimeout; ex_serve ADo; LSend true] ++ ex_second).
    eapply from_quiet; [exact HP|by repeat constructor|by apply HC|exact Hm1|].
    rewrite <- (app_nil_r ex_second). eapply from_quiet; [exact HP|by repeat constructor|by apply HC|exact Hm2|].
    apply from_end. by apply HC. }
  exists (ex_st [] [] SIdle ex_w2), [MPublished ex_change; MQueued true [Some r]; MSent [Some r] am1 true],
    (ex_st [] [] SIdle ex_w2), [MFlushReq; MPassStart; MQueued false [Some ex_site2]; MPassEnd; MSent [Some ex_site2] am2 true], am2.
  split. { unfold ex_first. change (ex_write :: ?l) with ([ex_write] ++ l). rewrite mrun_app. cbn [mrun].
    change (m_init ex_w1) with (ex_st [] [] SIdle ex_w1). rewrite ex_write_step.
    assert (mstep ex_mc (ex_st [] [] SIdle ex_w2) (LPublish ex_change) = Some (ex_st [ex_change] [] SIdle ex_w2, [MPublished ex_change])) as -> by reflexivity.
    cbn [mrun] in Hm1. rewrite Hm1. reflexivity. }
  split; [exact Hm2|]. split; [exact eq_refl|]. split; [exact (conj eq_refl (conj eq_refl (conj eq_refl eq_refl)))|].
  split. { exact ex_late_ok. }
  split. { apply Htimes; [apply sendable_slow|..].
    - intros s E. eapply ex_sendable; [rewrite E; exact ex_w1_holds|reflexivity|apply ex_legit1|by left].
    - intros s E. eapply ex_sendable; [rewrite E; exact ex_w2_holds|reflexivity|apply ex_legit2|by left].
    - intros s ev E Hp. eapply ex_sendable; [rewrite E; exact ex_w2_holds|reflexivity|apply ex_legit2|right; exact Hp]. }
  split. { apply Htimes; [apply versions_slow|..].
    - intros s E. eapply (ex_versions s [] _ _ _ _ 0); [rewrite E; exact ex_w1_holds|reflexivity|reflexivity|left; split; [reflexivity|lia]].
    - intros s E. eapply (ex_versions s [] _ _ _ _ 1); [rewrite E; exact ex_w2_holds|reflexivity|reflexivity|left; split; [reflexivity|lia]].
    - intros s ev E Hp. eapply (ex_versions s ev _ _ _ _ 1); [rewrite E; exact ex_w2_holds|reflexivity|reflexivity|right; exact (conj Hp eq_refl)]. }
  split. { cbn [app published omap list_omap]. rewrite ex_about. reflexivity. }
  split; [exact eq_refl|]. split. { exists ex_site2. split; [left|exact ex_key2]. }
  split. { intros mm am H. repeat (apply elem_of_cons in H as [H|H]; [discriminate H|]). exact (not_elem_of_nil _ H). }
  split; [|exact E2]. constructor; [|constructor]. cbn [fst snd]. split; [apply Forall_singleton, at_time_ok|exact (conj eq_refl eq_refl)].
Qed.

(** ** A store that is behind *)

(** The update is published before it is stored, and a flush comes in between. *)
Definition ex_behind : list mlabel :=
  [LPublish ex_change] ++ ([ex_serve ATakeUpdate; ex_serve ATimeout; ex_serve ADo] ++ take 6 ex_second) ++ [ex_write] ++ [LSend true; LSend true].

Lemma ex_behind_ok : labels_ok ex_behind.
Proof.
  unfold labels_ok, ex_behind, ex_second. cbn [app take].
  repeat (apply Forall_cons; split; [first [exact I|apply at_time_ok]|]). apply Forall_nil. exact I.
Qed.

Lemma one_delivers e am r : env_ok e -> encode_mmsg [Some r] = Ok am -> delivers ([e], am) [r].
Proof.
  intros He E. split; [by apply Forall_singleton|]. split; [reflexivity|]. exists (MsgProps "" "" ""). exact E.
Qed.

Lemma ex_behind_run : exists s ev am1 am2 w' a, mrun ex_mc (m_init ex_w1) ex_behind = Some (s, ev) /\
  m_crashed s = false /\ resting s /\
  at_all_times ex_mc ex_w1 ex_behind (sendable ex_ty ex_routes1 ex_mc) /\ at_all_times ex_mc ex_w1 ex_behind in_order /\
  published ev = [ex_change] /\ (forall mm am, MSent mm am false ∉ ev) /\ (exists r, Some r ∈ concat (flush_msgs ev) /\ rkey r = ex_key) /\
  (exists x, entry_at (holds s 0) "s1" = Some x /\ e_rec x = Some ex_site2) /\
  takes [([at_time 20], am1); ([at_time 21], am2)] (wires ev) /\
  collect (fun _ => ex_cf) ex_routes1 ex_src [([at_time 20], am1); ([at_time 21], am2)] ∅ = (w', false) /\
  copy_at w' 0 "s1" = Some a /\ a !! KU32 30 = Some (AStr "east") /\ attrs_of ex_site2 !! KU32 30 = Some (AStr "west").
Proof.
  destruct ex_delta_rec as (r & Hr & Pr). destruct ex_publishable as [P1 P2]. destruct ex_attrs as (_ & _ & A3 & A4 & _).
  assert (vr_type r = vr_type ex_site2 /\ vrec_identity r = vrec_identity ex_site2) as [Ht Hi].
  { destruct (update_delta (at_time 9) (Some (ex_site "s1")) ex_site2 (at_time_ok 9) P2) as [(r' & Hr' & _ & Ht & Hi & _)|(Hn & _)].
    - intros p [= <-]. split; [exact P1|]. by rewrite ex_key2.
    - unfold ex_change in Hr. rewrite Hr' in Hr. injection Hr as ->. exact (conj Ht Hi).
    - unfold ex_change in Hr. rewrite Hn in Hr. discriminate Hr. }
  set (q := [[Some r]; [Some (ex_site "s1")]] : list mmsg).
  destruct (one_encodable r Pr) as [am1 E1]. destruct (one_encodable _ P1) as [am2 E2].
  pose proof (send_step_ok ex_mc (ex_st [] q SIdle ex_w2) [Some r] [[Some (ex_site "s1")]] am1 true eq_refl eq_refl eq_refl E1) as Hs1.
  pose proof (send_step_ok ex_mc (ex_st [] [[Some (ex_site "s1")]] SIdle ex_w2) [Some (ex_site "s1")] [] am2 true eq_refl eq_refl eq_refl E2) as Hs2.
  set (evm := [MQueued true [Some r]; MFlushReq; MPassStart; MQueued false [Some (ex_site "s1")]; MPassEnd] : list mev).
  set (evs := [MSent [Some r] am1 true; MSent [Some (ex_site "s1")] am2 true] : list mev).
  assert (mstep ex_mc (m_init ex_w1) (LPublish ex_change) = Some (ex_st [ex_change] [] SIdle ex_w1, [MPublished ex_change])) as H1 by reflexivity.
  assert (mrun ex_mc (ex_st [ex_change] [] SIdle ex_w1) ([ex_serve ATakeUpdate; ex_serve ATimeout; ex_serve ADo] ++ take 6 ex_second) =
    Some (ex_st [] q SIdle ex_w1, evm)) as H2.
  { rewrite mrun_app, (ex_update_run r ex_w1 Hr), (ex_flush_run [[Some r]] ex_w1 (stored "s1" "r1" 1 1).1 (ex_site "s1"));
      [reflexivity|reflexivity|exact ex_list1|reflexivity]. }
  assert (mrun ex_mc (ex_st [] q SIdle ex_w2) [LSend true; LSend true] = Some (ex_st [] [] SIdle ex_w2, evs)) as H3.
  { cbn [mrun]. rewrite Hs1. change (set_sends [[Some (ex_site "s1")]] (ex_st [] q SIdle ex_w2)) with (ex_st [] [[Some (ex_site "s1")]] SIdle ex_w2).
    rewrite Hs2. reflexivity. }
  assert (mrun ex_mc (m_init ex_w1) ex_behind = Some (ex_st [] [] SIdle ex_w2, [MPublished ex_change] ++ evm ++ [] ++ evs)) as Hrun.
  { unfold ex_behind. rewrite mrun_app. cbn [mrun]. rewrite H1. rewrite mrun_app, H2, mrun_app. cbn [mrun]. rewrite ex_write_step.
    cbn [mrun] in H3. rewrite H3. reflexivity. }
  assert (forall P : mstate -> list mev -> Prop, slow P ->
    (forall s, m_stores s = ex_w1 -> P s []) -> (forall s ev, m_stores s = ex_w1 -> published ev = [ex_change] -> P s ev) ->
    (forall s ev, m_stores s = ex_w2 -> published ev = [ex_change] -> P s ev) -> at_all_times ex_mc ex_w1 ex_behind P) as Htimes.
  { intros P HP HA HB HC. apply from_start. unfold ex_behind.
    change ([LPublish ex_change] ++ ?l) with (LPublish ex_change :: l).
    eapply from_step; [apply HA; reflexivity|exact H1|].
    eapply from_quiet; [exact HP|by repeat constructor|apply HB; reflexivity|exact H2|].
    change ([ex_write] ++ ?l) with (ex_write :: l).
    eapply from_step; [apply HB; reflexivity|apply ex_write_step|].
    rewrite <- (app_nil_r [LSend true; LSend true]).
    eapply from_quiet; [exact HP|by repeat constructor|apply HC; reflexivity|exact H3|]. apply from_end. apply HC; reflexivity. }
  destruct (collect_copy ex_ty (fun _ => ex_cf) ex_routes1 ex_src [([at_time 20], am1); ([at_time 21], am2)] [[r]; [ex_site "s1"]] ∅)
    as (w' & Hc & _ & Hcopy).
  { intros i. apply ex_cf_usual. }
  { apply Forall2_cons; split; [|apply Forall2_cons; split; [|constructor]].
    - exact (one_delivers _ _ _ (at_time_ok 20) E1).
    - exact (one_delivers _ _ _ (at_time_ok 21) E2). }
  { apply ex_sound. }
  { cbn [concat app]. apply Forall_cons; split; [exact Pr|]. apply Forall_singleton. exact P1. }
  { cbn [concat app]. apply Forall_cons; split; [|apply Forall_singleton; exact (proj2 (ex_legit1 _))].
    intros i Hm. rewrite Ht. reflexivity. }
  exists (ex_st [] [] SIdle ex_w2), ([MPublished ex_change] ++ evm ++ [] ++ evs), am1, am2, w'.
  specialize (Hcopy 0 "s1"%string). cbn [concat app] in Hcopy.
  assert (concerning ex_routes1 0 "s1" [r; ex_site "s1"] = [r; ex_site "s1"]) as Hcon.
  { unfold concerning, ex_routes1. rewrite filter_cons_True.
    - rewrite filter_cons_True by (split; [apply lookup_singleton|reflexivity]). reflexivity.
    - rewrite (same_type_key ex_site2 r Ht), ex_type_key, Hi. split; [apply lookup_singleton|reflexivity]. }
  rewrite Hcon in Hcopy. cbn [laid foldl] in Hcopy. eexists. split; [exact Hrun|].
  split; [exact eq_refl|]. split; [exact (conj eq_refl (conj eq_refl (conj eq_refl eq_refl)))|].
  split. { apply Htimes; [apply sendable_slow|..].
    - intros s E. eapply ex_sendable; [rewrite E; exact ex_w1_holds|reflexivity|apply ex_legit1|left; reflexivity].
    - intros s ev E Hp. eapply ex_sendable; [rewrite E; exact ex_w1_holds|reflexivity|apply ex_legit1|right; exact Hp].
    - intros s ev E Hp. eapply ex_sendable; [rewrite E; exact ex_w2_holds|reflexivity|apply ex_legit2|right; exact Hp]. }
  split. { apply Htimes.
    - intros s s' ev ev' _ Hp HI j u. rewrite <- Hp. apply HI.
    - intros s E. apply ex_in_order. left. reflexivity.
    - intros s ev E Hp. apply ex_in_order. right. exact Hp.
    - intros s ev E Hp. apply ex_in_order. right. exact Hp. }
  split; [reflexivity|].
  split. { intros mm am H. unfold evm, evs in H. cbn [app] in H. repeat (apply elem_of_cons in H as [H|H]; [discriminate H|]). exact (not_elem_of_nil _ H). }
  split. { exists (ex_site "s1"). split; [left|reflexivity]. }
  split. { exists (with_updated (GoTime 2 0) ex_entry2). split; [|reflexivity].
    assert (contents (store_at ex_w2 0) !! "s1"%string = Some (with_updated (GoTime 2 0) ex_entry2, 2%Z)) as E.
    { apply elem_of_map_to_list. rewrite ex_w2_holds. left. }
    unfold entry_at, holds. change (m_stores (ex_st [] [] SIdle ex_w2)) with ex_w2. rewrite E. reflexivity. }
  split. { apply Forall2_cons; split; [|apply Forall2_cons; split; [|constructor]].
    - split; [apply Forall_singleton, at_time_ok|exact (conj eq_refl eq_refl)].
    - split; [apply Forall_singleton, at_time_ok|exact (conj eq_refl eq_refl)]. }
  split; [exact Hc|]. split; [exact Hcopy|]. split; [|exact A4].
  apply lookup_union_Some_raw. left. exact A3.
Qed.
