(** The manager gets its work done: from every state, without new input, it
    comes to rest after boundedly many steps, whatever the schedule. *)
From Coq Require Import ZArith NArith Ascii String Lia.
From stdpp Require Import base gmap strings list sorting.
From Verif Require Import GoBase Encoding SpecEncoding Records Messages SpecMessages MessageFacts Env SyncMap SyncMapFacts Tokens TokenFacts Cache SpecStore
  StoreFacts StoreLemmas ListFacts EventFacts StoreExamples Dispatch Diff DiffFacts Manager ManagerFacts ManagerPass.

Local Open Scope list_scope.
Local Opaque vanflow_registry builtin_types record_types Encode Decode.

(** ** Specification *)

(** Steps of serve and sendRecords. *)
Definition internal (l : mlabel) : Prop := match l with LServe e _ => env_ok e | LSend _ => True | _ => False end.

(** Nothing is left to do. *)
Definition resting (s : mstate) : Prop :=
  m_serve s = SIdle /\ m_changes s = [] /\ m_flushes s = 0%Z /\ m_sends s = [].

(** No store has as many entries as a continue token can count. *)
Definition small_stores (s : mstate) : Prop := forall i, (Z.of_nat (size (holds s i)) < 2^31)%Z.

(** ** Progress *)

Lemma progress c s e : m_crashed s = false -> m_sending s = true -> m_serve s <> SStopped -> (0 <= m_flushes s)%Z -> env_ok e ->
  resting s \/ exists l, internal l /\ is_Some (mstep c s l).
Proof.
  intros Hc Hsd Hst Hfl He.
  destruct (decide (m_sends s = [])) as [Es|Es].
  2:{ right. exists (LSend true). split; [done|]. unfold mstep. rewrite Hc, Hsd. unfold send_step.
      destruct (m_sends s); [done|]. destruct (encode_record_msg _); eauto. }
  unfold resting. destruct (m_serve s) as [|buf|m|n|q tok|m q tok|] eqn:Epc; [| | | | | |done].
  - destruct (m_changes s) as [|u q] eqn:Ech.
    + destruct (decide (m_flushes s = 0%Z)) as [Ef|Ef]; [by left|]. right. exists (LServe e ATakeFlush). split; [done|].
      unfold mstep, serve_step. rewrite Hc, Epc. assert ((0 <? m_flushes s)%Z = true) as -> by lia. destruct (mc_delays c); eauto.
    + right. exists (LServe e ATakeUpdate). split; [done|]. unfold mstep, serve_step. rewrite Hc, Epc, Ech. destruct (_ && _); eauto.
  - right. exists (LServe e ATimeout). split; [done|]. unfold mstep, serve_step. rewrite Hc, Epc. eauto.
  - right. exists (LServe e ADo). split; [done|]. unfold mstep, serve_step. rewrite Hc, Epc, Es. simpl. eauto.
  - right. exists (LServe e ATimeout). split; [done|]. unfold mstep, serve_step. rewrite Hc, Epc. eauto.
  - right. exists (LServe e ADo). split; [done|]. unfold mstep, serve_step. rewrite Hc, Epc. destruct q; eauto.
  - right. exists (LServe e ADo). split; [done|]. unfold mstep, serve_step. rewrite Hc, Epc, Es. simpl. eauto.
Qed.

(** ** Tokens of a pass *)

Definition tok_ok (tok : string) : Prop := tok = ""%string \/ exists off, decode_continue tok = Some off /\ (0 <= off)%Z.
Definition serve_tok (s : mstate) : Prop :=
  match m_serve s with SPass _ tok | SPassSend _ _ tok => tok_ok tok | _ => True end.

Definition tok_off (tok : string) : nat := if bool_decide (tok = ""%string) then 0 else Z.to_nat (default 0%Z (decode_continue tok)).

(** What listing at a token gives: the last page, or a page and a token further on. *)
Lemma list_shape cf e s lim tok : env_ok e -> (Z.of_nat (size (contents s)) < 2^31)%Z -> tok_ok tok ->
  let r := (run_op cf e s (OList (Some (Selector 0 lim tok Ascending)))).1.2 in
  (exists l, r = OutSet l "" None) \/
  (exists l tok', r = OutSet l tok' None /\ tok' <> ""%string /\ tok_ok tok' /\ tok_off tok < tok_off tok' <= size (contents s)).
Proof.
  intros He Hsz Ht r. unfold r. cbn [run_op fst snd]. unfold list_all, apply_selector. cbn [s_ordering s_continue s_offset s_limit].
  set (l := env_sort e _ _ _). assert (length l = size (contents s)) as Hlen.
  { unfold l. rewrite <- (enumerates_size (contents s) (vc_res <$> sm_list e s)) by (by apply enumerates_list).
    apply Permutation_length. apply (proj2 He). }
  assert (exists off, (0 <= off)%Z /\ tok_off tok = Z.to_nat off /\
    (if bool_decide (tok = ""%string) then take_page e l 0 lim
     else match decode_continue tok with Some o => take_page e l o lim | None => OutSet l "" (Some SToken) end) =
    take_page e l off lim) as (off & H0 & Ho & ->).
  { unfold tok_off. case_bool_decide as Hn; [exists 0%Z; done|]. destruct Ht as [?|(off & Hd & H0)]; [done|]. exists off.
    by rewrite Hd. }
  unfold take_page. destruct (Z.geb_spec off (Z.of_nat (length l))) as [Hge|Hlt].
  - destruct (_ && _) eqn:E; [|eauto]. apply andb_true_iff in E as [E1 E2]. apply Z.ltb_lt in E1, E2. simpl in E2. lia.
  - assert ((off <? 0)%Z = false) as -> by lia. rewrite drop_length.
    destruct (Z.ltb_spec 0 lim) as [Hpos|]; cbn [andb]; [|eauto].
    destruct (Z.ltb_spec lim (Z.of_nat (length l - Z.to_nat off))) as [Hmore|Hlast]; [|eauto].
    right. eexists _, _. split; [reflexivity|]. split; [apply make_continue_ne|].
    assert (decode_continue (make_continue (t_sec (env_now e)) (off + lim)) = Some (off + lim)%Z) as Hd.
    { apply continue_round_trip. lia. }
    split; [right; exists (off + lim)%Z; split; [done|lia]|]. rewrite Ho. unfold tok_off.
    rewrite bool_decide_false by apply make_continue_ne. rewrite Hd. simpl. lia.
Qed.

Lemma list_next_cases c e i q tok s : env_ok e -> small_stores s -> tok_ok tok ->
  exists q' tok', tok_ok tok' /\
    (m_serve (list_next c e i q tok s) = SPass q' tok' \/ exists m, m_serve (list_next c e i q tok s) = SPassSend m q' tok') /\
    (q' = q /\ tok' = ""%string \/ q' = i :: q /\ tok_off tok < tok_off tok' <= size (holds s i)) /\
    m_changes (list_next c e i q tok s) = m_changes s /\ m_flushes (list_next c e i q tok s) = m_flushes s /\
    m_sends (list_next c e i q tok s) = m_sends s /\ m_crashed (list_next c e i q tok s) = m_crashed s.
Proof.
  intros He Hsz Ht. unfold list_next.
  destruct (list_shape (mc_store_cfg c i) e (store_at (m_stores s) i) (mc_flush_batch c) tok He (Hsz i) Ht)
    as [[l ->]|(l & tok' & -> & Hne & Ht' & Hlt)].
  - exists q, ""%string. rewrite bool_decide_true by done. split; [by left|].
    destruct l as [|x l]; flags; (split; [by eauto|]; split; [by left|done]).
  - exists (i :: q), tok'. rewrite bool_decide_false by done. split; [done|].
    destruct l as [|x l]; flags; (split; [by eauto|]; split; [by right|done]).
Qed.

Lemma serve_tok_step c s l s' ev : serve_tok s -> small_stores s ->
  match l with LServe e _ | LStore _ e _ => env_ok e | _ => True end -> mstep c s l = Some (s', ev) -> serve_tok s'.
Proof.
  intros Hi Hsz Hok H. unfold mstep in H. destruct (m_crashed s) eqn:Hc; [done|]. unfold serve_tok in *. destruct l.
  - destruct (_ <? 256)%Z; [|done]. injection H as <- <-. done.
  - unfold serve_step in H.
    assert (forall e buf s, match m_serve s with SPass _ _ | SPassSend _ _ _ => False | _ => True end ->
      match m_serve (finish_batch e buf s) with SPass _ tok | SPassSend _ _ tok => tok_ok tok | _ => True end) as Hf.
    { intros e0 b0 s0 H0. unfold finish_batch. destruct (batch_records e0 b0) as [[|]|]; flags; try done. by destruct (m_serve s0). }
    assert (forall e buf s, match m_serve s with SPass _ _ | SPassSend _ _ _ => False | _ => True end ->
      match m_serve (buffered e buf s) with SPass _ tok | SPassSend _ _ tok => tok_ok tok | _ => True end) as Hb.
    { intros e0 b0 s0 H0. unfold buffered. destruct (m_cancelled s0); [done|by apply Hf]. }
    destruct (m_serve s) as [|buf|m|n|q tok|m q tok|] eqn:Epc; destruct a; try discriminate H.
    + destruct (m_changes s); [done|]. destruct (_ && _); injection H as <- <-; [done|]. apply Hf. flags. by rewrite Epc.
    + destruct (0 <? m_flushes s)%Z; [|done]. destruct (mc_delays c); injection H as <- <-; [done|]. by left.
    + destruct (m_cancelled s); [|done]. by injection H as <- <-.
    + destruct (m_changes s); [done|]. destruct (_ =? _)%Z; injection H as <- <-; [|done]. apply Hb. flags. by rewrite Epc.
    + injection H as <- <-. apply Hb. by rewrite Epc.
    + destruct (m_cancelled s); [|done]. by injection H as <- <-.
    + destruct (_ <? 256)%Z; [|done]. by injection H as <- <-.
    + destruct (0 <? m_flushes s)%Z; [|done]. destruct (_ =? 2048)%Z; [unfold drained in H; destruct (m_cancelled _)|];
        injection H as <- <-; [done| |done]. by left.
    + unfold drained in H; destruct (m_cancelled _); injection H as <- <-; [done|]. by left.
    + destruct q; discriminate H.
    + destruct q; discriminate H.
    + destruct q; discriminate H.
    + destruct q; discriminate H.
    + destruct q; discriminate H.
    + destruct q as [|i q]; injection H as <- <-; [done|].
      destruct (list_next_cases c e i q tok s Hok Hsz Hi) as (q' & tok' & Ht & [-> |[m ->]] & _); done.
    + destruct (m_cancelled s); [|done]. by injection H as <- <-.
    + destruct (_ <? 256)%Z; [|done]. by injection H as <- <-.
  - destruct (m_listening s); [|done]. injection H as <- <-. cbn [fst recv_step]. by destruct (_ <? 8)%Z.
  - destruct (_ && _); [|done]. by injection H as <- <-.
  - destruct (m_sending s); [|done]. unfold send_step in H. destruct (m_sends s) as [|m q] eqn:Es; [done|].
    destruct (encode_record_msg _) as [am|er|]; by injection H as <- <-.
  - destruct (_ && _); [|done]. by injection H as <- <-.
  - by injection H as <- <-.
  - destruct (run_op _ _ _ _) as [[s1 ?] ?]. by injection H as <- <-.
Qed.

Lemma serve_tok_run c w ls s evs : labels_ok ls -> mrun c (m_init w) ls = Some (s, evs) ->
  (forall s1 s2, consecutive c (m_init w) ls s1 s2 -> small_stores s1) -> serve_tok s.
Proof.
  intros Hok Hr Hsz.
  apply (mrun_inv_rel (fun s _ => serve_tok s)
    (fun l => match l with LServe e _ | LStore _ e _ => env_ok e | _ => True end) c (m_init w) [] ls s evs) with (4 := Hr);
    [done| |done].
  intros s1 evs1 l s2 ev Hi Hl Hc Hs. eapply serve_tok_step; [exact Hi|by eapply Hsz|exact Hl|exact Hs].
Qed.

(** ** Termination *)

(** The steps still needed for a pass. *)
Definition store_rank (s : mstate) (i : nat) : nat := 3 * size (holds s i) + 3.
Definition pass_rank (s : mstate) (q : list nat) (tok : string) : nat :=
  match q with
  | [] => 0
  | i :: q' => 3 * (size (holds s i) - tok_off tok) + 3 + sum_list (store_rank s <$> q')
  end.
Definition full_rank (c : mcfg) (s : mstate) : nat := pass_rank s (mc_stores c) "" + 1.

Definition serve_rank (c : mcfg) (s : mstate) : nat :=
  match m_serve s with
  | SStopped => 0
  | SIdle => 1
  | SBuffer _ => 4
  | SSend _ => 3
  | SDrain _ => full_rank c s + 3
  | SPass q tok => pass_rank s q tok + 2
  | SPassSend _ q tok => pass_rank s q tok + 4
  end.

Definition rank (c : mcfg) (s : mstate) : nat :=
  if m_crashed s then 0
  else S (4 * length (m_changes s) + (full_rank c s + 3) * Z.to_nat (m_flushes s) + length (m_sends s) + serve_rank c s).

Lemma pass_rank_next s q : pass_rank s q "" = sum_list (store_rank s <$> q).
Proof. destruct q as [|i q]; [done|]. unfold pass_rank, tok_off. rewrite bool_decide_true by done. rewrite Nat.sub_0_r. reflexivity. Qed.

(** Ranks look at the stores only. *)
Lemma pass_rank_stores s s' q tok : m_stores s' = m_stores s -> pass_rank s' q tok = pass_rank s q tok.
Proof. intros E. unfold pass_rank, store_rank, holds. by rewrite E. Qed.
Lemma full_rank_stores c s s' : m_stores s' = m_stores s -> full_rank c s' = full_rank c s.
Proof. intros E. unfold full_rank. by rewrite (pass_rank_stores s s'). Qed.

Lemma finish_rank e buf s : m_stores (finish_batch e buf s) = m_stores s /\ m_changes (finish_batch e buf s) = m_changes s /\
  m_flushes (finish_batch e buf s) = m_flushes s /\ m_sends (finish_batch e buf s) = m_sends s /\
  (m_crashed (finish_batch e buf s) = true \/ m_crashed (finish_batch e buf s) = m_crashed s /\
   forall c, serve_rank c (finish_batch e buf s) <= 3).
Proof.
  unfold finish_batch, serve_rank. destruct (batch_records e buf) as [[|]|]; flags; do 4 (split; [done|]);
    [right; split; [done|intros _; lia]..|by left].
Qed.
Lemma buffered_rank e buf s : m_stores (buffered e buf s) = m_stores s /\ m_changes (buffered e buf s) = m_changes s /\
  m_flushes (buffered e buf s) = m_flushes s /\ m_sends (buffered e buf s) = m_sends s /\
  (m_crashed (buffered e buf s) = true \/ m_crashed (buffered e buf s) = m_crashed s /\
   forall c, serve_rank c (buffered e buf s) <= 3).
Proof.
  unfold buffered. destruct (m_cancelled s); [|apply finish_rank]. unfold serve_rank. flags. do 4 (split; [done|]).
  right. split; [done|]. intros _. lia.
Qed.

Lemma rank_intro c s s' : m_stores s' = m_stores s ->
  m_crashed s = false ->
  (m_crashed s' = true \/
   4 * length (m_changes s') + (full_rank c s + 3) * Z.to_nat (m_flushes s') + length (m_sends s') + serve_rank c s' <
   4 * length (m_changes s) + (full_rank c s + 3) * Z.to_nat (m_flushes s) + length (m_sends s) + serve_rank c s) ->
  rank c s' < rank c s.
Proof.
  intros Hs Hc H. unfold rank. rewrite Hc, (full_rank_stores c s s' Hs). destruct (m_crashed s'); [lia|].
  destruct H as [?|H]; [done|lia].
Qed.

Ltac same_stores s := repeat match goal with
  | |- context [pass_rank (set_serve ?p ?t) ?q ?k] => change (pass_rank (set_serve p t) q k) with (pass_rank s q k)
  | |- context [full_rank ?c (set_serve ?p ?t)] => change (full_rank c (set_serve p t)) with (full_rank c s) end.

Lemma rank_step c s l s' ev : internal l -> serve_tok s -> small_stores s -> (0 <= m_flushes s)%Z ->
  mstep c s l = Some (s', ev) -> m_stores s' = m_stores s /\ rank c s' < rank c s.
Proof.
  intros Hin Ht Hsz Hfl H. unfold mstep in H. destruct (m_crashed s) eqn:Hc; [done|]. destruct l; try done.
  - unfold serve_step in H.
    destruct (m_serve s) as [|buf|m|n|q tok|m q tok|] eqn:Epc; destruct a; try discriminate H.
    + destruct (m_changes s) as [|u ch] eqn:Ech; [done|]. destruct (_ && _); injection H as <- <-.
      * split; [done|]. apply rank_intro; [done|done|]. right. unfold serve_rank. rewrite Epc, Ech. flags. simpl. lia.
      * destruct (finish_rank e [u] (set_changes ch s)) as (E1 & E2 & E3 & E4 & E5). flags. split; [done|].
        apply rank_intro; [done|done|]. destruct E5 as [?|[_ E5]]; [by left|]. right. specialize (E5 c).
        rewrite E2, E3, E4, Ech. unfold serve_rank at 2. rewrite Epc. simpl. lia.
    + destruct (Z.ltb_spec 0 (m_flushes s)); [|done].
      assert (Z.to_nat (m_flushes s) = S (Z.to_nat (m_flushes s - 1))) as Ef by lia.
      destruct (mc_delays c); injection H as <- <-; (split; [done|]; apply rank_intro; [done|done|]; right;
        unfold serve_rank; rewrite Epc, Ef; flags).
      * same_stores s. lia.
      * same_stores s. unfold full_rank. lia.
    + destruct (m_cancelled s); [|done]. injection H as <- <-. split; [done|]. apply rank_intro; [done|done|]. right.
      unfold serve_rank. rewrite Epc. flags. lia.
    + destruct (m_changes s) as [|u ch] eqn:Ech; [done|]. destruct (_ =? _)%Z; injection H as <- <-.
      * destruct (buffered_rank e (buf ++ [u]) (set_changes ch s)) as (E1 & E2 & E3 & E4 & E5). flags. split; [done|].
        apply rank_intro; [done|done|]. destruct E5 as [?|[_ E5]]; [by left|]. right. specialize (E5 c).
        rewrite E2, E3, E4, Ech. unfold serve_rank at 2. rewrite Epc. simpl. lia.
      * split; [done|]. apply rank_intro; [done|done|]. right. unfold serve_rank. rewrite Epc, Ech. flags. simpl. lia.
    + injection H as <- <-. destruct (buffered_rank e buf s) as (E1 & E2 & E3 & E4 & E5). split; [done|].
      apply rank_intro; [done|done|]. destruct E5 as [?|[_ E5]]; [by left|]. right. specialize (E5 c).
      rewrite E2, E3, E4. unfold serve_rank at 2. rewrite Epc. simpl. lia.
    + destruct (m_cancelled s); [|done]. injection H as <- <-. split; [done|]. apply rank_intro; [done|done|]. right.
      unfold serve_rank. rewrite Epc. flags. lia.
    + destruct (_ <? 256)%Z; [|done]. injection H as <- <-. split; [done|]. apply rank_intro; [done|done|]. right.
      unfold serve_rank. rewrite Epc. flags. rewrite app_length. simpl. lia.
    + destruct (Z.ltb_spec 0 (m_flushes s)); [|done].
      assert (Z.to_nat (m_flushes s) = S (Z.to_nat (m_flushes s - 1))) as Ef by lia.
      destruct (_ =? 2048)%Z; [unfold drained in H; destruct (m_cancelled _)|]; injection H as <- <-;
        (split; [done|]; apply rank_intro; [done|done|]; right; unfold serve_rank; rewrite Epc, Ef; flags).
      * lia.
      * same_stores s. unfold full_rank. lia.
      * same_stores s. lia.
    + unfold drained in H; destruct (m_cancelled _); injection H as <- <-;
        (split; [done|]; apply rank_intro; [done|done|]; right; unfold serve_rank; rewrite Epc; flags).
      * lia.
      * same_stores s. unfold full_rank. lia.
    + destruct q; discriminate H.
    + destruct q; discriminate H.
    + destruct q; discriminate H.
    + destruct q; discriminate H.
    + destruct q; discriminate H.
    + destruct q as [|i q]; injection H as <- <-.
      * split; [done|]. apply rank_intro; [done|done|]. right. unfold serve_rank. rewrite Epc. flags. simpl. lia.
      * pose proof (list_next_stores c e i q tok s) as Est. split; [done|]. apply rank_intro; [done|done|]. right.
        unfold serve_tok in Ht. rewrite Epc in Ht.
        destruct (list_next_cases c e i q tok s Hin Hsz Ht) as (q' & tok' & Ht' & Hs' & Hq & E1 & E2 & E3 & _).
        rewrite E1, E2, E3. unfold serve_rank. rewrite Epc.
        assert (pass_rank s q' tok' + 3 <= pass_rank s (i :: q) tok) as Hlt.
        { destruct Hq as [[-> ->]|[-> Hq]]; [rewrite pass_rank_next|]; unfold pass_rank; lia. }
        destruct Hs' as [-> |[m ->]]; rewrite (pass_rank_stores s) by done; lia.
    + destruct (m_cancelled s); [|done]. injection H as <- <-. split; [done|]. apply rank_intro; [done|done|]. right.
      unfold serve_rank. rewrite Epc. flags. lia.
    + destruct (_ <? 256)%Z; [|done]. injection H as <- <-. split; [done|]. apply rank_intro; [done|done|]. right.
      unfold serve_rank. rewrite Epc. flags. same_stores s. rewrite app_length. simpl. lia.
  - destruct (m_sending s); [|done]. unfold send_step in H. destruct (m_sends s) as [|m q] eqn:Es; [done|].
    assert (rank c (set_sends q s) < rank c s) as Hlt.
    { apply rank_intro; [done|done|]. right. rewrite Es. flags.
      assert (serve_rank c (set_sends q s) = serve_rank c s) as ->; [|simpl; lia].
      unfold serve_rank. flags. destruct (m_serve s); try done; rewrite ?(full_rank_stores c s), ?(pass_rank_stores s) by done; done. }
    destruct (encode_record_msg _) as [am|er|]; injection H as <- <-; (split; [done|]); try exact Hlt.
    apply rank_intro; [done|done|]. by left.
Qed.

Lemma flushes_step c s l s' ev : (0 <= m_flushes s <= 8)%Z -> mstep c s l = Some (s', ev) -> (0 <= m_flushes s' <= 8)%Z.
Proof.
  intros H Hs. destruct (req_inv_step c s [] l s' ev) as [? _]; [|done|done]. split; [done|]. intros _ _.
  split; intros [|] ? E; discriminate E.
Qed.

(** Without new input the manager can take only so many steps. *)
Lemma bounded c s ls s' ev : serve_tok s -> small_stores s -> (0 <= m_flushes s <= 8)%Z ->
  Forall internal ls -> mrun c s ls = Some (s', ev) -> length ls <= rank c s.
Proof.
  intros Ht Hsz Hfl HF. revert s ev Ht Hsz Hfl. induction HF as [|l ls Hl HF IH]; intros s ev Ht Hsz Hfl Hr; [simpl; lia|].
  cbn [mrun] in Hr. destruct (mstep c s l) as [[s1 ev1]|] eqn:E; [|done].
  destruct (mrun c s1 ls) as [[s2 ev2]|] eqn:E2; [|done].
  destruct (rank_step c s l s1 ev1 Hl Ht Hsz) as [Est Hlt]; [lia|done|].
  assert (length ls <= rank c s1); [|simpl; lia]. apply (IH s1 ev2); [| | |].
  - eapply serve_tok_step; [exact Ht|exact Hsz| |exact E]. by destruct l.
  - intros i. unfold holds. rewrite Est. apply Hsz.
  - by eapply flushes_step.
  - injection Hr as <- <-. done.
Qed.

(** Goroutines only end after the context is cancelled. *)
Definition alive (s : mstate) : Prop := m_cancelled s = false -> m_sending s = true /\ m_listening s = true /\ m_serve s <> SStopped.

Lemma alive_step c s l s' ev : alive s -> mstep c s l = Some (s', ev) -> alive s'.
Proof.
  intros Hi H. unfold mstep in H. destruct (m_crashed s) eqn:Hc; [done|]. unfold alive in *.
  assert (forall p, p <> SStopped -> m_cancelled (set_serve p s) = false ->
    m_sending (set_serve p s) = true /\ m_listening (set_serve p s) = true /\ m_serve (set_serve p s) <> SStopped) as Hset.
  { intros p Hp Hcan. flags. destruct (Hi Hcan) as (? & ? & ?). done. }
  assert (forall e buf s0, (m_cancelled s0 = false -> m_sending s0 = true /\ m_listening s0 = true /\ m_serve s0 <> SStopped) ->
    m_cancelled (buffered e buf s0) = false -> m_sending (buffered e buf s0) = true /\ m_listening (buffered e buf s0) = true /\
      m_serve (buffered e buf s0) <> SStopped) as Hb.
  { intros e buf s0 H0. unfold buffered, finish_batch. destruct (m_cancelled s0) eqn:E; flags; [congruence|].
    destruct (batch_records e buf) as [[|]|]; flags; intros _; destruct (H0 eq_refl) as (? & ? & ?); done. }
  destruct l.
  - destruct (_ <? 256)%Z; [|done]. injection H as <- <-. done.
  - unfold serve_step in H.
    assert (forall e buf s0, (m_cancelled s0 = false -> m_sending s0 = true /\ m_listening s0 = true /\ m_serve s0 <> SStopped) ->
      m_cancelled (finish_batch e buf s0) = false -> m_sending (finish_batch e buf s0) = true /\
        m_listening (finish_batch e buf s0) = true /\ m_serve (finish_batch e buf s0) <> SStopped) as Hf.
    { intros e0 buf0 s0 H0. unfold finish_batch. destruct (batch_records e0 buf0) as [[|]|]; flags; intros E;
        destruct (H0 E) as (? & ? & ?); done. }
    assert (forall s0 s1 ev1, (m_cancelled s0 = false -> m_sending s0 = true /\ m_listening s0 = true /\ m_serve s0 <> SStopped) ->
      drained c s0 = (s1, ev1) -> m_cancelled s1 = false -> m_sending s1 = true /\ m_listening s1 = true /\ m_serve s1 <> SStopped) as Hd.
    { intros s0 s1 ev1 H0 E. unfold drained in E. destruct (m_cancelled s0) eqn:E0; injection E as <- <-; flags; [congruence|].
      intros _. destruct (H0 eq_refl) as (? & ? & ?). done. }
    destruct (m_serve s) as [|buf|m|n|q tok|m q tok|] eqn:Epc; destruct a; try discriminate H.
    + destruct (m_changes s); [done|]. destruct (_ && _); injection H as <- <-; [by apply Hset|].
      apply Hf. flags. by rewrite Epc.
    + destruct (0 <? m_flushes s)%Z; [|done]. destruct (mc_delays c); injection H as <- <-; by apply Hset.
    + destruct (m_cancelled s) eqn:E; [|done]. injection H as <- <-. flags. congruence.
    + destruct (m_changes s); [done|]. destruct (_ =? _)%Z; injection H as <- <-; [|by apply Hset]. apply Hb. flags. by rewrite Epc.
    + injection H as <- <-. apply Hb. by rewrite Epc.
    + destruct (m_cancelled s) eqn:E; [|done]. injection H as <- <-. flags. congruence.
    + destruct (_ <? 256)%Z; [|done]. injection H as <- <-. by apply Hset.
    + destruct (0 <? m_flushes s)%Z; [|done]. destruct (_ =? 2048)%Z; [injection H as H|injection H as <- <-; by apply Hset].
      eapply Hd; [|exact H]. flags. by rewrite Epc.
    + injection H as H. eapply Hd; [|exact H]. by rewrite Epc.
    + destruct q; discriminate H.
    + destruct q; discriminate H.
    + destruct q; discriminate H.
    + destruct q; discriminate H.
    + destruct q; discriminate H.
    + destruct q as [|i q]; injection H as <- <-; [by apply Hset|]. unfold list_next.
      destruct (run_op _ _ _ _).1.2 as [? |? ?|l tok' [er|]|? ?|]; try (flags; rewrite Epc; exact Hi).
      destruct l; by apply Hset.
    + destruct (m_cancelled s) eqn:E; [|done]. injection H as <- <-. flags. congruence.
    + destruct (_ <? 256)%Z; [|done]. injection H as <- <-. by apply Hset.
  - destruct (m_listening s) eqn:El; [|done]. injection H as <- <-. cbn [fst recv_step]. destruct (_ <? 8)%Z; flags; rewrite ?El; exact Hi.
  - destruct (m_cancelled s) eqn:E; [|by rewrite andb_false_r in H]. destruct (_ && _); [|done]. injection H as <- <-. flags. congruence.
  - destruct (m_sending s) eqn:El; [|done]. unfold send_step in H. destruct (m_sends s) as [|m q] eqn:Es; [done|].
    destruct (encode_record_msg _) as [am|er|]; injection H as <- <-; flags; rewrite El; exact Hi.
  - destruct (m_cancelled s) eqn:E; [|by rewrite andb_false_r in H]. destruct (_ && _); [|done]. injection H as <- <-. flags. congruence.
  - by injection H as <- <-.
  - destruct (run_op _ _ _ _) as [[s1 ?] ?]. by injection H as <- <-.
Qed.

Lemma alive_run c w ls s evs : mrun c (m_init w) ls = Some (s, evs) -> alive s.
Proof.
  intros Hr. apply (mrun_inv (fun s _ => alive s) (fun _ => True) c (m_init w) [] ls s evs) with (3 := Forall_true _ _ (fun _ => I)) (4 := Hr);
    [done|intros s1 evs1 l s' ev Hi _ Hs; by eapply alive_step].
Qed.

(** From every state of a run, whatever the schedule: serve and sendRecords
    take boundedly many steps without new input, and if they cannot take
    another one, all work is done. *)
Lemma comes_to_rest c w ls s evs : labels_ok ls -> mrun c (m_init w) ls = Some (s, evs) ->
  (forall s1 s2, consecutive c (m_init w) ls s1 s2 -> small_stores s1) -> small_stores s ->
  exists n, forall ls' s' ev', Forall internal ls' -> mrun c s ls' = Some (s', ev') ->
    length ls' <= n /\
    (m_crashed s' = false -> m_cancelled s' = false -> (forall l, internal l -> mstep c s' l = None) -> resting s').
Proof.
  intros Hok Hr Hsz Hsz'. exists (rank c s). intros ls' s' ev' HF Hr'.
  destruct (req_inv_run c w ls s evs Hr) as [H8 _]. split.
  - eapply bounded; [by eapply serve_tok_run|done|done|done|exact Hr'].
  - intros Hc Hcan Hstuck.
    assert (mrun c (m_init w) (ls ++ ls') = Some (s', evs ++ ev')) as Hr2 by (by rewrite mrun_app, Hr, Hr').
    destruct (alive_run _ _ _ _ _ Hr2 Hcan) as (Hs1 & _ & Hs2). destruct (req_inv_run _ _ _ _ _ Hr2) as [H8' _].
    destruct (progress c s' (plain_env zero_time) Hc Hs1 Hs2) as [?|(l & Hl & [x Hx])]; [lia|apply plain_env_ok|done|].
    by rewrite (Hstuck l Hl) in Hx.
Qed.

(** Every flush request is served by then. *)
Lemma flush_served c w ls s evs ls' s' ev' e1 e2 : mrun c (m_init w) ls = Some (s, evs) ->
  mrun c s ls' = Some (s', ev') -> m_crashed s' = false -> resting s' ->
  evs = e1 ++ MFlushReq :: e2 -> exists a b d, e2 ++ ev' = a ++ MPassStart :: b ++ MPassEnd :: d.
Proof.
  intros Hr Hr' Hc (H1 & _ & H2 & _) E. eapply (requests_served c w (ls ++ ls') s' (evs ++ ev') e1); [|done|done|done|].
  - by rewrite mrun_app, Hr, Hr'.
  - by rewrite E, <- app_assoc.
Qed.

(** ** No crashes *)

(** The update holds usable records. *)
Definition sane_update (u : rec_update) : Prop :=
  (forall p, ru_prev u = Some p -> good_record p) /\ exists r, ru_curr u = Some r /\ good_record r.
Definition sane_msg (m : mmsg) : Prop := exists rs, m = Some <$> rs /\ Forall good_record rs.
Definition sane_label (l : mlabel) : Prop :=
  match l with
  | LPublish u => sane_update u
  | LServe e _ => env_ok e
  | LStore _ e o => env_ok e /\ good_op good_record o
  | _ => True
  end.
Definition sound_stores (c : mcfg) (w : stores) : Prop := forall i, i ∈ mc_stores c ->
  usual_key (mc_store_cfg c i) /\ reachable (mc_store_cfg c i) (store_at w i) /\ well_keyed (contents (store_at w i)).

Lemma sane_diff e u : env_ok e -> sane_update u -> diff_record e u = DNone \/
  exists r, diff_record e u = DRec (Some r) /\ good_record r.
Proof.
  intros He [Hp (r & Er & Gr)]. destruct u as [p c]. cbn [ru_prev ru_curr] in *. subst c. destruct p as [p|]; [|right; eauto].
  specialize (Hp p eq_refl). destruct (good_encode p Hp) as [[a Ea]|(x & y & Ea)].
  - destruct (good_encode r Gr) as [[b Eb]|(x & y & Eb)].
    + destruct (diff_spec e p r a b He Hp Ea Gr Eb) as [H1 H2]. destruct (decide (b ⊆ a)) as [Hs|Hs]; [left; by apply H1|].
      right. destruct (H2 Hs) as (r' & d & H & G & _). eauto.
    + left. unfold diff_record. cbn [ru_prev ru_curr]. rewrite Ea. unfold rec_any. by rewrite Eb.
  - left. unfold diff_record. cbn [ru_prev]. by rewrite Ea.
Qed.

Lemma sane_batch e buf : env_ok e -> Forall sane_update buf -> exists m, batch_records e buf = Some m /\ sane_msg m.
Proof.
  intros He. induction 1 as [|u buf Hu HF IH]; [exists []; split; [done|]; by exists []|].
  destruct IH as (m & Hm & rs & -> & G). cbn [batch_records].
  destruct (sane_diff e u He Hu) as [-> |(r & -> & Gr)]; [exists (Some <$> rs); split; [done|]; by exists rs|].
  rewrite Hm. cbn [fmap option_fmap option_map]. eexists. split; [reflexivity|]. exists (r :: rs). split; [done|]. by constructor.
Qed.

Lemma sane_encode m : sane_msg m -> encode_mmsg m <> Panic.
Proof.
  intros (rs & -> & G). unfold encode_mmsg, encode_record_msg. cbn [rm_records].
  assert (encode_records (Some <$> rs) <> Panic) as H.
  { induction G as [|r rs Hr G IH]; [done|]. cbn [fmap list_fmap encode_records record_iface].
    destruct (good_encode r Hr) as [[a ->]|(x & y & ->)]; [|done].
    destruct (encode_records (Some <$> rs)) as [l|er|]; done. }
  destruct (encode_records (Some <$> rs)); done.
Qed.

Definition sane_state (c : mcfg) (s : mstate) : Prop :=
  m_crashed s = false /\ Forall sane_update (m_changes s) /\ Forall sane_msg (m_sends s) /\
  sound_stores c (m_stores s) /\ serve_tok s /\
  match m_serve s with
  | SBuffer buf => Forall sane_update buf
  | SSend m => sane_msg m
  | SPass q _ => forall i, i ∈ q -> i ∈ mc_stores c
  | SPassSend m q _ => sane_msg m /\ forall i, i ∈ q -> i ∈ mc_stores c
  | _ => True
  end.

Lemma sane_finish c e buf s : sane_state c (set_serve SIdle s) -> env_ok e -> Forall sane_update buf ->
  sane_state c (finish_batch e buf s).
Proof.
  intros (H1 & H2 & H3 & H4 & H5 & _) He Hb. unfold finish_batch. destruct (sane_batch e buf He Hb) as (m & -> & Hm).
  destruct m as [|r m]; split; done.
Qed.

Lemma sane_list c e i q tok s : sane_state c s -> small_stores s -> env_ok e -> m_serve s = SPass (i :: q) tok ->
  sane_state c (list_next c e i q tok s).
Proof.
  intros (H1 & H2 & H3 & H4 & H5 & H6) Hsz He Epc. unfold serve_tok in H5. rewrite Epc in H5, H6.
  destruct (list_next_cases c e i q tok s He Hsz H5) as (q' & tok' & Ht & Hs & Hq & E1 & E2 & E3 & E4).
  unfold sane_state, serve_tok. rewrite E1, E3, E4, list_next_stores. split; [done|]. split; [done|]. split; [done|]. split; [done|].
  assert (forall j, j ∈ q' -> j ∈ mc_stores c) as Hsub.
  { intros j Hj. apply H6. destruct Hq as [[-> _]|[-> _]]; [by right|done]. }
  destruct Hs as [-> |[m Hm]]; [done|]. rewrite Hm. split; [done|]. split; [|done].
  destruct (H4 i) as (Hu & Hr & Hw); [apply H6; left|].
  unfold list_next in Hm. cbn [run_op fst snd] in Hm. unfold list_all in Hm.
  set (l0 := vc_res <$> sm_list e (store_at (m_stores s) i)) in Hm.
  assert (forall x, x ∈ l0 -> exists r, e_rec x = Some r /\ good_record r) as Hg.
  { intros x Hx. destruct (enumerates_list e (store_at (m_stores s) i) He) as (ks & _ & Hf & _). fold l0 in Hf.
    apply elem_of_list_lookup in Hx as [n Hn]. destruct (Forall2_lookup_r _ _ _ _ _ Hf Hn) as (k & _ & Hk).
    by apply Hw in Hk as [_ ?]. }
  assert (forall l, (forall x, x ∈ l -> exists r, e_rec x = Some r /\ good_record r) -> sane_msg (e_rec <$> l)) as Hsane.
  { intros l. clear. induction l as [|x l IH]; intros H; [by exists []|]. destruct IH as (rs & E & G); [intros y Hy; apply H; by right|].
    destruct (H x) as (r & Er & Gr); [left|]. exists (r :: rs). rewrite !fmap_cons, E, Er. split; [done|]. by constructor. }
  assert (forall l t, apply_selector (mc_store_cfg c i) e l0 (Selector 0 (mc_flush_batch c) tok Ascending) = OutSet l t None ->
    forall x, x ∈ l -> x ∈ l0) as Hsubl.
  { intros l t Ha x Hx. unfold apply_selector in Ha. cbn [s_ordering s_continue s_offset s_limit] in Ha.
    set (l1 := env_sort e _ _ l0) in Ha. assert (l1 ≡ₚ l0) as Hp by apply (proj2 He). rewrite <- Hp. clearbody l1.
    assert (forall off, take_page e l1 off (mc_flush_batch c) = OutSet l t None -> x ∈ l1) as Htp.
    { intros off. unfold take_page. destruct (_ >=? _)%Z.
      - destruct (_ && _); intros E; injection E as <- _; [by rewrite take_nil in Hx; apply elem_of_nil in Hx|by apply elem_of_nil in Hx].
      - destruct (_ <? 0)%Z; [done|]. destruct (_ && _); intros E; injection E as <- _.
        + apply elem_of_take in Hx as (n & Hn & _). rewrite lookup_drop in Hn. by eapply elem_of_list_lookup_2.
        + apply elem_of_list_lookup in Hx as [n Hn]. rewrite lookup_drop in Hn. by eapply elem_of_list_lookup_2. }
    case_bool_decide; [by eapply Htp|]. destruct (decode_continue tok); [by eapply Htp|done]. }
  destruct (apply_selector _ _ _ _) as [? |? ?|l t [er|]|? ?|] eqn:Ea; flags; try congruence.
  destruct l as [|x l]; flags; [congruence|]. injection Hm as <- _ _. apply (Hsane (x :: l)). intros y Hy.
  apply Hg. by eapply Hsubl.
Qed.

Lemma sane_step c s l s' ev : sane_state c s -> small_stores s -> sane_label l ->
  mstep c s l = Some (s', ev) -> sane_state c s'.
Proof.
  intros Hi Hsz Hl H. pose proof Hi as (H1 & H2 & H3 & H4 & H5 & H6).
  assert (serve_tok s') as H5'.
  { eapply serve_tok_step; [exact H5|exact Hsz| |exact H]. destruct l; try done. apply Hl. }
  unfold mstep in H. rewrite H1 in H. destruct l.
  - destruct (_ <? 256)%Z; [|done]. injection H as <- <-. split; [done|]. flags. split; [|done].
    apply Forall_app. split; [done|]. by constructor.
  - unfold serve_step in H.
    assert (sane_state c (set_serve SIdle s)) as Hidle by done.
    assert (sane_state c (set_serve SStopped s)) as Hstop by done.
    destruct (m_serve s) as [|buf|m|n|q tok|m q tok|] eqn:Epc; destruct a; try discriminate H.
    + destruct (m_changes s) as [|u ch]; [done|]. inversion H2 as [|? ? Hu Hch]; subst.
      assert (sane_state c (set_serve SIdle (set_changes ch s))) as Hi' by (by split).
      destruct (_ && _); injection H as <- <-; [|apply sane_finish; [done|done|by constructor]].
      do 5 (split; [done|]). flags. by constructor.
    + destruct (0 <? m_flushes s)%Z; [|done]. destruct (mc_delays c); injection H as <- <-; (do 5 (split; [done|]); by flags).
    + destruct (m_cancelled s); [|done]. by injection H as <- <-.
    + destruct (m_changes s) as [|u ch]; [done|]. inversion H2 as [|? ? Hu Hch]; subst.
      assert (Forall sane_update (buf ++ [u])) as Hb. { apply Forall_app. split; [done|]. by constructor. }
      destruct (_ =? _)%Z; injection H as <- <-.
      * unfold buffered. destruct (m_cancelled _); [by split|]. apply sane_finish; [by split|done|done].
      * do 5 (split; [done|]). done.
    + injection H as <- <-. unfold buffered. destruct (m_cancelled _); [done|]. by apply sane_finish.
    + destruct (m_cancelled s); [|done]. by injection H as <- <-.
    + destruct (_ <? 256)%Z; [|done]. injection H as <- <-. do 2 (split; [done|]). split; [|done]. flags.
      apply Forall_app. split; [done|]. by constructor.
    + destruct (0 <? m_flushes s)%Z; [|done]. destruct (_ =? 2048)%Z; [unfold drained in H; destruct (m_cancelled _)|];
        injection H as <- <-; (do 5 (split; [done|]); by flags).
    + unfold drained in H; destruct (m_cancelled _); injection H as <- <-; (do 5 (split; [done|]); by flags).
    + destruct q; discriminate H.
    + destruct q; discriminate H.
    + destruct q; discriminate H.
    + destruct q; discriminate H.
    + destruct q; discriminate H.
    + destruct q as [|i q]; injection H as <- <-; [done|]. by apply sane_list.
    + destruct (m_cancelled s); [|done]. by injection H as <- <-.
    + destruct (_ <? 256)%Z; [|done]. injection H as <- <-. destruct H6 as [Hm Hq]. do 2 (split; [done|]). split; [|done]. flags.
      apply Forall_app. split; [done|]. by constructor.
  - destruct (m_listening s); [|done]. injection H as <- <-. cbn [fst recv_step]. by destruct (_ <? 8)%Z.
  - destruct (_ && _); [|done]. by injection H as <- <-.
  - destruct (m_sending s); [|done]. unfold send_step in H. destruct (m_sends s) as [|m q] eqn:Es; [done|].
    inversion H3 as [|? ? Hm Hq]; subst. pose proof (sane_encode m Hm) as Hne. unfold encode_mmsg in Hne.
    destruct (encode_record_msg _) as [am|er|]; [| |done]; injection H as <- <-; do 2 (split; [done|]); by split.
  - destruct (_ && _); [|done]. by injection H as <- <-.
  - by injection H as <- <-.
  - destruct (run_op _ _ _ _) as [[s1 r] ev1] eqn:Er. injection H as <- <-. do 3 (split; [done|]). split; [|done]. flags.
    intros j Hj. destruct (H4 j Hj) as (Hu & Hr & Hw). split; [done|]. destruct Hl as [He Hg]. unfold store_at.
    destruct (decide (j = i)) as [->|Hne].
    + rewrite lookup_insert. cbn [default from_option id]. pose proof (reachable_step _ _ e o Hr He) as Hr1. rewrite Er in Hr1.
      split; [exact Hr1|]. exact (well_keyed_step _ _ _ _ _ _ _ Hu He Hr Hg Hw Er).
    + rewrite lookup_insert_ne by congruence. done.
Qed.

(** With usable records the manager does not crash. *)
Lemma no_crash c w ls s evs : sound_stores c w -> Forall sane_label ls -> mrun c (m_init w) ls = Some (s, evs) ->
  (forall s1 s2, consecutive c (m_init w) ls s1 s2 -> small_stores s1) -> m_crashed s = false.
Proof.
  intros Hw HF Hr Hsz. apply (mrun_inv_rel (fun s _ => sane_state c s) sane_label c (m_init w) [] ls s evs) with (4 := Hr); [| |done].
  - split; [done|]. split; [constructor|]. split; [constructor|]. done.
  - intros s1 evs1 l s2 ev Hi Hl Hc Hs. eapply sane_step; [exact Hi|by eapply Hsz|exact Hl|exact Hs].
Qed.
