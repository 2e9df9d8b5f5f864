(** Facts about the manager: updates, sending, flush requests. *)
From Coq Require Import ZArith NArith Ascii String Lia.
From stdpp Require Import base gmap strings list.
From Verif Require Import GoBase Encoding Records Messages SpecMessages MessageFacts Env SyncMap Tokens Cache SpecStore StoreExamples
  Dispatch Diff ConvergeFacts Manager.

Local Open Scope list_scope.
Local Opaque vanflow_registry builtin_types record_types Encode Decode attrs_of.

(** ** Specification *)

(** What happened, by kind. *)
Definition published (evs : list mev) : list rec_update :=
  omap (fun x => match x with MPublished u => Some u | _ => None end) evs.
Definition update_msgs (evs : list mev) : list mmsg :=
  omap (fun x => match x with MQueued true m => Some m | _ => None end) evs.
Definition flush_msgs (evs : list mev) : list mmsg :=
  omap (fun x => match x with MQueued false m => Some m | _ => None end) evs.
Definition queued (evs : list mev) : list mmsg :=
  omap (fun x => match x with MQueued _ m => Some m | _ => None end) evs.

(** The environments of the run are lawful. *)
Definition labels_ok (ls : list mlabel) : Prop :=
  Forall (fun l => match l with LServe e _ | LStore _ e _ => env_ok e | _ => True end) ls.

(** The records that updates give, each with the environment of its diff. *)
Definition handed (l : list (env * rec_update)) : mmsg :=
  omap (fun '(e, u) => match diff_record e u with DRec r => Some r | _ => None end) l.

(** ** Runs *)

Lemma mrun_app c s ls1 ls2 : mrun c s (ls1 ++ ls2) =
  match mrun c s ls1 with
  | Some (s1, ev1) => match mrun c s1 ls2 with Some (s2, ev2) => Some (s2, ev1 ++ ev2) | None => None end
  | None => None
  end.
Proof.
  revert s. induction ls1 as [|l ls1 IH]; intros s; cbn [app mrun].
  - destruct (mrun c s ls2) as [[? ?]|]; reflexivity.
  - destruct (mstep c s l) as [[s1 ev1]|]; [|reflexivity]. rewrite IH.
    destruct (mrun c s1 ls1) as [[s2 ev2]|]; [|reflexivity].
    destruct (mrun c s2 ls2) as [[s3 ev3]|]; [|reflexivity]. by rewrite app_assoc.
Qed.

(** Invariants of runs, with the history. *)
Lemma mrun_inv (I : mstate -> list mev -> Prop) (Q : mlabel -> Prop) c s0 ev0 ls s evs : I s0 ev0 ->
  (forall s evs l s' ev, I s evs -> Q l -> mstep c s l = Some (s', ev) -> I s' (evs ++ ev)) ->
  Forall Q ls -> mrun c s0 ls = Some (s, evs) -> I s (ev0 ++ evs).
Proof.
  intros H0 Hstep HQ. revert s0 ev0 H0 evs. induction HQ as [|l ls Hl HQ IH]; intros s0 ev0 H0 evs Hrun.
  - injection Hrun as <- <-. by rewrite app_nil_r.
  - cbn [mrun] in Hrun. destruct (mstep c s0 l) as [[s1 ev1]|] eqn:E; [|done].
    destruct (mrun c s1 ls) as [[s2 ev2]|] eqn:E2; [|done]. injection Hrun as <- <-.
    rewrite app_assoc. apply (IH s1); [|exact E2]. by eapply Hstep.
Qed.

(** ** Updates *)

Lemma batch_handed e buf m : batch_records e buf = Some m -> m = handed ((fun u => (e, u)) <$> buf).
Proof.
  revert m. induction buf as [|u buf IH]; intros m H; [by injection H as <-|].
  cbn [batch_records] in H. unfold handed. cbn [fmap list_fmap omap list_omap].
  change (list_omap _ _ _ _) with (handed ((fun u => (e, u)) <$> buf)).
  destruct (diff_record e u) as [|r|]; [by apply IH| |done].
  apply fmap_Some in H as (m' & Hm' & ->). by rewrite (IH m' Hm').
Qed.

Lemma batch_length e buf m : batch_records e buf = Some m -> length m <= length buf.
Proof.
  revert m. induction buf as [|u buf IH]; intros m H; [by injection H as <-|].
  cbn [batch_records] in H. destruct (diff_record e u) as [|r|].
  - apply IH in H. simpl. lia.
  - apply fmap_Some in H as (m' & Hm' & ->). apply IH in Hm'. simpl. lia.
  - done.
Qed.

(** Of the published updates, [dn] went into messages, [cur] is in hand, the
    rest is in the channel. *)
Definition upd_inv (c : mcfg) (s : mstate) (evs : list mev) : Prop :=
  exists dn cur, published evs = (dn.*2 ++ cur) ++ m_changes s /\
    concat (update_msgs evs) = handed dn /\ Forall (fun x => env_ok x.1) dn /\
    (Z.of_nat (length cur) <= Z.max 1 (mc_batch c))%Z /\
    Forall (fun m => 1 <= Z.of_nat (length m) <= Z.max 1 (mc_batch c))%Z (update_msgs evs) /\
    (m_crashed s = false ->
     match m_serve s with
     | SBuffer buf => cur = buf /\ (Z.of_nat (length buf) < mc_batch c)%Z
     | SSend m => exists e, env_ok e /\ batch_records e cur = Some m /\ m <> []
     | SStopped => True
     | _ => cur = []
     end).

Ltac flags := cbn [set_serve set_changes set_flushes set_sends set_listening set_sending set_cancelled set_crashed
  set_stores m_changes m_flushes m_sends m_serve m_listening m_sending m_cancelled m_crashed m_stores] in *.

(** Nothing about updates happened. *)
Lemma upd_inv_keep c s s' evs ev : upd_inv c s evs -> m_crashed s = false ->
  published ev = [] -> update_msgs ev = [] -> m_changes s' = m_changes s ->
  (m_crashed s' = true \/ m_serve s' = m_serve s \/ m_serve s' = SStopped \/
   match m_serve s with SIdle | SDrain _ | SPass _ _ | SPassSend _ _ _ => True | _ => False end /\
   match m_serve s' with SIdle | SDrain _ | SPass _ _ | SPassSend _ _ _ => True | _ => False end) ->
  upd_inv c s' (evs ++ ev).
Proof.
  intros (dn & cur & Hp & Hm & He & Hl & Hb & Hs) Hc Hpub Hupd Hch Hpc. exists dn, cur.
  unfold published, update_msgs in *. rewrite !omap_app, Hpub, Hupd, !app_nil_r, Hch.
  split; [done|]. split; [done|]. split; [done|]. split; [done|]. split; [done|].
  intros Hc'. specialize (Hs Hc). destruct Hpc as [?|[E|[E|[H1 H2]]]].
  - congruence.
  - by rewrite E.
  - by rewrite E.
  - destruct (m_serve s); try done; destruct (m_serve s'); done.
Qed.

Lemma upd_inv_finish c s e buf evs : upd_inv c (set_serve (SBuffer buf) s) evs \/
    (exists dn, published evs = (dn.*2 ++ buf) ++ m_changes s /\ concat (update_msgs evs) = handed dn /\
      Forall (fun x => env_ok x.1) dn /\ (Z.of_nat (length buf) <= Z.max 1 (mc_batch c))%Z /\
      Forall (fun m => 1 <= Z.of_nat (length m) <= Z.max 1 (mc_batch c))%Z (update_msgs evs)) ->
  m_crashed s = false -> env_ok e -> upd_inv c (finish_batch e buf s) evs.
Proof.
  intros H Hc Henv.
  assert (exists dn, published evs = (dn.*2 ++ buf) ++ m_changes s /\ concat (update_msgs evs) = handed dn /\
      Forall (fun x => env_ok x.1) dn /\ (Z.of_nat (length buf) <= Z.max 1 (mc_batch c))%Z /\
      Forall (fun m => 1 <= Z.of_nat (length m) <= Z.max 1 (mc_batch c))%Z (update_msgs evs)) as (dn & Hp & Hm & He & Hl & Hb).
  { destruct H as [(dn & cur & Hp & Hm & He & Hl & Hb & Hs)|H]; [|exact H].
    flags. destruct (Hs Hc) as [-> ?]. exists dn. done. }
  unfold finish_batch. destruct (batch_records e buf) as [m|] eqn:E.
  - destruct m as [|r m].
    + exists (dn ++ ((fun u => (e, u)) <$> buf)), []. flags.
      assert ((dn ++ ((fun u => (e, u)) <$> buf)).*2 = dn.*2 ++ buf) as ->.
      { rewrite fmap_app, <- list_fmap_compose. f_equal. apply list_fmap_id. }
      rewrite app_nil_r. split; [done|]. split.
      { unfold handed. rewrite omap_app. fold (handed ((fun u => (e, u)) <$> buf)). fold (handed dn).
        rewrite <- (batch_handed e buf [] E). by rewrite app_nil_r. }
      split. { apply Forall_app. split; [done|]. by apply Forall_fmap, Forall_true. }
      split; [simpl; lia|]. done.
    + exists dn, buf. flags. split; [done|]. split; [done|]. split; [done|]. split; [done|]. split; [done|].
      intros _. exists e. done.
  - exists dn, buf. flags. split; [done|]. split; [done|]. split; [done|]. split; [done|]. split; [done|]. done.
Qed.

Lemma upd_inv_step c s evs l s' ev : upd_inv c s evs ->
  match l with LServe e _ | LStore _ e _ => env_ok e | _ => True end ->
  mstep c s l = Some (s', ev) -> upd_inv c s' (evs ++ ev).
Proof.
  intros Hi He H. unfold mstep in H. destruct (m_crashed s) eqn:Hc; [done|]. destruct l.
  - (* publish *)
    destruct (_ <? 256)%Z; [|done]. injection H as <- <-.
    destruct Hi as (dn & cur & Hp & Hm & Hen & Hl & Hb & Hs). exists dn, cur.
    unfold published, update_msgs in *. rewrite !omap_app. cbn [omap list_omap]. rewrite Hp, app_nil_r. flags.
    split; [by rewrite <- !app_assoc|]. by repeat (split; [done|]).
  - (* serve *)
    unfold serve_step in H. destruct (m_serve s) as [|buf|m|n|q tok|m q tok|] eqn:Epc; destruct a; try discriminate H.
    + (* take an update *)
      destruct (m_changes s) as [|u q] eqn:Ech; [done|].
      destruct Hi as (dn & cur & Hp & Hm & Hen & Hl & Hb & Hs). specialize (Hs Hc). rewrite Epc in Hs. subst cur.
      rewrite Ech, app_nil_r in Hp.
      destruct (mc_buffers c && (1 <? mc_batch c)%Z) eqn:Eb; injection H as <- <-; rewrite app_nil_r.
      * apply andb_true_iff in Eb as [_ Eb]. apply Z.ltb_lt in Eb.
        exists dn, [u]. flags. split; [by rewrite <- app_assoc|]. split; [done|]. split; [done|]. split; [simpl; lia|]. split; [done|].
        intros _. split; [done|]. simpl. lia.
      * apply upd_inv_finish; [|done|done]. right. exists dn. flags. split; [by rewrite <- app_assoc|]. split; [done|].
        split; [done|]. split; [simpl; lia|done].
    + (* take a flush *)
      destruct (0 <? m_flushes s)%Z; [|done]. destruct (mc_delays c); injection H as <- <-.
      * apply (upd_inv_keep c s); [done|done|done|done|done|]. rewrite Epc. flags. tauto.
      * apply (upd_inv_keep c s); [done|done|done|done|done|]. rewrite Epc. flags. tauto.
    + destruct (m_cancelled s); [|done]. injection H as <- <-.
      apply (upd_inv_keep c s); [done|done|done|done|done|]. flags. tauto.
    + (* one more update *)
      destruct (m_changes s) as [|u q] eqn:Ech; [done|].
      destruct Hi as (dn & cur & Hp & Hm & Hen & Hl & Hb & Hs). specialize (Hs Hc). rewrite Epc in Hs. destruct Hs as [-> Hlen].
      rewrite Ech in Hp.
      assert (published evs = (dn.*2 ++ (buf ++ [u])) ++ q) as Hp' by (rewrite Hp, <- !app_assoc; reflexivity).
      assert (Z.of_nat (length (buf ++ [u])) <= Z.max 1 (mc_batch c))%Z as Hl'.
      { rewrite app_length. cbn [length]. lia. }
      destruct (Z.eqb_spec (Z.of_nat (length (buf ++ [u]))) (mc_batch c)) as [Eb|Eb].
      * unfold buffered in H. destruct (m_cancelled (set_changes q s)); injection H as <- <-; rewrite app_nil_r.
        -- exists dn, (buf ++ [u]). flags. by repeat (split; [done|]).
        -- apply upd_inv_finish; [|done|done]. right. exists dn. flags. done.
      * injection H as <- <-; rewrite app_nil_r. exists dn, (buf ++ [u]). flags.
        do 5 (split; [done|]). intros _. split; [done|]. rewrite app_length in Eb |- *. cbn [length] in *. lia.
    + (* timeout while buffering *)
      unfold buffered in H. destruct (m_cancelled s); injection H as <- <-.
      * apply (upd_inv_keep c s); [done|done|done|done|done|]. flags. tauto.
      * rewrite app_nil_r. apply upd_inv_finish; [|done|done]. left.
        destruct Hi as (dn & cur & Hp & Hm & Hen & Hl & Hb & Hs). exists dn, cur. flags. rewrite Epc in Hs.
        by repeat (split; [done|]).
    + destruct (m_cancelled s); [|done]. injection H as <- <-.
      apply (upd_inv_keep c s); [done|done|done|done|done|]. flags. tauto.
    + (* queue an update message *)
      destruct (_ <? 256)%Z; [|done]. injection H as <- <-.
      destruct Hi as (dn & cur & Hp & Hm & Hen & Hl & Hb & Hs). specialize (Hs Hc). rewrite Epc in Hs.
      destruct Hs as (e0 & He0 & Hbr & Hne).
      exists (dn ++ ((fun u => (e0, u)) <$> cur)), []. flags.
      assert ((dn ++ ((fun u => (e0, u)) <$> cur)).*2 = dn.*2 ++ cur) as ->.
      { rewrite fmap_app, <- list_fmap_compose. f_equal. apply list_fmap_id. }
      unfold published, update_msgs in *. rewrite !omap_app. cbn [omap list_omap]. rewrite !app_nil_r.
      split; [done|]. split.
      { rewrite concat_app, Hm. cbn [concat]. rewrite app_nil_r. unfold handed. rewrite omap_app.
        fold (handed ((fun u => (e0, u)) <$> cur)). by rewrite <- (batch_handed _ _ _ Hbr). }
      split. { apply Forall_app. split; [done|]. by apply Forall_fmap, Forall_true. }
      split; [simpl; lia|]. split; [|done]. apply Forall_app. split; [done|]. apply Forall_singleton.
      pose proof (batch_length _ _ _ Hbr). destruct m; [done|]. cbn [length] in *. lia.
    + (* drain *)
      destruct (0 <? m_flushes s)%Z; [|done]. destruct (_ =? 2048)%Z.
      * unfold drained in H. destruct (m_cancelled _); injection H as <- <-;
          (apply (upd_inv_keep c s); [done|done|done|done|done|]); rewrite Epc; flags; tauto.
      * injection H as <- <-. apply (upd_inv_keep c s); [done|done|done|done|done|]. rewrite Epc. flags. tauto.
    + unfold drained in H. destruct (m_cancelled _); injection H as <- <-;
        (apply (upd_inv_keep c s); [done|done|done|done|done|]); rewrite Epc; flags; tauto.
    + destruct q; discriminate H.
    + destruct q; discriminate H.
    + destruct q; discriminate H.
    + destruct q; discriminate H.
    + destruct q; discriminate H.
    + (* a store is listed, or the pass ends *)
      destruct q as [|i q]; injection H as <- <-.
      * apply (upd_inv_keep c s); [done|done|done|done|done|]. rewrite Epc. flags. tauto.
      * unfold list_next. destruct (run_op _ _ _ _).1.2 as [? |? ?|l tok' [er|]|? ?|].
        1,2,3,5: apply (upd_inv_keep c s); [done|done|done|done|done|]; tauto.
        -- destruct l; (apply (upd_inv_keep c s); [done|done|done|done|done|]); rewrite Epc; flags; tauto.
        -- apply (upd_inv_keep c s); [done|done|done|done|done|]. flags. tauto.
    + destruct (m_cancelled s); [|done]. injection H as <- <-.
      apply (upd_inv_keep c s); [done|done|done|done|done|]. flags. tauto.
    + destruct (_ <? 256)%Z; [|done]. injection H as <- <-.
      apply (upd_inv_keep c s); [done|done|done|done|done|]. rewrite Epc. flags. tauto.
  - destruct (m_listening s); [|done]. injection H as <- <-. unfold recv_step. cbn [fst snd].
    apply (upd_inv_keep c s); [done|done|by destruct ok|by destruct ok|by destruct (_ <? 8)%Z|].
    right. left. by destruct (_ <? 8)%Z.
  - destruct (_ && _); [|done]. injection H as <- <-.
    apply (upd_inv_keep c s); [done|done|done|done|done|]. flags. tauto.
  - destruct (m_sending s); [|done]. unfold send_step in H. destruct (m_sends s); [done|].
    destruct (encode_record_msg _); injection H as <- <-;
      (apply (upd_inv_keep c s); [done|done|done|done|done|]); flags; tauto.
  - destruct (_ && _); [|done]. injection H as <- <-.
    apply (upd_inv_keep c s); [done|done|done|done|done|]. flags. tauto.
  - injection H as <- <-. apply (upd_inv_keep c s); [done|done|done|done|done|]. flags. tauto.
  - destruct (run_op _ _ _ _) as [[s1 ?] ?]. injection H as <- <-.
    apply (upd_inv_keep c s); [done|done|done|done|done|]. flags. tauto.
Qed.

Lemma updates_in_order c w ls s evs : labels_ok ls -> mrun c (m_init w) ls = Some (s, evs) -> upd_inv c s evs.
Proof.
  intros Hl Hr. change evs with ([] ++ evs). 
  apply (mrun_inv (upd_inv c) _ c (m_init w) [] ls s evs) with (3 := Hl) (4 := Hr);
    [|intros s1 evs1 l s' ev Hi Hq Hs; exact (upd_inv_step c s1 evs1 l s' ev Hi Hq Hs)].
  exists [], []. simpl. repeat (split; [done|]). split; [lia|]. split; [constructor|done].
Qed.

(** ** Sending *)

(** The messages sendRecords took, in order. *)
Definition processed (evs : list mev) : list mmsg :=
  omap (fun x => match x with MSent m _ _ | MSkipped m => Some m | _ => None end) evs.
Definition sent (evs : list mev) : list mmsg :=
  omap (fun x => match x with MSent m _ _ => Some m | _ => None end) evs.

Definition encode_mmsg (m : mmsg) : res encerr amqp_msg := encode_record_msg (RecordMsg (MsgProps "" "" "") m).
Definition encodable (m : mmsg) : Prop := exists am, encode_mmsg m = Ok am.
Global Instance encodable_dec m : Decision (encodable m).
Proof.
  unfold encodable. destruct (encode_mmsg m) as [am| |]; [left; eauto|right; by intros [? ?]..].
Defined.

(** [lost] is the message whose encoding panicked, if any. *)
Definition send_inv (s : mstate) (evs : list mev) : Prop :=
  exists lost, queued evs = processed evs ++ lost ++ m_sends s /\ length lost <= 1 /\ (m_crashed s = false -> lost = []) /\
    Forall (fun x => match x with
      | MSent m am _ => encode_mmsg m = Ok am
      | MSkipped m => exists er, encode_mmsg m = Err er
      | _ => True end) evs.

Definition no_sends (ev : list mev) : Prop := queued ev = [] /\ processed ev = [].

Lemma no_sends_Forall ev : no_sends ev -> Forall (fun x => match x with
      | MSent m am _ => encode_mmsg m = Ok am
      | MSkipped m => exists er, encode_mmsg m = Err er
      | _ => True end) ev.
Proof.
  induction ev as [|x ev IH]; intros [H1 H2]; [constructor|]. constructor; [by destruct x|].
  apply IH. split; [by destruct x|by destruct x].
Qed.

Lemma send_inv_keep s s' evs ev : send_inv s evs -> m_crashed s = false -> no_sends ev -> m_sends s' = m_sends s ->
  send_inv s' (evs ++ ev).
Proof.
  intros (lost & Hq & Hl & Hc & Hf) Hcr Hn Hs. exists lost. rewrite Hs. pose proof (no_sends_Forall ev Hn) as Hn'.
  destruct Hn as [H1 H2]. unfold queued, processed in *. rewrite !omap_app, H1, H2, !app_nil_r. split; [done|]. split; [done|].
  split; [intros _; by apply Hc|]. by apply Forall_app.
Qed.

Lemma finish_sends e buf s : m_sends (finish_batch e buf s) = m_sends s.
Proof. unfold finish_batch. destruct (batch_records e buf) as [[|]|]; reflexivity. Qed.

Lemma buffered_sends e buf s : m_sends (buffered e buf s) = m_sends s.
Proof. unfold buffered. destruct (m_cancelled s); [done|apply finish_sends]. Qed.

Lemma list_next_sends c e i q tok s : m_sends (list_next c e i q tok s) = m_sends s.
Proof.
  unfold list_next. destruct (run_op _ _ _ _).1.2 as [? |? ?|l tok' [er|]|? ?|]; try reflexivity. destruct l; reflexivity.
Qed.

Lemma queue_inv s evs m b p : send_inv s evs -> m_crashed s = false ->
  send_inv (set_serve p (set_sends (m_sends s ++ [m]) s)) (evs ++ [MQueued b m]).
Proof.
  intros (lost & Hq & Hl & Hc & Hf) Hcr. exists lost. specialize (Hc Hcr). subst lost. flags.
  unfold queued, processed in *. rewrite !omap_app, Hq. cbn [omap list_omap app]. rewrite app_nil_r.
  split; [by rewrite <- app_assoc|]. split; [done|]. split; [done|]. apply Forall_app. split; [done|]. by constructor.
Qed.

Lemma send_inv_step c s evs l s' ev : send_inv s evs -> mstep c s l = Some (s', ev) -> send_inv s' (evs ++ ev).
Proof.
  intros Hi H. unfold mstep in H. destruct (m_crashed s) eqn:Hc; [done|].
  assert (no_sends [] /\ no_sends [MPassStart] /\ no_sends [MPassEnd] /\ no_sends [MFlushReq] /\ no_sends [MFlushFail]) as
    (N0 & N1 & N2 & N3 & N4) by done.
  destruct l.
  - destruct (_ <? 256)%Z; [|done]. injection H as <- <-. by apply (send_inv_keep s).
  - unfold serve_step in H. destruct (m_serve s) as [|buf|m|n|q tok|m q tok|] eqn:Epc; destruct a; try discriminate H.
    + destruct (m_changes s); [done|]. destruct (_ && _); injection H as <- <-; apply (send_inv_keep s); try done.
      by rewrite finish_sends.
    + destruct (0 <? m_flushes s)%Z; [|done]. destruct (mc_delays c); injection H as <- <-; by apply (send_inv_keep s).
    + destruct (m_cancelled s); [|done]. injection H as <- <-. by apply (send_inv_keep s).
    + destruct (m_changes s); [done|]. destruct (_ =? _)%Z; injection H as <- <-; apply (send_inv_keep s); try done.
      by rewrite buffered_sends.
    + injection H as <- <-. apply (send_inv_keep s); try done. by rewrite buffered_sends.
    + destruct (m_cancelled s); [|done]. injection H as <- <-. by apply (send_inv_keep s).
    + destruct (_ <? 256)%Z; [|done]. injection H as <- <-. by apply queue_inv.
    + destruct (0 <? m_flushes s)%Z; [|done]. destruct (_ =? 2048)%Z; [unfold drained in H; destruct (m_cancelled _)|];
        injection H as <- <-; by apply (send_inv_keep s).
    + unfold drained in H; destruct (m_cancelled _); injection H as <- <-; by apply (send_inv_keep s).
    + destruct q; discriminate H.
    + destruct q; discriminate H.
    + destruct q; discriminate H.
    + destruct q; discriminate H.
    + destruct q; discriminate H.
    + destruct q as [|i q]; injection H as <- <-; apply (send_inv_keep s); try done. by rewrite list_next_sends.
    + destruct (m_cancelled s); [|done]. injection H as <- <-. by apply (send_inv_keep s).
    + destruct (_ <? 256)%Z; [|done]. injection H as <- <-. by apply queue_inv.
  - destruct (m_listening s); [|done]. injection H as <- <-. apply (send_inv_keep s); [done|done|by destruct ok|by cbn [recv_step fst]; destruct (_ <? 8)%Z].
  - destruct (_ && _); [|done]. injection H as <- <-. by apply (send_inv_keep s).
  - destruct (m_sending s); [|done]. unfold send_step in H. destruct (m_sends s) as [|m q] eqn:Es; [done|].
    destruct Hi as (lost & Hq & Hl & Hcr & Hf). specialize (Hcr Hc). subst lost. rewrite Es in Hq.
    fold (encode_mmsg m) in H. destruct (encode_mmsg m) as [am|er|] eqn:Ee; injection H as <- <-; flags.
    + exists []. unfold queued, processed in *. rewrite !omap_app, Hq. cbn [omap list_omap]. rewrite app_nil_r. flags.
      split; [by rewrite <- app_assoc|]. split; [done|]. split; [done|]. apply Forall_app. split; [done|]. by constructor.
    + exists []. unfold queued, processed in *. rewrite !omap_app, Hq. cbn [omap list_omap]. rewrite app_nil_r. flags.
      split; [by rewrite <- app_assoc|]. split; [done|]. split; [done|]. apply Forall_app. split; [done|].
      constructor; [eauto|constructor].
    + exists [m]. rewrite app_nil_r. flags. split; [done|]. split; [done|]. done.
  - destruct (_ && _); [|done]. injection H as <- <-. by apply (send_inv_keep s).
  - injection H as <- <-. by apply (send_inv_keep s).
  - destruct (run_op _ _ _ _) as [[s1 ?] ?]. injection H as <- <-. by apply (send_inv_keep s).
Qed.

Lemma send_inv_run c w ls s evs : mrun c (m_init w) ls = Some (s, evs) -> send_inv s evs.
Proof.
  intros Hr. change evs with ([] ++ evs).
  apply (mrun_inv send_inv (fun _ => True) c (m_init w) [] ls s evs) with (3 := Forall_true _ _ (fun _ => I)) (4 := Hr);
    [|intros s1 evs1 l s' ev Hi _ Hs; by eapply send_inv_step].
  exists []. simpl. repeat (split; [done|]). split; [lia|]. split; [done|constructor].
Qed.

Lemma sent_filter evs : Forall (fun x => match x with
      | MSent m am _ => encode_mmsg m = Ok am
      | MSkipped m => exists er, encode_mmsg m = Err er
      | _ => True end) evs -> sent evs = filter encodable (processed evs).
Proof.
  induction 1 as [|x evs Hx HF IH]; [done|]. unfold sent, processed in *. destruct x; cbn [omap list_omap]; try exact IH.
  - rewrite filter_cons_True by (by exists am). by f_equal.
  - destruct Hx as [er Her]. rewrite filter_cons_False; [exact IH|]. intros [am Ham]. congruence.
Qed.

(** Exactly the encodable messages are sent, in the order queued. *)
Lemma sent_in_order c w ls s evs : mrun c (m_init w) ls = Some (s, evs) ->
  exists lost, queued evs = processed evs ++ lost ++ m_sends s /\ length lost <= 1 /\ (m_crashed s = false -> lost = []) /\
    sent evs = filter encodable (processed evs).
Proof.
  intros Hr. destruct (send_inv_run c w ls s evs Hr) as (lost & Hq & Hl & Hc & Hf). exists lost.
  split; [done|]. split; [done|]. split; [done|]. by apply sent_filter.
Qed.

Lemma encodable_iff m rs : m = Some <$> rs -> Forall good_record rs ->
  encodable m <-> Forall (fun r => exists a, Encode vanflow_registry (vrec_any r) = EncOk a) rs.
Proof. intros -> HG. apply (record_msg_encode_iff (RecordMsg _ (Some <$> rs)) rs eq_refl HG). Qed.

(** ** Flush requests *)

Definition in_pass (p : spc) : Prop := match p with SPass _ _ | SPassSend _ _ _ => True | _ => False end.
Definition draining (p : spc) : Prop := match p with SDrain _ => True | _ => False end.

(** A request made since the last pass started is still to be seen; so is the
    end of a pass that started. *)
Definition req_inv (s : mstate) (evs : list mev) : Prop :=
  (0 <= m_flushes s <= 8)%Z /\
  (m_crashed s = false -> m_serve s <> SStopped ->
   (forall ev1 ev2, evs = ev1 ++ MFlushReq :: ev2 -> MPassStart ∈ ev2 \/ (0 < m_flushes s)%Z \/ draining (m_serve s)) /\
   (forall ev1 ev2, evs = ev1 ++ MPassStart :: ev2 -> MPassEnd ∈ ev2 \/ in_pass (m_serve s))).

(** Splitting at an element of an extended history. *)
Lemma snoc_split {A} (l1 l2 : list A) (x : A) (a b : list A) : l1 ++ l2 = a ++ x :: b ->
  (exists b1, l1 = a ++ x :: b1 /\ b = b1 ++ l2) \/ (exists a2, l2 = a2 ++ x :: b /\ a = l1 ++ a2).
Proof.
  revert a. induction l1 as [|y l1 IH]; intros a E.
  - right. exists a. done.
  - destruct a as [|z a]; cbn [app] in E.
    + injection E as -> E. left. exists l1. split; [done|]. by subst.
    + injection E as -> E. destruct (IH a E) as [(b1 & -> & ->)|(a2 & -> & ->)].
      * left. exists b1. done.
      * right. exists a2. done.
Qed.

(** Steps that leave both the queue and the place of serve as they are, up to
    what the invariant sees. *)
Lemma req_inv_keep s s' evs ev : req_inv s evs -> m_crashed s = false ->
  MFlushReq ∉ ev -> MPassStart ∉ ev ->
  (m_crashed s' = true /\ m_flushes s' = m_flushes s) \/ (m_serve s' = SStopped /\ (0 <= m_flushes s' <= 8)%Z) \/
  ((0 <= m_flushes s' <= 8)%Z /\ m_serve s <> SStopped /\
   ((0 < m_flushes s)%Z -> (0 < m_flushes s')%Z \/ draining (m_serve s')) /\
   (draining (m_serve s) -> draining (m_serve s') \/ MPassStart ∈ ev) /\
   (in_pass (m_serve s) -> in_pass (m_serve s') \/ MPassEnd ∈ ev)) ->
  req_inv s' (evs ++ ev).
Proof.
  intros [Hb Hi] Hc Hn1 Hn2 [[Hcr Hfl]|[[Hst Hfl]|(Hfl & Hns & Hf & Hd & Hp)]].
  - split; [by rewrite Hfl|]. congruence.
  - split; [done|]. congruence.
  - split; [done|]. intros _ _. destruct (Hi Hc Hns) as [H1 H2]. split.
    + intros ev1 ev2 E. apply snoc_split in E as [(b1 & -> & ->)|(a2 & -> & _)].
      * destruct (H1 ev1 b1 eq_refl) as [H|[H|H]].
        -- left. apply elem_of_app. by left.
        -- right. by apply Hf.
        -- destruct (Hd H) as [?|?]; [by right; right|]. left. apply elem_of_app. by right.
      * exfalso. apply Hn1. apply elem_of_app. right. left.
    + intros ev1 ev2 E. apply snoc_split in E as [(b1 & -> & ->)|(a2 & -> & _)].
      * destruct (H2 ev1 b1 eq_refl) as [H|H].
        -- left. apply elem_of_app. by left.
        -- destruct (Hp H) as [?|?]; [by right|]. left. apply elem_of_app. by right.
      * exfalso. apply Hn2. apply elem_of_app. right. left.
Qed.

Lemma pass_inv c s evs : req_inv s evs -> m_crashed s = false -> ~ in_pass (m_serve s) -> m_serve s <> SStopped ->
  (0 <= m_flushes s <= 8)%Z -> forall n, (0 <= n <= 8)%Z ->
  req_inv (set_serve (SPass (mc_stores c) "") (set_flushes n s)) (evs ++ [MPassStart]).
Proof.
  intros [Hb Hi] Hc Hp Hs _ n Hn. split; [done|]. intros _ _. destruct (Hi Hc Hs) as [H1 H2]. flags. split.
  - intros ev1 ev2 E. apply snoc_split in E as [(b1 & -> & ->)|(a2 & E & _)].
    + left. apply elem_of_app. right. left.
    + destruct a2 as [|? [|? ?]]; discriminate E.
  - intros ev1 ev2 E. right. done.
Qed.

Lemma finish_frame e buf s : m_flushes (finish_batch e buf s) = m_flushes s /\
  (m_crashed (finish_batch e buf s) = true \/ ~ in_pass (m_serve (finish_batch e buf s)) /\ ~ draining (m_serve (finish_batch e buf s))).
Proof. unfold finish_batch. destruct (batch_records e buf) as [[|]|]; simpl; tauto. Qed.

Ltac req_done := repeat match goal with |- _ /\ _ => split end; try done; try lia; try tauto.

Lemma req_inv_step c s evs l s' ev : req_inv s evs -> mstep c s l = Some (s', ev) -> req_inv s' (evs ++ ev).
Proof.
  intros Hi H. pose proof Hi as [Hb _]. unfold mstep in H. destruct (m_crashed s) eqn:Hc; [done|].
  assert (MFlushReq ∉ ([] : list mev) /\ MPassStart ∉ ([] : list mev)) as [N1 N2] by (split; apply not_elem_of_nil).
  (* steps that change neither the flushes nor serve *)
  assert (forall s1 ev1, MFlushReq ∉ ev1 -> MPassStart ∉ ev1 -> m_flushes s1 = m_flushes s -> m_serve s1 = m_serve s ->
    req_inv s1 (evs ++ ev1)) as Hsame.
  { intros s1 ev1 M1 M2 E1 E2. destruct (decide (m_crashed s1 = true)) as [Ecr|Ecr].
    - apply (req_inv_keep s); [done|done|done|done|]. by left.
    - destruct Hi as [_ Hi]. split; [by rewrite E1|]. rewrite E2. intros _ Hs. destruct (Hi Hc Hs) as [H1 H2]. split.
      + intros ev2 ev3 E. apply snoc_split in E as [(b1 & -> & ->)|(a2 & -> & _)].
        * rewrite E1. destruct (H1 ev2 b1 eq_refl) as [H'|H']; [left; apply elem_of_app; by left|by right].
        * exfalso. apply M1. apply elem_of_app. right. left.
      + intros ev2 ev3 E. apply snoc_split in E as [(b1 & -> & ->)|(a2 & -> & _)].
        * destruct (H2 ev2 b1 eq_refl) as [H'|H']; [left; apply elem_of_app; by left|by right].
        * exfalso. apply M2. apply elem_of_app. right. left. }
  assert (forall x : mev, x <> MFlushReq -> x <> MPassStart -> MFlushReq ∉ [x] /\ MPassStart ∉ [x]) as Hone.
  { intros x H1 H2. split; rewrite elem_of_list_singleton; congruence. }
  destruct l.
  - destruct (_ <? 256)%Z; [|done]. injection H as <- <-. by apply Hsame; [apply Hone..| |].
  - unfold serve_step in H. destruct (m_serve s) as [|buf|m|n|q tok|m q tok|] eqn:Epc; destruct a; try discriminate H.
    + destruct (m_changes s); [done|]. destruct (_ && _); injection H as <- <-.
      * apply (req_inv_keep s); try done. right. right. rewrite Epc. flags. simpl. req_done.
      * destruct (finish_frame e [r] (set_changes l s)) as [E1 [E2|[E2 E3]]]; apply (req_inv_keep s); try done.
        -- left. rewrite E1. done.
        -- right. right. rewrite E1, Epc. flags. simpl. req_done.
    + destruct (Z.ltb_spec 0 (m_flushes s)); [|done]. destruct (mc_delays c); injection H as <- <-.
      * apply (req_inv_keep s); try done. right. right. rewrite Epc. flags. simpl. req_done.
      * apply pass_inv; [done|done|rewrite Epc; intros []|by rewrite Epc|done|]. lia.
    + destruct (m_cancelled s); [|done]. injection H as <- <-. apply (req_inv_keep s); try done. right. left. done.
    + destruct (m_changes s); [done|]. destruct (_ =? _)%Z; injection H as <- <-.
      * unfold buffered. destruct (m_cancelled _).
        -- apply (req_inv_keep s); try done. right. left. done.
        -- destruct (finish_frame e (buf ++ [r]) (set_changes l s)) as [E1 [E2|[E2 E3]]]; apply (req_inv_keep s); try done.
           ++ left. rewrite E1. done.
           ++ right. right. rewrite E1, Epc. flags. simpl. req_done.
      * apply (req_inv_keep s); try done. right. right. rewrite Epc. flags. simpl. req_done.
    + injection H as <- <-. unfold buffered. destruct (m_cancelled _).
      * apply (req_inv_keep s); try done. right. left. done.
      * destruct (finish_frame e buf s) as [E1 [E2|[E2 E3]]]; apply (req_inv_keep s); try done.
        -- left. rewrite E1. done.
        -- right. right. rewrite E1, Epc. simpl. req_done.
    + destruct (m_cancelled s); [|done]. injection H as <- <-. apply (req_inv_keep s); try done. right. left. done.
    + destruct (_ <? 256)%Z; [|done]. injection H as <- <-. apply (req_inv_keep s); [done|done|by apply Hone..|].
      right. right. rewrite Epc. flags. simpl. req_done.
    + destruct (Z.ltb_spec 0 (m_flushes s)); [|done]. destruct (_ =? 2048)%Z.
      * unfold drained in H. destruct (m_cancelled _); injection H as <- <-.
        -- apply (req_inv_keep s); try done. right. left. flags. split; [done|lia].
        -- apply pass_inv; [done|done|rewrite Epc; intros []|by rewrite Epc|done|]. lia.
      * injection H as <- <-. apply (req_inv_keep s); try done. right. right. rewrite Epc. flags. simpl. req_done.
    + unfold drained in H. destruct (m_cancelled _); injection H as <- <-.
      * apply (req_inv_keep s); try done. right. left. flags. done.
      * assert (s = set_flushes (m_flushes s) s) as -> by (by destruct s).
        apply pass_inv; [done|done|rewrite Epc; intros []|by rewrite Epc|done|done].
    + destruct q; discriminate H.
    + destruct q; discriminate H.
    + destruct q; discriminate H.
    + destruct q; discriminate H.
    + destruct q; discriminate H.
    + destruct q as [|i q]; injection H as <- <-.
      * apply (req_inv_keep s); [done|done|by apply Hone..|]. right. right. rewrite Epc. flags. split; [done|]. split; [done|].
        split; [tauto|]. split; [tauto|]. intros _. right. left.
      * unfold list_next. destruct (run_op _ _ _ _).1.2 as [? |? ?|l tok' [er|]|? ?|].
        1,2,3,5: by apply Hsame.
        -- destruct l; (apply (req_inv_keep s); try done); right; right; rewrite Epc; flags; simpl; req_done.
        -- apply (req_inv_keep s); try done. left. done.
    + destruct (m_cancelled s); [|done]. injection H as <- <-. apply (req_inv_keep s); try done. right. left. done.
    + destruct (_ <? 256)%Z; [|done]. injection H as <- <-. apply (req_inv_keep s); [done|done|by apply Hone..|].
      right. right. rewrite Epc. flags. simpl. req_done.
  - (* a request, or a receive error *)
    destruct (m_listening s); [|done]. injection H as <- <-. unfold recv_step. cbn [fst snd].
    assert (0 < m_flushes (if (m_flushes s <? 8)%Z then set_flushes (m_flushes s + 1) s else s) <= 8)%Z as Hpos.
    { destruct (Z.ltb_spec (m_flushes s) 8); flags; lia. }
    assert (m_serve (if (m_flushes s <? 8)%Z then set_flushes (m_flushes s + 1) s else s) = m_serve s) as Esv by (by destruct (_ <? 8)%Z).
    destruct Hi as [_ Hi]. split; [lia|]. rewrite Esv. intros _ Hs. destruct (Hi Hc Hs) as [H1 H2]. split; [intros; right; left; lia|].
    intros ev1 ev2 E. apply snoc_split in E as [(b1 & -> & ->)|(a2 & E & _)].
    + destruct (H2 ev1 b1 eq_refl) as [H'|H']; [left; apply elem_of_app; by left|by right].
    + destruct a2 as [|? [|? ?]]; destruct ok; discriminate E.
  - destruct (_ && _); [|done]. injection H as <- <-. by apply Hsame.
  - destruct (m_sending s); [|done]. unfold send_step in H. destruct (m_sends s) as [|m q] eqn:Es; [done|].
    destruct (encode_record_msg _) as [am|er|]; injection H as <- <-.
    + apply Hsame; [by apply Hone..|done|done].
    + apply Hsame; [by apply Hone..|done|done].
    + by apply Hsame.
  - destruct (_ && _); [|done]. injection H as <- <-. by apply Hsame.
  - injection H as <- <-. by apply Hsame.
  - destruct (run_op _ _ _ _) as [[s1 ?] ?]. injection H as <- <-. by apply Hsame.
Qed.

Lemma req_inv_run c w ls s evs : mrun c (m_init w) ls = Some (s, evs) -> req_inv s evs.
Proof.
  intros Hr. change evs with ([] ++ evs).
  apply (mrun_inv req_inv (fun _ => True) c (m_init w) [] ls s evs) with (3 := Forall_true _ _ (fun _ => I)) (4 := Hr);
    [|intros s1 evs1 l s' ev Hi _ Hs; by eapply req_inv_step].
  split; [done|]. intros _ _. split; intros [|] ? E; discriminate E.
Qed.

(** Whenever the manager rests, every request received was followed by a
    complete pass. *)
Lemma requests_served c w ls s evs ev1 ev2 : mrun c (m_init w) ls = Some (s, evs) ->
  m_crashed s = false -> m_serve s = SIdle -> m_flushes s = 0%Z ->
  evs = ev1 ++ MFlushReq :: ev2 -> exists a b d, ev2 = a ++ MPassStart :: b ++ MPassEnd :: d.
Proof.
  intros Hr Hc Hs Hf E. destruct (req_inv_run c w ls s evs Hr) as [_ Hi].
  destruct (Hi Hc) as [H1 H2]; [by rewrite Hs|]. rewrite Hs, Hf in *.
  destruct (H1 ev1 ev2 E) as [H|[H|[]]]; [|lia]. apply elem_of_list_split in H as (a & b & ->).
  destruct (H2 (ev1 ++ MFlushReq :: a) b) as [H|[]]; [by rewrite E, <- app_assoc|].
  apply elem_of_list_split in H as (b1 & d & ->). exists a, b1, d. done.
Qed.

(** In every state, a request not yet followed by a pass is still pending. *)
Lemma requests_pending c w ls s evs ev1 ev2 : mrun c (m_init w) ls = Some (s, evs) ->
  m_crashed s = false -> m_serve s <> SStopped -> evs = ev1 ++ MFlushReq :: ev2 ->
  MPassStart ∈ ev2 \/ (0 < m_flushes s)%Z \/ draining (m_serve s).
Proof. intros Hr Hc Hs. destruct (req_inv_run c w ls s evs Hr) as [_ Hi]. by apply Hi. Qed.

(** ** Only receives cause flushes *)

Definition count (P : mev -> bool) (evs : list mev) : Z := Z.of_nat (length (List.filter P evs)).
Definition is_recv (x : mev) : bool := match x with MFlushReq | MFlushFail => true | _ => false end.
Definition is_pass (x : mev) : bool := match x with MPassStart => true | _ => false end.

Lemma count_app P a b : count P (a ++ b) = (count P a + count P b)%Z.
Proof. unfold count. rewrite List.filter_app, app_length. lia. Qed.

Definition taken (p : spc) : Z := match p with SDrain _ => 1 | _ => 0 end.
Definition flush_budget (s : mstate) (evs : list mev) : Prop :=
  (count is_pass evs + m_flushes s + taken (m_serve s) <= count is_recv evs)%Z.

Lemma finish_taken e buf s : taken (m_serve s) = 0%Z ->
  m_flushes (finish_batch e buf s) = m_flushes s /\ taken (m_serve (finish_batch e buf s)) = 0%Z.
Proof. intros H. unfold finish_batch. by destruct (batch_records e buf) as [[|]|]. Qed.

Lemma buffered_taken e buf s : taken (m_serve s) = 0%Z ->
  m_flushes (buffered e buf s) = m_flushes s /\ taken (m_serve (buffered e buf s)) = 0%Z.
Proof. intros H. unfold buffered. destruct (m_cancelled s); [done|by apply finish_taken]. Qed.

Ltac cnt := flags; unfold count; cbn [List.filter is_pass is_recv length taken app Z.of_nat Pos.of_succ_nat]; lia.

Lemma flush_budget_step c s evs l s' ev : flush_budget s evs -> mstep c s l = Some (s', ev) -> flush_budget s' (evs ++ ev).
Proof.
  unfold flush_budget. intros Hi H. rewrite !count_app.
  enough (count is_pass ev + m_flushes s' + taken (m_serve s') <= count is_recv ev + m_flushes s + taken (m_serve s))%Z by lia.
  clear Hi. unfold mstep in H. destruct (m_crashed s) eqn:Hc; [done|].
  destruct l.
  - destruct (_ <? 256)%Z; [|done]. injection H as <- <-. cnt.
  - unfold serve_step in H. destruct (m_serve s) as [|buf|m|n|q tok|m q tok|] eqn:Epc; destruct a; try discriminate H;
      cbn [taken].
    + destruct (m_changes s); [done|]. destruct (_ && _); injection H as <- <-; [cnt|].
      destruct (finish_taken e [r] (set_changes l s)) as [-> ->]; [by flags; rewrite Epc|]. cnt.
    + destruct (Z.ltb_spec 0 (m_flushes s)); [|done]. destruct (mc_delays c); injection H as <- <-; cnt.
    + destruct (m_cancelled s); [|done]. injection H as <- <-. cnt.
    + destruct (m_changes s); [done|]. destruct (_ =? _)%Z; injection H as <- <-; [|cnt].
      destruct (buffered_taken e (buf ++ [r]) (set_changes l s)) as [-> ->]; [by flags; rewrite Epc|]. cnt.
    + injection H as <- <-. destruct (buffered_taken e buf s) as [-> ->]; [by rewrite Epc|]. cnt.
    + destruct (m_cancelled s); [|done]. injection H as <- <-. cnt.
    + destruct (_ <? 256)%Z; [|done]. injection H as <- <-. cnt.
    + destruct (Z.ltb_spec 0 (m_flushes s)); [|done]. destruct (_ =? 2048)%Z; [unfold drained in H; destruct (m_cancelled _)|];
        injection H as <- <-; cnt.
    + unfold drained in H; destruct (m_cancelled _); injection H as <- <-; cnt.
    + destruct q; discriminate H.
    + destruct q; discriminate H.
    + destruct q; discriminate H.
    + destruct q; discriminate H.
    + destruct q; discriminate H.
    + destruct q as [|i q]; injection H as <- <-; [cnt|]. unfold list_next.
      destruct (run_op _ _ _ _).1.2 as [? |? ?|l tok' [er|]|? ?|]; try (flags; rewrite ?Epc; cnt).
      destruct l; cnt.
    + destruct (m_cancelled s); [|done]. injection H as <- <-. cnt.
    + destruct (_ <? 256)%Z; [|done]. injection H as <- <-. cnt.
  - destruct (m_listening s); [|done]. injection H as <- <-. cbn [recv_step fst snd].
    destruct ok, (_ <? 8)%Z; cnt.
  - destruct (_ && _); [|done]. injection H as <- <-. cnt.
  - destruct (m_sending s); [|done]. unfold send_step in H. destruct (m_sends s) as [|m q] eqn:Es; [done|].
    destruct (encode_record_msg _) as [am|er|]; injection H as <- <-; cnt.
  - destruct (_ && _); [|done]. injection H as <- <-. cnt.
  - injection H as <- <-. cnt.
  - destruct (run_op _ _ _ _) as [[s1 ?] ?]. injection H as <- <-. cnt.
Qed.

(** The passes started, with the requests still to be served, never outnumber
    what listenFlushes got: messages and receive errors. *)
Lemma flush_budget_run c w ls s evs : mrun c (m_init w) ls = Some (s, evs) ->
  (0 <= m_flushes s <= 8)%Z /\ (count is_pass evs + m_flushes s <= count is_recv evs)%Z.
Proof.
  intros Hr. assert (flush_budget s ([] ++ evs)) as Hb.
  { apply (mrun_inv flush_budget (fun _ => True) c (m_init w) [] ls s evs) with (3 := Forall_true _ _ (fun _ => I)) (4 := Hr);
      [|intros s1 evs1 l s' ev Hi _ Hs; by eapply flush_budget_step]. by vm_compute. }
  destruct (req_inv_run c w ls s evs Hr) as [H8 _]. split; [done|]. unfold flush_budget in Hb. simpl in Hb.
  assert (0 <= taken (m_serve s))%Z by (by destruct (m_serve s)). lia.
Qed.
