(** Facts about several calls of the manager's Run. *)
From Coq Require Import ZArith NArith Ascii String Lia.
From stdpp Require Import base gmap strings list.
From Verif Require Import GoBase Encoding Records Messages SpecMessages MessageFacts Env SyncMap Tokens Cache SpecStore StoreExamples
  Dispatch Diff ConvergeFacts Run Manager ManagerFacts ManagerRuns.

Local Open Scope list_scope.
Local Opaque vanflow_registry builtin_types record_types Encode Decode attrs_of.

(** ** Specification *)

(** The history of the manager, without the numbers of the calls; and of one call. *)
Definition nwhole (evs : list (nat * mev)) : list mev := snd <$> evs.
Definition by_call (r : nat) (evs : list (nat * mev)) : list mev :=
  omap (fun p => if bool_decide (fst p = r) then Some (snd p) else None) evs.

(** The updates a call took, out of all that were taken. *)
Definition taken_by (r : nat) (tk : list (nat * rec_update)) : list rec_update :=
  omap (fun p => if bool_decide (fst p = r) then Some (snd p) else None) tk.

(** The environments of the run are lawful. *)
Definition nlabels_ok (ls : list nlabel) : Prop :=
  Forall (fun l => match l with NStep _ (LServe e _ | LStore _ e _) => env_ok e | _ => True end) ls.

(** ** Steps *)

Lemma nwhole_app a b : nwhole (a ++ b) = nwhole a ++ nwhole b.
Proof. apply fmap_app. Qed.
Lemma nwhole_pair r (ev : list mev) : nwhole (pair r <$> ev) = ev.
Proof. unfold nwhole. rewrite <- list_fmap_compose. by apply list_fmap_id. Qed.
Lemma by_call_app r a b : by_call r (a ++ b) = by_call r a ++ by_call r b.
Proof. apply omap_app. Qed.
Lemma by_call_same r ev : by_call r (pair r <$> ev) = ev.
Proof.
  induction ev as [|e ev IH]; [done|]. unfold by_call. cbn [fmap list_fmap omap list_omap fst snd]. rewrite bool_decide_eq_true_2 by done. f_equal. exact IH.
Qed.
Lemma by_call_other r q ev : r <> q -> by_call r (pair q <$> ev) = [].
Proof.
  intros Hne. induction ev as [|e ev IH]; [done|]. unfold by_call. cbn [fmap list_fmap omap list_omap fst snd]. rewrite bool_decide_eq_false_2 by congruence. exact IH.
Qed.
Lemma taken_by_app r a b : taken_by r (a ++ b) = taken_by r a ++ taken_by r b.
Proof. apply omap_app. Qed.
Lemma taken_by_same r us : taken_by r (pair r <$> us) = us.
Proof.
  induction us as [|e ev IH]; [done|]. unfold taken_by. cbn [fmap list_fmap omap list_omap fst snd]. rewrite bool_decide_eq_true_2 by done. f_equal. exact IH.
Qed.
Lemma taken_by_other r q us : r <> q -> taken_by r (pair q <$> us) = [].
Proof.
  intros Hne. induction us as [|e ev IH]; [done|]. unfold taken_by. cbn [fmap list_fmap omap list_omap fst snd]. rewrite bool_decide_eq_false_2 by congruence. exact IH.
Qed.

(** Without a call of Run there are only publishers and users of the stores. *)
Lemma none_step c s l s' ev : m_serve s = SStopped -> m_listening s = false -> m_sending s = false ->
  mstep c s l = Some (s', ev) -> m_serve s' = SStopped /\ m_listening s' = false /\ m_sending s' = false /\ m_flushes s' = m_flushes s /\ m_sends s' = m_sends s /\
    (ev = [] /\ m_changes s' = m_changes s \/ exists u, ev = [MPublished u] /\ m_changes s' = m_changes s ++ [u]) /\ m_crashed s' = m_crashed s.
Proof.
  intros H1 H2 H3 H. unfold mstep in H. destruct (m_crashed s) eqn:Hc; [done|]. destruct l; rewrite ?H2, ?H3 in H; cbn [andb] in H; try discriminate H.
  - destruct (_ <? 256)%Z; [|done]. injection H as <- <-. cbn. split; [done|]. split; [done|]. split; [done|]. split; [done|]. split; [done|]. split; [right; by eexists|done].
  - unfold serve_step in H. rewrite H1 in H. by destruct a.
  - injection H as <- <-. cbn. eauto 10.
  - destruct (run_op _ _ _ _) as [[s1 ?] ?]. injection H as <- <-. cbn. eauto 10.
Qed.

Lemma nstep_inv c s r l s' ev : nstep c s (NStep r l) = Some (s', ev) ->
  exists e, mstep c (nfocus s r) l = Some (n_core s', e) /\ ev = pair r <$> e /\ 
    (n_runs s !! r <> None -> nfocus s' r = n_core s' /\ n_runs s' !! r <> None) /\
    (n_runs s !! r = None -> n_runs s' !! r = None) /\
    (forall q, q <> r -> n_runs s' !! q = n_runs s !! q).
Proof.
  cbn [nstep]. intros H. destruct (mstep c (nfocus s r) l) as [[m e]|] eqn:Em; [|done]. injection H as <- <-. exists e. split; [done|]. split; [done|].
  destruct (n_runs s !! r) as [x|] eqn:Er.
  - split; [|split; [done|]].
    + intros _. split; [|cbn [n_runs]; by rewrite lookup_insert]. unfold nfocus, nctl_at. cbn [n_runs n_core]. rewrite lookup_insert. by destruct m.
    + intros q Hq. cbn [n_runs]. by rewrite lookup_insert_ne.
  - split; [done|]. split; done.
Qed.

Lemma nstep_run c s r s' ev : nstep c s (NRun r) = Some (s', ev) ->
  m_crashed (n_core s) = false /\ n_runs s !! r = None /\ n_core s' = n_core s /\ ev = [] /\ nctl_at s' r = nc_start /\ n_runs s' !! r <> None /\
  (forall q, q <> r -> n_runs s' !! q = n_runs s !! q).
Proof.
  cbn [nstep]. destruct (m_crashed _); [done|]. destruct (n_runs s !! r) eqn:Er; [done|]. intros [= <- <-]. cbn [n_core n_runs].
  do 4 (split; [done|]). unfold nctl_at. cbn [n_runs]. rewrite lookup_insert. split; [done|]. split; [done|]. intros q Hq. by rewrite lookup_insert_ne.
Qed.

Lemma nctl_same s s' q : n_runs s' !! q = n_runs s !! q -> nctl_at s' q = nctl_at s q.
Proof. unfold nctl_at. by intros ->. Qed.

(** ** Sending *)

Lemma send_inv_core s s' evs : m_sends s' = m_sends s -> m_crashed s' = m_crashed s -> send_inv s evs -> send_inv s' evs.
Proof. unfold send_inv. by intros -> ->. Qed.

Lemma nsend_run c w ls s evs : nrun c (n_init w) ls = Some (s, evs) -> send_inv (n_core s) (nwhole evs).
Proof.
  intros Hr. change evs with ([] ++ evs). apply (run_inv (nstep c) (fun s evs => send_inv (n_core s) (nwhole evs)) (fun _ => True) (n_init w) [] ls s evs) with (4 := Hr).
  - exists []. cbn. split; [done|]. split; [lia|]. split; [done|constructor].
  - intros s1 evs1 [r|r l] s2 ev Hi _ Hs.
    + apply nstep_run in Hs as (_ & _ & E & -> & _). by rewrite E, app_nil_r.
    + apply nstep_inv in Hs as (e & Hm & -> & _). rewrite nwhole_app, nwhole_pair. eapply send_inv_step; [|exact Hm]. by apply (send_inv_core (n_core s1)).
  - by apply Forall_true.
Qed.

(** ** Updates *)

(** What a step does to the channel of updates. *)
Lemma changes_step c s l s' ev : mstep c s l = Some (s', ev) ->
  (exists u, ev = [MPublished u] /\ m_changes s' = m_changes s ++ [u] /\ m_serve s' = m_serve s) \/
  (exists t, m_changes s = t ++ m_changes s' /\ published ev = []).
Proof.
  intros H. unfold mstep in H. destruct (m_crashed s) eqn:Hc; [done|]. destruct l.
  - destruct (_ <? 256)%Z; [|done]. injection H as <- <-. left. by exists u.
  - right. assert (forall s0 ev0, m_changes s0 = m_changes s -> published ev0 = [] -> exists t, m_changes s = t ++ m_changes s0 /\ published ev0 = []) as Hk
      by (intros s0 ev0 E ?; exists []; by rewrite E).
    assert (forall e0 buf s0, m_changes (finish_batch e0 buf s0) = m_changes s0) as Hf.
    { intros e0 buf s0. unfold finish_batch. by destruct (batch_records e0 buf) as [[|]|]. }
    assert (forall e0 buf s0, m_changes (buffered e0 buf s0) = m_changes s0) as Hb.
    { intros e0 buf s0. unfold buffered. destruct (m_cancelled s0); [done|apply Hf]. }
    unfold serve_step in H. destruct (m_serve s) as [|buf|m|n|q tok|m q tok|] eqn:Epc; destruct a; try discriminate H.
    + destruct (m_changes s) as [|u q] eqn:Ech; [done|]. exists [u]. destruct (_ && _); injection H as <- <-; [done|]. by rewrite Hf.
    + destruct (0 <? m_flushes s)%Z; [|done]. destruct (mc_delays c); injection H as <- <-; by apply Hk.
    + destruct (m_cancelled s); [|done]. injection H as <- <-. by apply Hk.
    + destruct (m_changes s) as [|u q] eqn:Ech; [done|]. exists [u]. destruct (_ =? _)%Z; injection H as <- <-; [by rewrite Hb|done].
    + injection H as <- <-. apply Hk; [apply Hb|done].
    + destruct (m_cancelled s); [|done]. injection H as <- <-. by apply Hk.
    + destruct (_ <? 256)%Z; [|done]. injection H as <- <-. by apply Hk.
    + destruct (0 <? m_flushes s)%Z; [|done]. destruct (_ =? 2048)%Z; [unfold drained in H; destruct (m_cancelled _)|]; injection H as <- <-; by apply Hk.
    + unfold drained in H; destruct (m_cancelled _); injection H as <- <-; by apply Hk.
    + destruct q; discriminate H.
    + destruct q; discriminate H.
    + destruct q; discriminate H.
    + destruct q; discriminate H.
    + destruct q; discriminate H.
    + destruct q as [|i q]; injection H as <- <-; [by apply Hk|]. apply Hk; [|done].
      unfold list_next. destruct (run_op _ _ _ _).1.2 as [? |? ?|l tok' [er|]|? ?|]; try done. by destruct l.
    + destruct (m_cancelled s); [|done]. injection H as <- <-. by apply Hk.
    + destruct (_ <? 256)%Z; [|done]. injection H as <- <-. by apply Hk.
  - destruct (m_listening s); [|done]. injection H as <- <-. right. exists []. unfold recv_step. cbn [fst snd]. split; [by destruct (_ <? 8)%Z|by destruct ok].
  - destruct (_ && _); [|done]. injection H as <- <-. right. by exists [].
  - destruct (m_sending s); [|done]. unfold send_step in H. destruct (m_sends s); [done|]. right. exists [].
    destruct (encode_record_msg _); injection H as <- <-; done.
  - destruct (_ && _); [|done]. injection H as <- <-. right. by exists [].
  - injection H as <- <-. right. by exists [].
  - destruct (run_op _ _ _ _) as [[s1 ?] ?]. injection H as <- <-. right. by exists [].
Qed.

(** The account of one call: what it took went into its messages, or is in hand. *)
Definition account (c : mcfg) (s : nstate) (evs : list (nat * mev)) (tk : list (nat * rec_update)) (r : nat) : Prop :=
  upd_inv c (nfocus s r) ((MPublished <$> (taken_by r tk ++ m_changes (n_core s))) ++ (MQueued true <$> update_msgs (by_call r evs))).

Lemma published_pub us ms : published ((MPublished <$> us) ++ (MQueued true <$> ms)) = us.
Proof.
  unfold published. rewrite omap_app. assert (omap (fun x => match x with MPublished u => Some u | _ => None end) (MQueued true <$> ms) = []) as ->.
  { by induction ms. }
  rewrite app_nil_r. induction us as [|u us IH]; [done|]. cbn. f_equal. exact IH.
Qed.
Lemma update_msgs_pub us ms : update_msgs ((MPublished <$> us) ++ (MQueued true <$> ms)) = ms.
Proof.
  unfold update_msgs. rewrite omap_app. assert (omap (fun x => match x with MQueued true m => Some m | _ => None end) (MPublished <$> us) = []) as ->.
  { by induction us. }
  cbn [app]. induction ms as [|u us' IH]; [done|]. cbn. f_equal. exact IH.
Qed.

Lemma upd_inv_ext c s evs evs' : published evs' = published evs -> update_msgs evs' = update_msgs evs -> upd_inv c s evs -> upd_inv c s evs'.
Proof. unfold upd_inv. by intros -> ->. Qed.

(** [upd_inv] with the updates taken so far, instead of those published. *)
Lemma account_iff c s evs tk r : account c s evs tk r <->
  exists dn cur, taken_by r tk = dn.*2 ++ cur /\
    concat (update_msgs (by_call r evs)) = handed dn /\ Forall (fun x => env_ok x.1) dn /\
    (Z.of_nat (length cur) <= Z.max 1 (mc_batch c))%Z /\
    Forall (fun m => 1 <= Z.of_nat (length m) <= Z.max 1 (mc_batch c))%Z (update_msgs (by_call r evs)) /\
    (m_crashed (n_core s) = false ->
     match nc_serve (nctl_at s r) with
     | SBuffer buf => cur = buf /\ (Z.of_nat (length buf) < mc_batch c)%Z
     | SSend m => exists e, env_ok e /\ batch_records e cur = Some m /\ m <> []
     | SStopped => True
     | _ => cur = []
     end).
Proof.
  unfold account, upd_inv. rewrite published_pub, update_msgs_pub. cbn [nfocus m_changes m_crashed m_serve]. split; intros (dn & cur & H1 & H2); exists dn, cur.
  - split; [by eapply (inj (fun l => l ++ m_changes (n_core s)))|exact H2].
  - split; [by rewrite H1|exact H2].
Qed.

Definition upd_all (c : mcfg) (s : nstate) (evs : list (nat * mev)) : Prop :=
  exists tk, published (nwhole evs) = tk.*2 ++ m_changes (n_core s) /\ (forall r, account c s evs tk r) /\
    forall r, n_runs s !! r = None -> taken_by r tk = [].

Lemma not_crashed c s l s' ev : mstep c s l = Some (s', ev) -> m_crashed s = false.
Proof. unfold mstep. by destruct (m_crashed s). Qed.

Lemma published_app a b : published (a ++ b) = published a ++ published b.
Proof. apply omap_app. Qed.
Lemma update_msgs_app a b : update_msgs (a ++ b) = update_msgs a ++ update_msgs b.
Proof. apply omap_app. Qed.

(** The account of a call does not change by what others do. *)
Lemma account_other c s s' evs ev tk tk' q : account c s evs tk q -> m_crashed (n_core s) = false -> nctl_at s' q = nctl_at s q ->
  taken_by q tk' = taken_by q tk -> update_msgs (by_call q ev) = [] -> account c s' (evs ++ ev) tk' q.
Proof.
  intros Ha Hc Hctl Ht Hev. apply account_iff in Ha as (dn & cur & H1 & H2 & H3 & H4 & H5 & H6). apply account_iff. exists dn, cur.
  rewrite by_call_app, update_msgs_app, Hev, app_nil_r, Ht, Hctl. do 5 (split; [done|]). intros _. by apply H6.
Qed.

Lemma upd_all_step c s evs l s' ev : upd_all c s evs ->
  match l with NStep _ (LServe e _ | LStore _ e _) => env_ok e | _ => True end ->
  nstep c s l = Some (s', ev) -> upd_all c s' (evs ++ ev).
Proof.
  intros (tk & Hp & Ha & Hnone) He Hs. destruct l as [r|r l].
  - apply nstep_run in Hs as (Hc & Hr & Ec & -> & Er & Hin & Ho). exists tk. rewrite Ec. split; [by rewrite app_nil_r|]. split.
    + intros q. destruct (decide (q = r)) as [->|Hne]; [|apply (account_other c s s' evs [] tk tk q (Ha q) Hc (nctl_same s s' q (Ho q Hne))); done].
      specialize (Ha r). apply account_iff in Ha as (dn & cur & H1 & H2 & H3 & H4 & H5 & H6). apply account_iff. exists dn, cur. rewrite app_nil_r.
      do 5 (split; [done|]). rewrite Er. intros _. cbn. rewrite (Hnone r Hr) in H1. symmetry in H1. by apply app_nil in H1 as [_ ->].
    + intros q Hq. apply Hnone. destruct (decide (q = r)) as [->|Hne]; [done|]. by rewrite <- (Ho q Hne).
  - apply nstep_inv in Hs as (e & Hm & -> & Hsome & Hn & Ho). pose proof (not_crashed _ _ _ _ _ Hm) as Hc. change (m_crashed (n_core s) = false) in Hc.
    assert (forall q, n_runs s' !! q = None -> n_runs s !! q = None) as Hn'.
    { intros q Hq. destruct (decide (q = r)) as [->|Hne]; [|by rewrite <- (Ho q Hne)]. destruct (n_runs s !! r) eqn:E; [|done].
      destruct Hsome as [_ Hsome]; [done|]. done. }
    destruct (n_runs s !! r) as [x|] eqn:Er.
    + destruct Hsome as [Ef _]; [done|].
      assert (exists t, m_changes (n_core s) ++ published e = t ++ m_changes (n_core s')) as (t & Ht).
      { destruct (changes_step _ _ _ _ _ Hm) as [(u & -> & E & _)|(t & E & E0)]; cbn [nfocus m_changes] in E; [exists []; by rewrite E|exists t; by rewrite E, E0, app_nil_r]. }
      exists (tk ++ (pair r <$> t)). split; [|split].
      * rewrite nwhole_app, nwhole_pair, published_app, Hp, fmap_app, <- !app_assoc, Ht. f_equal. f_equal. rewrite <- list_fmap_compose. symmetry. by apply list_fmap_id.
      * intros q. destruct (decide (q = r)) as [->|Hne].
        -- pose proof (upd_inv_step _ _ _ _ _ _ (Ha r) He Hm) as Hi. unfold account. rewrite Ef. revert Hi. apply upd_inv_ext.
           ++ rewrite published_pub, published_app, published_pub, taken_by_app, taken_by_same, <- !app_assoc. by rewrite Ht.
           ++ by rewrite update_msgs_pub, update_msgs_app, update_msgs_pub, by_call_app, by_call_same, update_msgs_app.
        -- apply (account_other c s s' evs _ tk _ q (Ha q) Hc (nctl_same s s' q (Ho q Hne))).
           ++ by rewrite taken_by_app, taken_by_other, app_nil_r.
           ++ by rewrite by_call_other.
      * intros q Hq. apply Hn' in Hq. rewrite taken_by_app, (Hnone q Hq), taken_by_other; [done|]. intros ->. congruence.
    + assert (nctl_at s r = nc_none) as E0 by (unfold nctl_at; by rewrite Er).
      destruct (none_step c (nfocus s r) l (n_core s') e) as (_ & _ & _ & _ & _ & Hev & Hc'); [by cbn; rewrite E0..|done|].
      assert (forall q, n_runs s' !! q = n_runs s !! q) as Ho'.
      { intros q. destruct (decide (q = r)) as [->|Hne]; [rewrite Er; by apply Hn|by apply Ho]. }
      exists tk. split; [|split].
      * rewrite nwhole_app, nwhole_pair, published_app, Hp. cbn [nfocus m_changes] in Hev.
        destruct Hev as [[-> E]|(u & -> & E)]; rewrite E; cbn [published omap list_omap]; [by rewrite app_nil_r|by rewrite <- app_assoc].
      * intros q. apply (account_other c s s' evs _ tk tk q (Ha q) Hc (nctl_same s s' q (Ho' q))); [done|].
        destruct (decide (q = r)) as [->|Hne]; [rewrite by_call_same|by rewrite by_call_other]. by destruct Hev as [[-> _]|(u & -> & _)].
      * intros q Hq. apply Hnone. by rewrite <- Ho'.
Qed.

Lemma upd_all_run c w ls s evs : nlabels_ok ls -> nrun c (n_init w) ls = Some (s, evs) -> upd_all c s evs.
Proof.
  intros Hl Hr. change evs with ([] ++ evs).
  apply (run_inv (nstep c) (upd_all c) _ (n_init w) [] ls s evs) with (3 := Hl) (4 := Hr);
    [|intros s1 evs1 l s' ev Hi Hq Hs; exact (upd_all_step c s1 evs1 l s' ev Hi Hq Hs)].
  exists []. split; [done|]. split; [|done]. intros r. apply account_iff. exists [], []. cbn. do 3 (split; [done|]). split; [lia|]. split; [constructor|].
  unfold nctl_at. cbn [n_init n_runs]. by rewrite lookup_empty.
Qed.

(** ** One call at a time *)

(** After every call has stopped, a new one takes up where they left. *)
Lemma resumes_run c s1 r ls s2 evs2 : (forall q, nc_serve (nctl_at s1 q) = SStopped) -> m_crashed (n_core s1) = false ->
  n_runs s1 !! r = None -> nlabels_ok ls ->
  (forall q, q <> r -> NRun q ∉ ls) -> nrun c s1 (NRun r :: ls) = Some (s2, evs2) ->
  exists dn cur, m_changes (n_core s1) ++ published (nwhole evs2) = (dn.*2 ++ cur) ++ m_changes (n_core s2) /\
    concat (update_msgs (nwhole evs2)) = handed dn /\ (Z.of_nat (length cur) <= Z.max 1 (mc_batch c))%Z /\
    (m_crashed (n_core s2) = false -> nc_serve (nctl_at s2 r) = SIdle -> cur = []).
Proof.
  intros Hst Hc Hr Hl Hother Hrun. unfold nrun in Hrun. cbn [run] in Hrun. destruct (nstep c s1 (NRun r)) as [[s1' ev0]|] eqn:E0; [|done].
  destruct (run (nstep c) s1' ls) as [[s2' ev1]|] eqn:E1; [|done]. injection Hrun as <- <-.
  apply nstep_run in E0 as (_ & _ & Ec & -> & Er & Hin & Ho). cbn [app].
  set (I := fun (s : nstate) (evs : list (nat * mev)) =>
    upd_inv c (nfocus s r) ((MPublished <$> m_changes (n_core s1)) ++ nwhole evs) /\ n_runs s !! r <> None /\ forall q, q <> r -> nc_serve (nctl_at s q) = SStopped).
  assert (I s2' ([] ++ ev1)) as (Hi & _).
  { apply (run_inv (nstep c) I (fun l => match l with NStep _ (LServe e _ | LStore _ e _) => env_ok e | NRun q => q = r | _ => True end) s1' [] ls s2' ev1) with (4 := E1).
    - split; [|split; [done|]].
      + exists [], []. unfold nwhole. cbn [fmap list_fmap]. rewrite app_nil_r.
        assert (update_msgs (MPublished <$> m_changes (n_core s1)) = []) as -> by (by induction (m_changes (n_core s1))).
        pose proof (published_pub (m_changes (n_core s1)) []) as E. cbn [fmap list_fmap] in E. rewrite app_nil_r in E. rewrite E.
        cbn [nfocus m_changes m_serve]. rewrite Ec, Er. cbn. do 3 (split; [done|]). split; [lia|]. split; [constructor|done].
      + intros q Hq. rewrite (nctl_same s1 s1' q (Ho q Hq)). apply Hst.
    - intros s evs l s' ev (Hi & Hn & Hq) Hlab Hs. destruct l as [q|q l].
      + subst q. apply nstep_run in Hs as (_ & Hs & _). by rewrite Hs in Hn.
      + pose proof Hs as Hs0. apply nstep_inv in Hs as (e & Hm & -> & Hsome & Hnone & Hoth). unfold I. rewrite nwhole_app, nwhole_pair, app_assoc.
        destruct (decide (q = r)) as [->|Hne].
        * destruct (Hsome Hn) as [Ef Hn']. split; [rewrite Ef; by eapply upd_inv_step|]. split; [done|].
          intros q Hqr. rewrite (nctl_same s s' q (Hoth q Hqr)). by apply Hq.
        * (* a step of a publisher, of a store, or of what is left of a stopped call *)
          assert (nctl_at s' r = nctl_at s r) as Ectl by (apply nctl_same, Hoth; congruence).
          assert (m_serve (n_core s') = SStopped /\ update_msgs e = [] /\ m_changes (n_core s') = m_changes (n_core s) ++ published e) as (Hstop & Hu & Hch).
          { pose proof (Hq q Hne) as Hsv. change (m_serve (nfocus s q) = SStopped) in Hsv. revert Hm Hsv. clear. intros H Hsv. unfold mstep in H.
            destruct (m_crashed (nfocus s q)); [done|]. destruct l.
            - destruct (_ <? 256)%Z; [|done]. injection H as <- <-. done.
            - unfold serve_step in H. rewrite Hsv in H. by destruct a.
            - destruct (m_listening _); [|done]. injection H as <- <-. unfold recv_step. cbn [fst snd].
              split; [by destruct (_ <? 8)%Z|]. split; [by destruct ok|]. destruct (_ <? 8)%Z, ok; cbn; by rewrite app_nil_r.
            - destruct (_ && _); [|done]. injection H as <- <-. split; [done|]. split; [done|]. cbn. by rewrite app_nil_r.
            - destruct (m_sending _); [|done]. unfold send_step in H. destruct (m_sends _); [done|].
              destruct (encode_record_msg _); injection H as <- <-; (split; [done|]; split; [done|]); cbn; by rewrite app_nil_r.
            - destruct (_ && _); [|done]. injection H as <- <-. split; [done|]. split; [done|]. cbn. by rewrite app_nil_r.
            - injection H as <- <-. split; [done|]. split; [done|]. cbn. by rewrite app_nil_r.
            - destruct (run_op _ _ _ _) as [[s0 ?] ?]. injection H as <- <-. split; [done|]. split; [done|]. cbn. by rewrite app_nil_r. }
          split; [|split].
          -- destruct Hi as (dn & cur & H1 & H2 & H3 & H4 & H5 & H6). exists dn, cur. cbn [nfocus m_changes m_serve m_crashed] in *.
             rewrite published_app, H1, Hch, app_assoc, update_msgs_app, Hu, app_nil_r, Ectl. do 5 (split; [done|]). intros _. apply H6.
             pose proof (not_crashed _ _ _ _ _ Hm) as Hc'. exact Hc'.
          -- rewrite Hoth by congruence. done.
          -- intros q' Hq'. destruct (decide (q' = q)) as [->|Hne']; [|rewrite (nctl_same s s' q' (Hoth q' Hne')); by apply Hq].
             destruct (n_runs s !! q) eqn:Eq.
             ++ destruct Hsome as [Ef _]; [done|]. change (m_serve (nfocus s' q) = SStopped). by rewrite Ef.
             ++ unfold nctl_at. by rewrite Hnone.
    - apply Forall_forall. intros l Hin'. apply (proj1 (Forall_forall _ _) Hl) in Hin' as Hok. destruct l as [q|q l]; [|done].
      destruct (decide (q = r)) as [->|Hne]; [done|]. by apply Hother in Hin'. }
  destruct Hi as (dn & cur & H1 & H2 & _ & H4 & _ & H6). exists dn, cur. cbn [nfocus m_changes m_serve m_crashed app] in *.
  pose proof (published_pub (m_changes (n_core s1)) []) as E. cbn [fmap list_fmap] in E. rewrite app_nil_r in E. rewrite published_app, E in H1.
  rewrite update_msgs_app in H2. assert (update_msgs (MPublished <$> m_changes (n_core s1)) = []) as E2 by (clear; by induction (m_changes (n_core s1))). rewrite E2 in H2.
  split; [done|]. split; [done|]. split; [done|]. intros Hc2 Hidle. specialize (H6 Hc2). by rewrite Hidle in H6.
Qed.

(** ** One call is the model of Manager.v *)

Lemma single_run c s ls : n_runs s !! 0 <> None ->
  match mrun c (nfocus s 0) ls with
  | Some (m, evs) => exists s', nrun c s (NStep 0 <$> ls) = Some (s', pair 0 <$> evs) /\ nfocus s' 0 = m
  | None => nrun c s (NStep 0 <$> ls) = None
  end.
Proof.
  revert s. unfold nrun. induction ls as [|l ls IH]; intros s Hn; [by exists s|]. unfold fmap. cbn [mrun list_fmap run].
  destruct (nstep c s (NStep 0 l)) as [[s1 ev]|] eqn:Es.
  - apply nstep_inv in Es as (e & Hm & -> & Hsome & _). rewrite Hm. destruct (Hsome Hn) as [Ef Hn1]. rewrite <- Ef. specialize (IH s1 Hn1).
    destruct (mrun c (nfocus s1 0) ls) as [[m2 e2]|].
    + destruct IH as (s2 & Hr & E2). exists s2. unfold fmap in Hr. rewrite Hr. split; [|done]. f_equal. f_equal. symmetry. apply fmap_app.
    + unfold fmap in IH. by rewrite IH.
  - cbn [nstep] in Es. by destruct (mstep c (nfocus s 0) l) as [[? ?]|].
Qed.

(** ** A new call makes room *)

Lemma room_again c s r : m_crashed (n_core s) = false -> n_runs s !! r = None -> m_changes (n_core s) <> [] ->
  exists e s', nrun c s [NRun r; NStep r (LServe e ATakeUpdate)] = Some (s', []) /\ length (m_changes (n_core s')) < length (m_changes (n_core s)) /\ env_ok e.
Proof.
  intros Hc Hn Hch. exists (at_time 0). unfold nrun. cbn [run nstep]. rewrite Hc, Hn.
  set (s1 := NState (n_core s) (<[r := nc_start]> (n_runs s))).
  assert (nfocus s1 r = MState (m_changes (n_core s)) (m_flushes (n_core s)) (m_sends (n_core s)) SIdle true true false (m_crashed (n_core s)) (m_stores (n_core s))) as ->.
  { unfold nfocus, nctl_at. cbn [s1 n_runs n_core]. by rewrite lookup_insert. }
  unfold mstep. cbn [m_crashed]. rewrite Hc. unfold serve_step. cbn [m_serve m_changes]. destruct (m_changes (n_core s)) as [|u q]; [done|].
  destruct (mc_buffers c && (1 <? mc_batch c)%Z).
  - eexists. split; [reflexivity|]. split; [cbn; lia|apply at_time_ok].
  - eexists. split; [reflexivity|]. split; [|apply at_time_ok]. cbn [n_core]. unfold finish_batch.
    destruct (batch_records _ [u]) as [[|]|]; cbn; lia.
Qed.

(** A new call sends what was waiting, in order. *)
Lemma sends_left c s r : m_crashed (n_core s) = false -> n_runs s !! r = None -> Forall encodable (m_sends (n_core s)) ->
  exists s' evs, nrun c s (NRun r :: replicate (length (m_sends (n_core s))) (NStep r (LSend true))) = Some (s', evs) /\
    m_sends (n_core s') = [] /\ sent (by_call r evs) = m_sends (n_core s).
Proof.
  intros Hc Hn Hf. unfold nrun. cbn [run nstep]. rewrite Hc, Hn.
  set (s1 := NState (n_core s) (<[r := nc_start]> (n_runs s))).
  assert (m_crashed (n_core s1) = false) as Hc1 by done. assert (n_runs s1 !! r <> None /\ nc_sending (nctl_at s1 r) = true) as [Hn1 Hs1].
  { unfold nctl_at. cbn [s1 n_runs]. by rewrite lookup_insert. }
  assert (n_core s = n_core s1) as Ecore by done. clearbody s1. rewrite Ecore in Hf |- *. clear Ecore Hn Hc s. remember (m_sends (n_core s1)) as l eqn:El. revert s1 El Hc1 Hn1 Hs1.
  induction Hf as [|m l [am Ham] Hf IH]; intros s El Hc Hn Hs; [by exists s, []|].
  cbn [replicate length run nstep]. unfold mstep. change (m_crashed (nfocus s r)) with (m_crashed (n_core s)). change (m_sending (nfocus s r)) with (nc_sending (nctl_at s r)).
  rewrite Hc, Hs. unfold send_step. change (m_sends (nfocus s r)) with (m_sends (n_core s)). rewrite <- El. fold (encode_mmsg m). rewrite Ham.
  destruct (n_runs s !! r) as [x|] eqn:Ex; [|done]. set (s2 := NState _ _).
  destruct (IH s2) as (s' & evs & Hr & He & Hse).
  - done.
  - exact Hc.
  - cbn [s2 n_runs]. by rewrite lookup_insert.
  - unfold nctl_at. cbn [s2 n_runs]. rewrite lookup_insert. exact Hs.
  - assert (match run (nstep c) s2 (replicate (length l) (NStep r (LSend true))) with
      | Some (s3, ev2) => Some (s3, [] ++ ev2) | None => None end = Some (s', evs)) as Hr2 by exact Hr.
    destruct (run (nstep c) s2 (replicate (length l) (NStep r (LSend true)))) as [[s3 ev2]|]; [|done]. injection Hr2 as -> ->.
    eexists _, _. split; [reflexivity|]. split; [done|]. cbn [app fmap list_fmap]. unfold by_call. cbn [omap list_omap fst snd]. rewrite bool_decide_eq_true_2 by done.
    unfold sent. cbn [omap list_omap]. f_equal. exact Hse.
Qed.

(** ** A stopped call queues nothing *)

Lemma stopped_step c s r l s' ev : n_runs s !! r <> None -> nc_serve (nctl_at s r) = SStopped -> nstep c s l = Some (s', ev) ->
  n_runs s' !! r <> None /\ nc_serve (nctl_at s' r) = SStopped /\ forall b m, (r, MQueued b m) ∉ ev.
Proof.
  intros Hn Hst Hs. destruct l as [q|q l].
  - apply nstep_run in Hs as (_ & Hq & _ & -> & _ & _ & Ho). assert (r <> q) as Hne by congruence. rewrite (nctl_same s s' r (Ho r Hne)), (Ho r Hne).
    split; [done|]. split; [done|]. by intros b m ?%elem_of_nil.
  - apply nstep_inv in Hs as (e & Hm & -> & Hsome & _ & Ho). destruct (decide (r = q)) as [<-|Hne].
    + destruct (Hsome Hn) as [Ef Hn']. change (m_serve (nfocus s r) = SStopped) in Hst.
      assert (m_serve (n_core s') = SStopped /\ queued e = []) as [H1 H2].
      { revert Hm Hst. clear. intros H Hst. unfold mstep in H. destruct (m_crashed _); [done|]. destruct l.
        - destruct (_ <? 256)%Z; [|done]. by injection H as <- <-.
        - unfold serve_step in H. rewrite Hst in H. by destruct a.
        - destruct (m_listening _); [|done]. injection H as <- <-. unfold recv_step. cbn [fst snd]. split; [by destruct (_ <? 8)%Z|by destruct ok].
        - destruct (_ && _); [|done]. by injection H as <- <-.
        - destruct (m_sending _); [|done]. unfold send_step in H. destruct (m_sends _); [done|]. destruct (encode_record_msg _); by injection H as <- <-.
        - destruct (_ && _); [|done]. by injection H as <- <-.
        - by injection H as <- <-.
        - destruct (run_op _ _ _ _) as [[s0 ?] ?]. by injection H as <- <-. }
      split; [done|]. split; [change (m_serve (nfocus s' r) = SStopped); by rewrite Ef|]. intros b m Hin.
      apply elem_of_list_fmap in Hin as (y & Ey & Hin). injection Ey as <-. assert (m ∈ queued e) as Hq by (apply elem_of_list_omap; by exists (MQueued b m)).
      rewrite H2 in Hq. by apply elem_of_nil in Hq.
    + rewrite (nctl_same s s' r (Ho r Hne)), (Ho r Hne). split; [done|]. split; [done|]. intros b m Hin. apply elem_of_list_fmap in Hin as (y & Ey & _). congruence.
Qed.

Lemma stopped_run c s r ls s' evs : n_runs s !! r <> None -> nc_serve (nctl_at s r) = SStopped -> nrun c s ls = Some (s', evs) -> forall b m, (r, MQueued b m) ∉ evs.
Proof.
  intros Hn Hst Hr.
  apply (run_inv (nstep c) (fun s' evs => (n_runs s' !! r <> None /\ nc_serve (nctl_at s' r) = SStopped) /\ forall b m, (r, MQueued b m) ∉ evs)
    (fun _ => True) s [] ls s' evs) with (4 := Hr); [split; [done|]; by intros b m ?%elem_of_nil| |by apply Forall_true].
  intros s1 evs1 l s2 ev [[H1 H2] H3] _ Hs. destruct (stopped_step _ _ _ _ _ _ H1 H2 Hs) as (G1 & G2 & G3). split; [done|].
  intros b m Hin. apply elem_of_app in Hin as [Hin|Hin]; [by eapply H3|by eapply G3].
Qed.

(** ** A call that was not made *)

Lemma not_called c w ls s evs r : nrun c (n_init w) ls = Some (s, evs) -> NRun r ∉ ls -> n_runs s !! r = None.
Proof.
  intros Hr Hn. apply (run_inv (nstep c) (fun s _ => n_runs s !! r = None) (fun l => l <> NRun r) (n_init w) [] ls s evs) with (4 := Hr).
  - cbn. by rewrite lookup_empty.
  - intros s1 evs1 l s2 ev Hi Hl Hs. destruct l as [q|q l].
    + apply nstep_run in Hs as (_ & _ & _ & _ & _ & _ & Ho). rewrite Ho by congruence. done.
    + apply nstep_inv in Hs as (e & _ & _ & _ & Hnone & Ho). destruct (decide (r = q)) as [->|Hne]; [by apply Hnone|]. by rewrite Ho.
  - apply Forall_forall. intros l Hin ->. by apply Hn.
Qed.

(** Before the first call updates wait, and nothing else happens. *)
Lemma waits_run c w ls s evs : nrun c (n_init w) ls = Some (s, evs) -> (forall r, NRun r ∉ ls) ->
  nwhole evs = MPublished <$> m_changes (n_core s) /\ m_crashed (n_core s) = false /\ length (m_changes (n_core s)) <= 256.
Proof.
  intros Hr Hn.
  assert ((forall r, n_runs s !! r = None) /\ nwhole ([] ++ evs) = MPublished <$> m_changes (n_core s) /\ m_crashed (n_core s) = false /\ length (m_changes (n_core s)) <= 256) as [_ H]; [|exact H].
  apply (run_inv (nstep c) (fun s evs => (forall r, n_runs s !! r = None) /\ nwhole evs = MPublished <$> m_changes (n_core s) /\ m_crashed (n_core s) = false /\ length (m_changes (n_core s)) <= 256)
    (fun l => match l with NRun _ => False | _ => True end) (n_init w) [] ls s evs) with (4 := Hr).
  - split; [intros r; cbn; by rewrite lookup_empty|]. split; [done|]. split; [done|]. cbn. lia.
  - intros s1 evs1 [q|q l] s2 ev (H1 & H2 & H3 & H4) Hl Hs; [done|]. apply nstep_inv in Hs as (e & Hm & -> & _ & Hnone & Ho).
    assert (nctl_at s1 q = nc_none) as E0 by (unfold nctl_at; by rewrite H1).
    destruct (none_step c (nfocus s1 q) l (n_core s2) e) as (_ & _ & _ & _ & _ & Hev & Hc'); [by cbn; rewrite E0..|done|].
    split; [intros r; destruct (decide (r = q)) as [->|Hne]; [by apply Hnone|by rewrite Ho]|]. rewrite nwhole_app, nwhole_pair, H2. cbn [nfocus m_changes m_crashed] in Hev, Hc'.
    rewrite Hc'. destruct Hev as [[-> E]|(u & -> & E)]; rewrite E; [by rewrite app_nil_r|]. split; [by rewrite fmap_app|]. split; [done|].
    assert (length (m_changes (n_core s1)) < 256) as Hlt.
    { unfold mstep in Hm. cbn [nfocus m_crashed] in Hm. rewrite H3 in Hm. destruct l; try (by injection Hm as _ Hm).
      - destruct (Z.ltb_spec (Z.of_nat (length (m_changes (nfocus s1 q)))) 256) as [Hlt|]; [|done]. cbn [nfocus m_changes] in Hlt. lia.
      - unfold serve_step in Hm. cbn [nfocus m_serve] in Hm. rewrite E0 in Hm. cbn in Hm. by destruct a.
      - cbn [nfocus m_listening] in Hm. by rewrite E0 in Hm.
      - cbn [nfocus m_listening] in Hm. by rewrite E0 in Hm.
      - cbn [nfocus m_sending] in Hm. by rewrite E0 in Hm.
      - cbn [nfocus m_sending] in Hm. by rewrite E0 in Hm.
      - destruct (run_op _ _ _ _) as [[s0 ?] ?]. by injection Hm as _ Hm. }
    rewrite app_length. cbn. lia.
  - apply Forall_forall. intros [q|q l] Hin; [|done]. by apply (Hn q).
Qed.
