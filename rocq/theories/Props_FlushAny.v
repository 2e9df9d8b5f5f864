(** C124: the manager over stores of any kind. *)
From Coq Require Import ZArith NArith Ascii String Lia.
From stdpp Require Import base gmap strings list.
From Verif Require Import GoBase Encoding Records Messages SpecMessages MessageFacts Env SyncMap Tokens Cache SpecStore StoreExamples
  Dispatch Diff ConvergeFacts Run Manager ManagerFacts ManagerExamples FlushAny FlushAnyFacts.

Local Open Scope list_scope.
Local Opaque vanflow_registry builtin_types record_types Encode Decode attrs_of.

(** The manager over the package's own stores is a case. *)
Theorem C124_own c s ls s' evs : mrun c s ls = Some (s', evs) -> exists ls' evs', arun c s ls' = Some (s', evs') /\ of_manager evs' = evs.
Proof. exact (own_run c s ls s' evs). Qed.

(** A flush asks one store after the other, each from its beginning, with the
    token of its last answer, until that is empty, and after an error the same
    again; it queues the pages that have records, in the order they came. *)
Theorem C124_pass c w ls s evs ev0 ev1 ev2 : arun c (m_init w) ls = Some (s, evs) ->
  evs = ev0 ++ AM MPassStart :: ev1 ++ AM MPassEnd :: ev2 -> AM MPassEnd ∉ ev1 ->
  passes (mc_stores c) (asked ev1) (flush_msgs (of_manager ev1)).
Proof. exact (pass_whole c (m_init w) ls s evs ev0 ev1 ev2). Qed.

(** A call asks for as many entries as configured. *)
Theorem C124_limit c w ls s evs i lim tok r : arun c (m_init w) ls = Some (s, evs) -> AAsked i lim tok r ∈ evs -> lim = mc_flush_batch c.
Proof.
  intros Hr. revert i lim tok r. apply (run_inv (astep c) (fun _ evs => forall i lim tok r, AAsked i lim tok r ∈ evs -> lim = mc_flush_batch c) (fun _ => True) (m_init w) [] ls s evs) with (4 := Hr).
  - by intros i lim tok r ?%elem_of_nil.
  - intros s1 evs1 l s2 ev IH _ Hs i lim tok r Hin. apply elem_of_app in Hin as [Hin|Hin]; [by eapply IH|].
    destruct (astep_cases _ _ _ _ _ Hs) as [r0 i0 q0 tok0 -> Hc Es -> ->|l0 e -> Hm -> _].
    + apply elem_of_list_singleton in Hin. by injection Hin as -> -> -> ->.
    + apply elem_of_list_fmap in Hin as (y & Ey & _). discriminate Ey.
  - apply Forall_forall. done.
Qed.

(** Updates and sending do not depend on what the stores answer: as in C38 and
    C39. *)
Theorem C124_updates c w ls s evs : alabels_ok ls -> arun c (m_init w) ls = Some (s, evs) ->
  exists dn cur, published (of_manager evs) = (dn.*2 ++ cur) ++ m_changes s /\ concat (update_msgs (of_manager evs)) = handed dn /\
    (Z.of_nat (length cur) <= Z.max 1 (mc_batch c))%Z /\ (m_crashed s = false -> m_serve s = SIdle -> cur = []).
Proof.
  intros Hl Hr. destruct (upd_any c w ls s evs Hl Hr) as [(dn & cur & H1 & H2 & _ & H4 & _ & H6) _]. exists dn, cur.
  split; [done|]. split; [done|]. split; [done|]. intros Hc Hs. specialize (H6 Hc). by rewrite Hs in H6.
Qed.

Theorem C124_sending c w ls s evs : alabels_ok ls -> arun c (m_init w) ls = Some (s, evs) ->
  exists lost, queued (of_manager evs) = processed (of_manager evs) ++ lost ++ m_sends s /\ length lost <= 1 /\ (m_crashed s = false -> lost = []).
Proof. intros Hl Hr. destruct (upd_any c w ls s evs Hl Hr) as [_ (lost & H1 & H2 & H3 & _)]. by exists lost. Qed.

(** As long as the store being asked only fails, with errors that are not the
    context's, the manager queues nothing, neither of the other stores nor of
    updates, and the goroutine does not return, cancelled or not. *)
Theorem C124_failing c s ls s' evs i q tok : m_serve s = SPass (i :: q) tok -> (forall r, AListed r ∈ ls -> r = LErr false) ->
  arun c s ls = Some (s', evs) -> m_serve s' = SPass (i :: q) tok /\ queued (of_manager evs) = [] /\ AM MPassEnd ∉ evs.
Proof. exact (spin_run c s ls s' evs i q tok). Qed.

(** There all it can do is to ask again.  It goes on when the store answers; the
    context's own error ends it once cancelled, and not before. *)
Theorem C124_only_asks c s i q tok : m_serve s = SPass (i :: q) tok -> m_crashed s = false ->
  (forall e a, astep c s (AL (LServe e a)) = None) /\
  (forall r, exists s', astep c s (AListed r) = Some (s', [AAsked i (mc_flush_batch c) tok r]) /\
    match r with
    | LOk [] "" => m_serve s' = SPass q ""
    | LOk [] tok' => m_serve s' = SPass (i :: q) tok'
    | LOk l "" => m_serve s' = SPassSend l q ""
    | LOk l tok' => m_serve s' = SPassSend l (i :: q) tok'
    | LErr true => m_serve s' = if m_cancelled s then SStopped else m_serve s
    | LErr false => s' = s
    | LPanics => m_crashed s' = true
    end).
Proof.
  intros Hs Hc. split.
  - intros e a. unfold astep. rewrite Hs. unfold mstep. rewrite Hc. unfold serve_step. rewrite Hs. by destruct a.
  - intros r. cbn [astep]. rewrite Hc, Hs. eexists. split; [done|]. unfold listed.
    destruct r as [[|x l] [|a tok']|[]|]; try done; cbn [andb]. by destruct (m_cancelled s).
Qed.

(** ** Cases *)

Definition any_mc : mcfg := MCfg [0; 1] (fun _ => ex_cf) false 1 false 2.
Definition ago (a : act) : alabel := AL (ex_serve a).
Definition rs (i : string) : option vrec := Some (ex_site i).

(** False of the code: that the manager's goroutine returns when its context ends.
    A store that goes on failing keeps it, after any number of tries. *)
Theorem C124_returns_refuted n : exists s evs,
  arun any_mc (m_init ∅) ([AL (LRecv true); AL (LPublish (new_site "s1")); ago ATakeFlush; AL LCancel] ++ replicate n (AListed (LErr false))) = Some (s, evs) /\
  m_cancelled s = true /\ m_serve s = SPass [0; 1] "" /\ m_crashed s = false /\ m_changes s = [new_site "s1"] /\ length (asked evs) = n.
Proof.
  unfold arun. rewrite run_app.
  assert (exists s evs, run (astep any_mc) (m_init ∅) [AL (LRecv true); AL (LPublish (new_site "s1")); ago ATakeFlush; AL LCancel] = Some (s, evs) /\
    m_cancelled s = true /\ m_serve s = SPass [0; 1] "" /\ m_crashed s = false /\ m_changes s = [new_site "s1"] /\ asked evs = []) as (s & evs & -> & H1 & H2 & H3 & H4 & H5).
  { eexists _, _. split; [vm_compute; reflexivity|]. done. }
  assert (forall n, exists evs, run (astep any_mc) s (replicate n (AListed (LErr false))) = Some (s, evs) /\ length (asked evs) = n) as Hn.
  { clear n. intros n. induction n as [|n (e & IH & IHl)]; [by exists []|]. cbn [replicate run astep]. rewrite H2, H3. cbn [listed andb]. rewrite IH. eexists. split; [done|]. cbn. f_equal. exact IHl. }
  destruct (Hn n) as (e & -> & Hl). exists s, (evs ++ e). do 5 (split; [done|]). rewrite asked_app, H5. done.
Qed.

(** Two stores; the first fails once, gives two pages and an empty one. *)
Definition ex_any : list alabel :=
  [AL (LRecv true); ago ATakeFlush; AListed (LErr false); AListed (LOk [rs "s1"; rs "s2"] "a"); ago ADo; AListed (LErr true); AListed (LOk [] "b");
   AListed (LOk [None] ""); ago ADo; AListed (LOk [rs "s3"] ""); ago ADo; ago ADo].
Definition ex_any_ev : list aev :=
  [AAsked 0 2 "" (LErr false); AAsked 0 2 "" (LOk [rs "s1"; rs "s2"] "a"); AM (MQueued false [rs "s1"; rs "s2"]); AAsked 0 2 "a" (LErr true);
   AAsked 0 2 "a" (LOk [] "b"); AAsked 0 2 "b" (LOk [None] ""); AM (MQueued false [None]); AAsked 1 2 "" (LOk [rs "s3"] ""); AM (MQueued false [rs "s3"])].
Example C124_example : exists s evs ev1, arun any_mc (m_init ∅) ex_any = Some (s, evs) /\ alabels_ok ex_any /\
  evs = [AM MFlushReq] ++ AM MPassStart :: ev1 ++ AM MPassEnd :: [] /\ AM MPassEnd ∉ ev1 /\
  flush_msgs (of_manager ev1) = [[rs "s1"; rs "s2"]; [None]; [rs "s3"]] /\
  asked ev1 = [(0, "", LErr false); (0, "", LOk [rs "s1"; rs "s2"] "a"); (0, "a", LErr true); (0, "a", LOk [] "b"); (0, "b", LOk [None] ""); (1, "", LOk [rs "s3"] "")]%string.
Proof.
  eexists _, _, ex_any_ev. split; [vm_compute; reflexivity|]. split; [repeat constructor; apply at_time_ok|].
  split; [vm_compute; reflexivity|]. split; [|split; vm_compute; reflexivity].
  intros Hin. repeat (apply elem_of_cons in Hin as [Hin|Hin]; [discriminate Hin|]). by apply elem_of_nil in Hin.
Qed.

(** While the first store fails the premises of C124_failing and C124_only_asks
    hold. *)
Example C124_asking : exists s evs, arun any_mc (m_init ∅) (take 3 ex_any) = Some (s, evs) /\ m_serve s = SPass [0; 1] "" /\ m_crashed s = false.
Proof. eexists _, _. split; [vm_compute; reflexivity|]. done. Qed.

Print Assumptions C124_own.
Print Assumptions C124_pass.
Print Assumptions C124_limit.
Print Assumptions C124_updates.
Print Assumptions C124_sending.
Print Assumptions C124_failing.
Print Assumptions C124_only_asks.
Print Assumptions C124_returns_refuted.
