(** Containers that are started more than once: C120.  The vocabulary is at the top
    of RestartFacts.v; [ests], [tears] and [srun] are those of C61-C78. *)
From Coq Require Import ZArith NArith Ascii String Lia.
From stdpp Require Import base gmap strings list.
From Verif Require Import GoBase Run Session SessionFacts SessionCont Restart RestartFacts.

Local Open Scope list_scope.

(** ** C120 *)

(** Started once, the container does what C61-C67, C75-C78, C97 and C102 say: the
    events are those of a run of Session.v. *)
Theorem C120_once ls a ev : arun a_init ls = Some (a, ev) -> starts ls <= 1 -> exists ls' s, srun c_init ls' = Some (s, snd <$> ev).
Proof. intros Hr Hn. destruct (once _ _ _ Hr Hn) as (s & Hs & _). by exists (to_label <$> ls), s. Qed.

(** Each call of Start numbers its sessions from one, closes all of them when it
    ends, and ends the newest of its own for its own context or for an error that
    carries its number, whoever's it is. *)
Theorem C120_numbers ls a ev r : arun a_init ls = Some (a, ev) -> fst <$> ests (by_run r ev) = seq 1 (length (ests (by_run r ev))).
Proof.
  intros Hr. destruct (ainv_run _ _ _ Hr) as (HR & HN & _). destruct (a_runs a !! r) as [n|] eqn:E; [by apply (HR r n)|]. apply lookup_ge_None in E. by rewrite HN.
Qed.
Theorem C120_closed ls a ev r : arun a_init ls = Some (a, ev) -> (Some r, EvStopped) ∈ ev -> tears (by_run r ev) = snd <$> ests (by_run r ev).
Proof.
  intros Hr Hin%elem_by_run. destruct (ainv_run _ _ _ Hr) as (HR & HN & _). destruct (a_runs a !! r) as [n|] eqn:E; [|apply lookup_ge_None in E; rewrite HN in Hin by done; by apply elem_of_nil in Hin].
  destruct (HR r n E) as [(_ & _ & HP & _) _]. destruct (n_pc n); first [exact HP|by destruct HP as [_ HP]].
Qed.
Theorem C120_ends ls a x w g rep y : arun a_init ls = Some (a, x ++ (w, EvEnd g rep) :: y) -> exists r, w = Some r /\ last (fst <$> ests (by_run r x)) = Some g /\
  match rep with Some h => h = g /\ exists i l, (None, EvReport i l g) ∈ x | None => (Some r, EvCancel) ∈ x end.
Proof. intros Hr. exact (ends_ok _ _ _ Hr _ _ _ eq_refl). Qed.

(** A link made after a session was established, by whichever call of Start, uses
    the one established last. *)
Theorem C120_new_link ls a ev g sid k : arun a_init ls = Some (a, ev) -> c_panic (a_c a) = false -> c_lock (a_c a) = false -> newest ev = Some (g, sid) -> k <> KClose ->
  let i := length (c_ops (a_c a)) in let j := length (c_links (a_c a)) in
  exists a', arun a (ALink <$> [LLink; LOp j k; LStep i; LStep i]) = Some (a', (fun e => (None, e)) <$> [EvLink j; EvCall i j k; EvNew i j sid g]).
Proof.
  intros Hr Hp Hl Hn Hk i j. destruct (ainv_run _ _ _ Hr) as (_ & _ & HG & _). rewrite Hn in HG. destruct HG as (Hg & Hs & _).
  destruct a as [[p lo pr se ge lk cx er ok lks ops pn] runs]. cbn [a_c c_panic c_lock c_gen c_sess c_ops c_links] in *. subst ge se pn lk.
  set (l0 := Lnk false g (Some sid) (0, None) (0, None) false).
  assert ((lks ++ [l0]) !! j = Some l0) as Hj by (subst j; by apply list_lookup_middle).
  assert (forall q, (ops ++ [q]) !! i = Some q) as Hi by (intros q; subst i; by apply list_lookup_middle).
  set (st := fun lks ops => AState (CState p lo pr (Some sid) g false cx er ok lks ops false) runs).
  assert (astep (st lks ops) (ALink LLink) = Some (st (lks ++ [l0]) ops, [(None, EvLink j)])) as E1 by reflexivity.
  assert (astep (st (lks ++ [l0]) ops) (ALink (LOp j k)) = Some (st (lks ++ [l0]) (ops ++ [Op j k None PStart]), [(None, EvCall i j k)])) as E2.
  { cbn. by rewrite Hj. }
  assert (astep (st (lks ++ [l0]) (ops ++ [Op j k None PStart])) (ALink (LStep i)) = Some (st (lks ++ [l0]) (<[i := Op j k None PGet]> (ops ++ [Op j k None PStart])), [])) as E3.
  { cbn. rewrite Hi. cbn. rewrite Hj. by destruct k. }
  assert (exists a', astep (st (lks ++ [l0]) (<[i := Op j k None PGet]> (ops ++ [Op j k None PStart]))) (ALink (LStep i)) = Some (a', [(None, EvNew i j sid g)])) as [a' E4].
  { cbn. rewrite list_lookup_insert by (subst i; rewrite app_length; cbn; lia). cbn. rewrite Hj. destruct k; [..|done]; cbn; by eexists. }
  exists a'. change (AState _ runs) with (st lks ops). unfold fmap, list_fmap. cbn [run]. by rewrite E1, E2, E3, E4.
Qed.

(** A call that waits since a session numbered [g] failed gets the one established
    last in two steps if that has another number; as long as it has the same one,
    the call neither touches the network nor returns, whatever else happens, unless
    its context ends. *)
Theorem C120_waits ls a ev i o g : arun a_init ls = Some (a, ev) -> c_panic (a_c a) = false -> c_ops (a_c a) !! i = Some o -> (exists n, o_pc o = PWait g n) -> o_ctx o = None -> is_Some (c_links (a_c a) !! o_link o) ->
  (forall g' sid, newest ev = Some (g', sid) -> g' <> g -> c_lock (a_c a) = false ->
     exists a' o', arun a [ALink (LStep i); ALink (LStep i)] = Some (a', []) /\ c_ops (a_c a') !! i = Some o' /\ o_pc o' = PGot (Some sid) g') /\
  (forall sid, newest ev = Some (g, sid) -> forall ls' a' ev', arun a ls' = Some (a', ev') -> (forall c, ALink (LCtx i c) ∉ ls') ->
     (forall x g' sid', (x, EvEst g' sid') ∈ ev' -> g' = g) -> Forall (fun e => acts i (snd e) = false) ev').
Proof.
  intros Hr Hp Ho (n & Hpc) Hc (l & Hl). destruct (ainv_run _ _ _ Hr) as (_ & _ & HG & _ & HW). pose proof (HW _ _ _ _ Ho Hpc) as ->. split.
  - intros g' sid Hn Hne Hlk. rewrite Hn in HG. destruct HG as (Hg & Hs & _). destruct a as [[p lo pr se ge lk cx er ok lks ops pn] runs]. cbn [a_c c_panic c_lock c_gen c_sess c_ops c_links] in *. subst ge se pn lk.
    set (st := fun ops => AState (CState p lo pr (Some sid) g' false cx er ok lks ops false) runs). pose proof (lookup_lt_Some _ _ _ Ho) as Hlt.
    assert (astep (st ops) (ALink (LStep i)) = Some (st (<[i := Op (o_link o) (o_kind o) (o_ctx o) (PAwait g)]> ops), [])) as E1.
    { cbn. rewrite Ho, Hl. unfold op_step. rewrite Hpc. cbn [c_gen]. by rewrite (proj2 (Nat.eqb_neq g g')) by done. }
    assert (astep (st (<[i := Op (o_link o) (o_kind o) (o_ctx o) (PAwait g)]> ops)) (ALink (LStep i)) = Some (st (<[i := Op (o_link o) (o_kind o) (o_ctx o) (PGot (Some sid) g')]> ops), [])) as E2.
    { cbn. rewrite list_lookup_insert by done. cbn [o_link]. rewrite Hl. unfold op_step. cbn [o_pc c_lock c_gen]. rewrite (proj2 (Nat.eqb_neq g g')) by done. unfold set_op. cbn. unfold cs_ops. cbn. by rewrite list_insert_insert. }
    eexists _, _. split; [change (AState _ runs) with (st ops); cbn [run]; rewrite E1, E2; reflexivity|]. cbn. by rewrite list_lookup_insert.
  - intros sid Hn ls' a' ev' Hr' Hlb Hev. rewrite Hn in HG. destruct HG as (Hg & _). eapply await_run; [exact Hr'|exact Ho| |exact Hg|exact Hlb|exact Hev]. split; [done|by right].
Qed.

(** That a container can be started again and its links go on is false.  Started
    again once it has ended: its links wait for a session with another number than
    one, the new session has number one, and nothing ever changes that. *)
Definition ex_first : list alabel := AStart :: (ARun 0 <$> [LDial (Dialed 10); LPublish; LTear]) ++ (ALink <$> [LLink; LOp 0 KNext; LStep 0; LStep 0; LNet 0 NOk]).
Definition ex_fail : list alabel := ALink <$> [LNet 0 (NErr None); LStep 0; LStep 0; LStep 0; LStep 0; LStep 0].
Definition ex_stop : list alabel := ACancel 0 Canceled :: (ARun 0 <$> [LBackoff true; LAfter; LFinalTear]).
Definition ex_second : list alabel := AStart :: (ARun 1 <$> [LDial (Dialed 11); LPublish; LTear]).
Definition ex_wait : list alabel := ex_first ++ ex_fail ++ [ARun 0 LTakeErr] ++ ex_stop ++ ex_second.
Theorem C120_refuted_wait : exists a ev, arun a_init ex_wait = Some (a, ev) /\ (Some 0, EvStopped) ∈ ev /\ newest ev = Some (1, 11) /\ (Some 1, EvEst 1 11) ∈ ev /\
  forall ls a' ev', arun a ls = Some (a', ev') -> AStart ∉ ls -> ALink LLink ∉ ls -> (forall r c, ACancel r c ∉ ls) -> Forall (fun e => useless (snd e)) ev'.
Proof.
  destruct (arun a_init ex_wait) as [[a ev]|] eqn:Hr; [|vm_compute in Hr; discriminate Hr]. exists a, ev. split; [done|].
  vm_compute in Hr. injection Hr as <- <-. split; [by repeat (try (by left); right)|]. split; [reflexivity|]. split; [by repeat (try (by left); right)|].
  intros ls a' ev' Hr H1 H2 H3. eapply (lost_run 1); [|exact Hr|done..]. split; [done|]. split; [|split].
  - constructor; [by left|]. constructor; [|constructor]. right. split; [done|]. split; [done|]. apply not_elem_of_nil.
  - by repeat constructor.
  - by repeat constructor.
Qed.

(** Started again while a link still has a session of the first time: when that
    fails, the new session, on which nothing has failed or even happened, is ended. *)
Definition ex_stale : list alabel :=
  ex_first ++ [ACancel 0 Canceled] ++ (ARun 0 <$> [LLoopCtx; LBackoff true; LAfter; LFinalTear]) ++ ex_second ++ ex_fail ++ [ARun 1 LTakeErr].
Theorem C120_refuted_stale : exists a x, arun a_init ex_stale = Some (a, x ++ [(Some 1, EvEnd 1 (Some 1))]) /\ by_run 1 x = [EvConn 11; EvEst 1 11] /\
  (forall w i l g, (w, EvNew i l 11 g) ∉ x) /\ (forall w i l g, (w, EvUse i l 11 g) ∉ x) /\ exists y z, x = y ++ (Some 0, EvStopped) :: z /\ (None, EvNetErr 0 0 1) ∈ z.
Proof.
  destruct (arun a_init ex_stale) as [[a ev]|] eqn:Hr; [|vm_compute in Hr; discriminate Hr]. vm_compute in Hr. injection Hr as <- <-.
  eexists _, [(Some 0, EvConn 10); (Some 0, EvEst 1 10); (None, EvLink 0); (None, EvCall 0 0 KNext); (None, EvNew 0 0 10 1); (None, EvUse 0 0 10 1); (Some 0, EvCancel); (Some 0, EvEnd 1 None); (Some 0, EvTear 10); (Some 0, EvStopped);
    (Some 1, EvConn 11); (Some 1, EvEst 1 11); (None, EvNetErr 0 0 1); (None, EvReport 0 0 1)].
  split; [reflexivity|]. split; [reflexivity|]. split; [|split].
  - intros w i l g H. repeat (apply elem_of_cons in H as [H|H]; [discriminate H|]). by apply elem_of_nil in H.
  - intros w i l g H. repeat (apply elem_of_cons in H as [H|H]; [discriminate H|]). by apply elem_of_nil in H.
  - eexists [_; _; _; _; _; _; _; _; _], _. split; [reflexivity|]. by repeat (try (by left); right).
Qed.

(** Started while it runs: the error of a link is taken by the goroutine of the
    other call, which first ends a session on which nothing failed, and the second
    time drops it.  Again nothing ever changes. *)
Definition ex_both : list alabel :=
  AStart :: AStart :: (ARun 0 <$> [LDial (Dialed 10); LPublish; LTear]) ++ (ARun 1 <$> [LDial (Dialed 11); LPublish; LTear]) ++
  (ALink <$> [LLink; LOp 0 KNext; LStep 0; LStep 0; LNet 0 NOk]) ++ ex_fail ++ (ARun 0 <$> [LTakeErr; LBackoff true; LNotified; LPauseEnd; LDial (Dialed 12); LPublish; LTear]) ++
  (ALink <$> [LStep 0; LStep 0; LStep 0; LStep 0; LNet 0 NOk]) ++ ex_fail ++ [ARun 1 LTakeErr].
Theorem C120_refuted_both : exists a ev, arun a_init ex_both = Some (a, ev) /\
  (None, EvUse 0 0 11 1) ∈ ev /\ (None, EvNetErr 0 0 1) ∈ ev /\ (forall w i l g, (w, EvUse i l 10 g) ∉ ev) /\ (Some 0, EvEnd 1 (Some 1)) ∈ ev /\ (Some 0, EvEst 1 10) ∈ ev /\
  (None, EvUse 0 0 12 2) ∈ ev /\ (None, EvNetErr 0 0 2) ∈ ev /\ (Some 1, EvIgnored 1 2) ∈ ev /\ newest ev = Some (2, 12) /\
  forall ls a' ev', arun a ls = Some (a', ev') -> AStart ∉ ls -> ALink LLink ∉ ls -> (forall r c, ACancel r c ∉ ls) -> Forall (fun e => useless (snd e)) ev'.
Proof.
  destruct (arun a_init ex_both) as [[a ev]|] eqn:Hr; [|vm_compute in Hr; discriminate Hr]. exists a, ev. split; [done|]. vm_compute in Hr. injection Hr as <- <-.
  split; [by repeat (try (by left); right)|]. split; [by repeat (try (by left); right)|]. split.
  { intros w i l g H. repeat (apply elem_of_cons in H as [H|H]; [discriminate H|]). by apply elem_of_nil in H. }
  split; [by repeat (try (by left); right)|]. split; [by repeat (try (by left); right)|]. split; [by repeat (try (by left); right)|]. split; [by repeat (try (by left); right)|]. split; [by repeat (try (by left); right)|]. split; [reflexivity|].
  intros ls a' ev' Hr H1 H2 H3. eapply (lost_run 2); [|exact Hr|done..]. split; [done|]. split; [|split].
  - constructor; [|constructor; [|constructor]]; (right; split; [done|]; split; [done|]; apply not_elem_of_nil).
  - by repeat constructor.
  - by repeat constructor.
Qed.

(** The hypotheses of the theorems above are met: a link made in [ex_wait]'s last
    state has a session, and the link that waits gets one when that one fails. *)
Definition ex_more : list alabel := ALink <$> [LLink; LOp 1 KSend; LStep 1; LStep 1; LNet 1 (NErr None); LStep 1; LStep 1].
Definition ex_more2 : list alabel := ARun 1 <$> [LTakeErr; LBackoff true; LNotified; LPauseEnd; LDial (Dialed 12); LPublish; LTear].
Example C120_example : exists a ev, arun a_init (ex_wait ++ ex_more ++ ex_more2) = Some (a, ev) /\ newest ev = Some (2, 12) /\ c_panic (a_c a) = false /\ c_lock (a_c a) = false /\
  exists o, c_ops (a_c a) !! 0 = Some o /\ o_pc o = PWait 1 1 /\ o_ctx o = None /\ is_Some (c_links (a_c a) !! o_link o).
Proof.
  destruct (arun a_init (ex_wait ++ ex_more ++ ex_more2)) as [[a ev]|] eqn:Hr; [|vm_compute in Hr; discriminate Hr]. exists a, ev. split; [done|]. vm_compute in Hr. injection Hr as <- <-.
  split; [reflexivity|]. split; [done|]. split; [done|]. eexists. split; [reflexivity|]. split; [done|]. split; [done|]. by eexists.
Qed.

Print Assumptions C120_once.
Print Assumptions C120_numbers.
Print Assumptions C120_closed.
Print Assumptions C120_ends.
Print Assumptions C120_new_link.
Print Assumptions C120_waits.
Print Assumptions C120_refuted_wait.
Print Assumptions C120_refuted_stale.
Print Assumptions C120_refuted_both.
