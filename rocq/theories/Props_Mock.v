(** The mock router: C68, C69, C79.  The vocabulary: puts, gots, unbroken
    (MockFacts.v); precedes, full, enabled (MockOrder.v); receivers (MockLive.v). *)
From Coq Require Import ZArith NArith Ascii String Lia.
From stdpp Require Import base gmap strings list.
From Verif Require Import GoBase Run Mock MockFacts MockCalls MockOrder MockLive.

Local Open Scope list_scope.

(** ** C68 *)
(** Next returns what was handed over, in that order, nothing lost or twice ... *)
Theorem C68_fifo ls s evs r : mrun m_init ls = Some (s, evs) -> exists q, puts r evs = gots r evs ++ q.
Proof.
  intros Hr. pose proof (ci_r _ _ (cinv _ _ _ Hr)) as HR. destruct (m_rcv s !! r) as [x|] eqn:E.
  - exists (r_buf x). by apply (ri_buf _ _ HR).
  - exists []. destruct (ri_none _ _ HR r E) as (-> & -> & _). done.
Qed.
(** ... and whatever was handed over and not returned yet, Next can return. *)
Theorem C68_available ls s evs r ad m q : mrun m_init ls = Some (s, evs) -> EvSub r ad ∈ evs -> puts r evs = gots r evs ++ m :: q ->
  exists s', mstep s (MNext r false) = Some (s', [EvGot r m]).
Proof.
  intros Hr Hs E. pose proof (ci_r _ _ (cinv _ _ _ Hr)) as HR. apply (ri_subs _ _ HR), (ri_rcv _ _ HR) in Hs as (x & Hx & _ & Hsub).
  destruct (ri_buf _ _ HR r x Hx) as (Hb & _). rewrite E in Hb. apply app_inv_head in Hb. cbn. rewrite Hx, Hsub, <-Hb. by eexists.
Qed.
(** A message is handed over by a Send of that message in progress, to a receiver
    of its address, once per receiver, and not in between those of another. *)
Theorem C68_handed_over ls s evs a i ad r m b : mrun m_init ls = Some (s, evs) -> evs = a ++ EvPut i ad r m :: b ->
  (exists n, EvSend i n ad m ∈ a) /\ EvSub r ad ∈ a /\ (forall ad' m', EvPut i ad' r m' ∉ a) /\ (forall ad' x, EvSent i ad' x ∉ a) /\
  (forall a1 ad1 r1 m1 a2, a = a1 ++ EvPut i ad1 r1 m1 :: a2 -> forall j r2 m2, EvPut j ad r2 m2 ∈ a2 -> j = i).
Proof. intros Hr E. exact (lawful_mock _ _ _ _ _ _ Hr E). Qed.
(** A Send that succeeded reached every receiver that subscribed before it and
    has not been closed. *)
Theorem C68_reaches_all ls s evs a i ad b a1 n m a2 r : mrun m_init ls = Some (s, evs) -> evs = a ++ EvSent i ad MOk :: b -> a = a1 ++ EvSend i n ad m :: a2 -> EvSub r ad ∈ a1 ->
  EvPut i ad r m ∈ a \/ EvCloseR r ∈ a.
Proof. intros Hr E Ea Hs. destruct (lawful_mock _ _ _ _ _ _ Hr E) as (_ & H). by eapply H. Qed.
(** A Send that failed reached nobody. *)
Theorem C68_failed ls s evs a i ad x b : mrun m_init ls = Some (s, evs) -> evs = a ++ EvSent i ad x :: b -> x <> MOk -> forall ad' r m, EvPut i ad' r m ∉ a.
Proof. intros Hr E Hx. pose proof (lawful_mock _ _ _ _ _ _ Hr E) as H. by destruct x. Qed.
(** All receivers see the messages of all senders in the same order. *)
Theorem C68_same_order ls s evs i j r r' m1 m2 m3 m4 ad1 ad2 ad3 ad4 : mrun m_init ls = Some (s, evs) -> precedes (EvPut i ad1 r m1) (EvPut j ad2 r m2) evs ->
  ~ precedes (EvPut j ad3 r' m3) (EvPut i ad4 r' m4) evs.
Proof. exact (same_order ls s evs i j r r' m1 m2 m3 m4 ad1 ad2 ad3 ad4). Qed.
(** Send does not succeed before someone subscribed ... *)
Theorem C68_waits ls s evs a i ad b : mrun m_init ls = Some (s, evs) -> evs = a ++ EvSent i ad MOk :: b -> exists r, EvSub r ad ∈ a.
Proof. intros Hr E. destruct (lawful_mock _ _ _ _ _ _ Hr E) as ((n & m & r & _ & H & _) & _). by exists r. Qed.
(** ... and no wake-up is lost: it goes on once someone has. *)
Theorem C68_wakes ls s evs i c v r : mrun m_init ls = Some (s, evs) -> m_calls s !! i = Some c -> k_pc c = SWait v -> EvSub r (k_addr c) ∈ evs ->
  exists s', mstep s (MStep i) = Some (s', []).
Proof. exact (wait_wakes ls s evs i c v r). Qed.
(** A Send in progress can go on, or waits for a first subscriber, or a Send of
    its address can go on, or is held up by a receiver that is full. *)
Theorem C68_progress ls s evs i c : mrun m_init ls = Some (s, evs) -> m_calls s !! i = Some c -> (forall ad x, EvSent i ad x ∉ evs) ->
  enabled s i \/ (forall r, EvSub r (k_addr c) ∉ evs) \/
  exists j d, m_calls s !! j = Some d /\ k_addr d = k_addr c /\ (enabled s j \/ exists v r rem, k_pc d = SPut v r rem /\ full s r).
Proof. exact (send_progress ls s evs i c). Qed.
(** A closed receiver is handed at most one more message. *)
Theorem C68_after_close ls s evs a r b : mrun m_init ls = Some (s, evs) -> evs = a ++ EvCloseR r :: b -> length (puts r b) <= 1.
Proof. exact (after_close ls s evs a r b). Qed.
(** A Send called after its sender was closed reaches nobody, does not succeed,
    and can return that at any time. *)
Theorem C68_closed_sender ls s a n m s1 i ad ls' s2 b : mrun m_init ls = Some (s, a) -> EvCloseS n ∈ a -> mstep s (MSend n m) = Some (s1, [EvSend i n ad m]) ->
  mrun s1 ls' = Some (s2, b) ->
  (forall ad' r m', EvPut i ad' r m' ∉ b) /\ (forall ad' x, EvSent i ad' x ∈ b -> x <> MOk) /\
  ((exists x, EvSent i ad x ∈ b) \/ exists s3, mstep s2 (MStep i) = Some (s3, [EvSent i ad MClosed])).
Proof. exact (shut_run ls s a n m s1 i ad ls' s2 b). Qed.
(** Next can return an error, whatever is in the buffer, once its context has
    ended or the receiver was closed; and only then does it. *)
Theorem C68_next_error ls s evs r ad : mrun m_init ls = Some (s, evs) -> EvSub r ad ∈ evs ->
  mstep s (MNext r true) = Some (s, [EvNone r]) /\ (EvCloseR r ∈ evs <-> mstep s (MNextClosed r) = Some (s, [EvNone r])) /\
  forall lb s2 ev, mstep s lb = Some (s2, ev) -> EvNone r ∈ ev -> lb = MNext r true \/ lb = MNextClosed r.
Proof.
  intros Hr Hs. pose proof (ci_r _ _ (cinv _ _ _ Hr)) as HR. pose proof Hs as Hs'. apply (ri_subs _ _ HR), (ri_rcv _ _ HR) in Hs' as (x & Hx & _ & Hsub).
  cbn. rewrite Hx, Hsub. split; [done|]. rewrite <- (ri_closed _ _ HR _ _ Hx). split; [destruct (r_closed x); cbn; naive_solver|].
  intros lb s2 ev H Hin. destruct lb as [a|a cr|r'|n0 m|i0|i0|i0|r' ctx|r'|r'|n0]; cbn [mstep] in H; unfold send_step in H; repeat case_match; try discriminate H; injection H as <- <-;
    try (by apply elem_of_nil in Hin); try (by apply elem_of_list_singleton in Hin); apply elem_of_list_singleton in Hin as [= ->]; by auto.
Qed.

(** Two receivers, two senders whose sends overlap, a third send that waits at
    another address until someone subscribes. *)
Definition ex_mock : list mlabel :=
  [MNewReceiver "a" 2; MSubscribe 0; MNewReceiver "a" 0; MSubscribe 1; MNewSender "a"; MNewSender "a"; MNewSender "b";
   MSend 0 7; MSend 1 8; MSend 2 9; MStep 0; MStep 1; MStep 2; MStep 2; MStep 2; MStep 0; MStep 0; MStep 0; MStep 0; MStep 0; MStep 0;
   MStep 1; MStep 1; MStep 1; MStep 1; MStep 1; MStep 1; MNewReceiver "b" 0; MSubscribe 2; MStep 2; MStep 2; MStep 2; MStep 2; MStep 2; MNext 0 false; MNext 1 false].
Definition mevents (ls : list mlabel) : list mev := match mrun m_init ls with Some (_, evs) => evs | None => [] end.
Example C68_example : mevents ex_mock =
  [EvSub 0 "a"; EvSub 1 "a"; EvSend 0 0 "a" 7; EvSend 1 1 "a" 8; EvSend 2 2 "b" 9; EvPut 0 "a" 0 7; EvPut 0 "a" 1 7; EvSent 0 "a" MOk; EvPut 1 "a" 0 8; EvPut 1 "a" 1 8;
   EvSent 1 "a" MOk; EvSub 2 "b"; EvPut 2 "b" 2 9; EvSent 2 "b" MOk; EvGot 0 7; EvGot 1 7]%string.
Proof. by vm_compute. Qed.
(** After a Close a message is still handed over. *)
Example C68_after_close_example : mevents [MNewReceiver "a" 0; MSubscribe 0; MNewSender "a"; MSend 0 7; MStep 0; MStep 0; MStep 0; MCloseR 0; MStep 0]%string =
  [EvSub 0 "a"; EvSend 0 0 "a" 7; EvCloseR 0; EvPut 0 "a" 0 7]%string.
Proof. by vm_compute. Qed.
(** A sender that was closed, and a receiver that was. *)
Example C68_closed_example : mevents [MNewReceiver "a" 0; MSubscribe 0; MNewSender "a"; MCloseS 0; MSend 0 7; MStep 0; MCloseR 0; MNextClosed 0; MNext 0 true]%string =
  [EvSub 0 "a"; EvCloseS 0; EvSend 0 0 "a" 7; EvSent 0 "a" MClosed; EvCloseR 0; EvNone 0; EvNone 0]%string.
Proof. by vm_compute. Qed.
Print Assumptions C68_closed_sender.
Print Assumptions C68_next_error.
Print Assumptions C68_fifo.
Print Assumptions C68_available.
Print Assumptions C68_handed_over.
Print Assumptions C68_reaches_all.
Print Assumptions C68_failed.
Print Assumptions C68_same_order.
Print Assumptions C68_waits.
Print Assumptions C68_wakes.
Print Assumptions C68_progress.
Print Assumptions C68_after_close.

(** ** C69 *)
(** Nobody is there, and Send succeeds. *)
Theorem C69_refuted : exists ls s evs, mrun m_init ls = Some (s, evs) /\ EvSent 0 "a" MOk ∈ evs /\ forall r m, EvPut 0 "a" r m ∉ evs.
Proof.
  exists [MNewReceiver "a" 0; MSubscribe 0; MCloseR 0; MNewSender "a"; MSend 0 7; MStep 0; MStep 0; MStep 0; MStep 0]%string. eexists _, _. split; [vm_compute; reflexivity|]. split.
  - do 3 right. left.
  - intros r m H. rewrite !elem_of_cons, elem_of_nil in H. destruct_or! H; try discriminate H; done.
Qed.
(** It succeeds only after reaching a receiver of the address or passing over
    one that has been closed; with none closed it reached one. *)
Theorem C69_reached ls s evs a i ad b : mrun m_init ls = Some (s, evs) -> evs = a ++ EvSent i ad MOk :: b ->
  exists r, EvSub r ad ∈ a /\ ((exists m, EvPut i ad r m ∈ a) \/ EvCloseR r ∈ a).
Proof. intros Hr E. destruct (lawful_mock _ _ _ _ _ _ Hr E) as ((n & m & r & _ & H & [H2|H2]) & _); exists r; (split; [done|]); [left; by exists m|by right]. Qed.
Example C69_example : exists ls s evs, mrun m_init ls = Some (s, evs) /\ EvSent 0 "a" MOk ∈ evs /\ EvPut 0 "a" 1 7 ∈ evs /\ EvCloseR 0 ∈ evs.
Proof.
  exists [MNewReceiver "a" 0; MSubscribe 0; MCloseR 0; MNewReceiver "a" 0; MSubscribe 1; MNewSender "a"; MSend 0 7; MStep 0; MStep 0; MStep 0; MStep 0; MStep 0; MStep 0]%string. eexists _, _.
  split; [vm_compute; reflexivity|]. split; [do 5 right; left|]. split; [do 4 right; left|right; left].
Qed.
Print Assumptions C69_refuted.
Print Assumptions C69_reached.

(** ** C79: receivers that are not read *)
(** While a Send waits for room at receiver [r], and nobody calls Next on [r]: the
    Send does not return, nobody is handed a message of the address, and nobody can
    subscribe to it, whatever is cancelled or closed. *)
Theorem C79_blocked ls s evs ls' s2 ev i c v r rem : mrun m_init ls = Some (s, evs) -> m_calls s !! i = Some c -> k_pc c = SPut v r rem -> full s r ->
  MNext r false ∉ ls' -> mrun s ls' = Some (s2, ev) ->
  Forall (fun e => match e with EvSent j _ _ => j <> i | EvPut _ ad _ _ | EvSub _ ad => ad <> k_addr c | _ => True end) ev.
Proof. exact (blocked_address ls s evs ls' s2 ev i c v r rem). Qed.
(** A receiver is full when as many messages wait in it as the credit it was made
    with, 256 if that was not positive. *)
Theorem C79_full_iff ls s evs r : mrun m_init ls = Some (s, evs) ->
  full s r <-> exists a c, receivers ls !! r = Some (a, c) /\ length (puts r evs) = length (gots r evs) + (if (c <=? 0)%Z then 256 else Z.to_nat c).
Proof. exact (full_iff ls s evs r). Qed.
(** Receiver 0 is full and closed, the Send's context has ended, and only Next on
    the closed receiver could let Send return. *)
Definition ex_slow : list mlabel :=
  [MNewReceiver "a" 1; MSubscribe 0; MNewSender "a"; MSend 0 7; MStep 0; MStep 0; MStep 0; MStep 0; MStep 0; MSend 0 8; MStep 1; MStep 1; MStep 1; MEndCtx 1; MCloseR 0]%string.
Theorem C79_refuted : exists ls s evs, mrun m_init ls = Some (s, evs) /\ MEndCtx 1 ∈ ls /\ EvCloseR 0 ∈ evs /\ EvSend 1 0 "a" 8 ∈ evs /\
  forall ls' s2 ev, mrun s ls' = Some (s2, ev) -> MNext 0 false ∉ ls' -> forall ad x, EvSent 1 ad x ∉ evs ++ ev.
Proof.
  assert (H : exists s c, mrun m_init ex_slow = Some (s, mevents ex_slow) /\ m_calls s !! 1 = Some c /\ k_pc c = SPut 1 0 [] /\ full s 0).
  { eexists _, _. split; [vm_compute; reflexivity|]. split; [reflexivity|]. split; [reflexivity|]. eexists. split; reflexivity. }
  destruct H as (s & c & Hr & Hc & Hp & Hf). exists ex_slow, s, (mevents ex_slow). split; [exact Hr|]. split; [do 13 right; left|].
  assert (E : mevents ex_slow = [EvSub 0 "a"; EvSend 0 0 "a" 7; EvPut 0 "a" 0 7; EvSent 0 "a" MOk; EvSend 1 0 "a" 8; EvCloseR 0]%string) by (vm_compute; reflexivity).
  split; [rewrite E; do 5 right; left|]. split; [rewrite E; do 4 right; left|]. intros ls' s2 ev Hr2 Hn ad x Hin. apply elem_of_app in Hin as [Hin|Hin].
  - rewrite E, !elem_of_cons, elem_of_nil in Hin. destruct_or! Hin; try discriminate Hin; done.
  - pose proof (C79_blocked _ _ _ _ _ _ _ _ _ _ _ Hr Hc Hp Hf Hn Hr2) as HF. rewrite Forall_forall in HF. by destruct (HF _ Hin).
Qed.
Example C79_example : exists s c, mrun m_init ex_slow = Some (s, mevents ex_slow) /\ m_calls s !! 1 = Some c /\ k_pc c = SPut 1 0 [] /\ full s 0.
Proof. eexists _, _. split; [vm_compute; reflexivity|]. split; [reflexivity|]. split; [reflexivity|]. eexists. split; reflexivity. Qed.
Print Assumptions C79_blocked.
Print Assumptions C79_full_iff.
Print Assumptions C79_refuted.
