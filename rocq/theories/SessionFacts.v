(** Facts about the session container and its links. *)
From Coq Require Import ZArith NArith Ascii String Lia.
From stdpp Require Import base gmap strings list.
From Verif Require Import GoBase Run Session.

Local Open Scope list_scope.

(** ** Specification *)

(** The sessions established, with their generations, and those closed. *)
Definition ests (evs : list cev) : list (nat * nat) := omap (fun e => match e with EvEst g sid => Some (g, sid) | _ => None end) evs.
Definition tears (evs : list cev) : list nat := omap (fun e => match e with EvTear sid => Some sid | _ => None end) evs.
Definition conns (evs : list cev) : list nat := omap (fun e => match e with EvConn sid => Some sid | _ => None end) evs.
(** The generations for which link [l] reported an error. *)
Definition reports (l : nat) (evs : list cev) : list nat :=
  omap (fun e => match e with EvReport _ l' g => if l' =? l then Some g else None | _ => None end) evs.
(** The generations on which link [l] used the network. *)
Definition uses (l : nat) (evs : list cev) : list nat :=
  omap (fun e => match e with EvUse _ l' _ g | EvNew _ l' _ g => if l' =? l then Some g else None | _ => None end) evs.

(** A link used by one goroutine: a call starts when the earlier ones have
    returned; Close may be called at any time. *)
Definition serial (l : nat) (evs : list cev) : Prop := forall a i k b, evs = a ++ EvCall i l k :: b -> k <> KClose ->
  forall i' k', EvCall i' l k' ∈ a -> k' <> KClose -> exists r, EvRet i' l k' r ∈ a.
(** The same, with Close as one of the calls. *)
Definition alone (l : nat) (evs : list cev) : Prop := forall a i k b, evs = a ++ EvCall i l k :: b ->
  forall i' k', EvCall i' l k' ∈ a -> exists r, EvRet i' l k' r ∈ a.

(** ** Tools *)

Definition each (P : list cev -> cev -> Prop) (evs : list cev) : Prop := forall a e b, evs = a ++ e :: b -> P a e.
Lemma each_nil P : each P [].
Proof. intros a e b H. by destruct a. Qed.
Lemma each_snoc P evs e : each P evs -> P evs e -> each P (evs ++ [e]).
Proof.
  intros H HP a x b E. destruct (decide (b = [])) as [->|Hb].
  - apply app_inj_tail in E as [-> ->]. done.
  - destruct (exists_last Hb) as (b' & y & ->). replace (a ++ x :: b' ++ [y]) with ((a ++ x :: b') ++ [y]) in E by (by rewrite <-app_assoc).
    apply app_inj_tail in E as [E _]. by apply (H a x b').
Qed.
Lemma each_app_l P a b : each P (a ++ b) -> each P a.
Proof. intros H x e y ->. apply (H x e (y ++ b)). by rewrite <-app_assoc. Qed.
Lemma serial_app_l l a b : serial l (a ++ b) -> serial l a.
Proof. intros H x i k y -> Hk. apply (H x i k (y ++ b)); [by rewrite <-app_assoc|done]. Qed.
Lemma alone_app_l l a b : alone l (a ++ b) -> alone l a.
Proof. intros H x i k y ->. apply (H x i k (y ++ b)). by rewrite <-app_assoc. Qed.
Lemma alone_serial l evs : alone l evs -> serial l evs.
Proof. intros H a i k b -> Hk i' k' Hc _. by apply (H a i k b eq_refl). Qed.

Lemma ests_app a b : ests (a ++ b) = ests a ++ ests b.
Proof. apply omap_app. Qed.
Lemma tears_app a b : tears (a ++ b) = tears a ++ tears b.
Proof. apply omap_app. Qed.
Lemma conns_app a b : conns (a ++ b) = conns a ++ conns b.
Proof. apply omap_app. Qed.
Lemma reports_app l a b : reports l (a ++ b) = reports l a ++ reports l b.
Proof. apply omap_app. Qed.
Lemma uses_app l a b : uses l (a ++ b) = uses l a ++ uses l b.
Proof. apply omap_app. Qed.
Lemma elem_of_ests evs g sid : (g, sid) ∈ ests evs <-> EvEst g sid ∈ evs.
Proof.
  unfold ests. rewrite elem_of_list_omap. split.
  - intros (e & He & E). destruct e; try done. by injection E as <- <-.
  - intros H. by exists (EvEst g sid).
Qed.
Lemma elem_of_reports evs l g : g ∈ reports l evs <-> exists i, EvReport i l g ∈ evs.
Proof.
  unfold reports. rewrite elem_of_list_omap. split.
  - intros (e & He & E). destruct e; try done. destruct (Nat.eqb_spec l0 l) as [->|]; [|done]. injection E as <-. eauto.
  - intros [i H]. exists (EvReport i l g). split; [done|]. by rewrite Nat.eqb_refl.
Qed.

(** ** Steps of operations, by cases *)

Definition upd (s : cstate) (i : nat) (o : op) (p : opc) (l : lnk) (er ok : list nat) : cstate :=
  CState (c_pc s) (c_local s) (c_prev s) (c_sess s) (c_gen s) (c_lock s) (c_ctx s) er ok
    (<[o_link o := l]> (c_links s)) (<[i := Op (o_link o) (o_kind o) (o_ctx o) p]> (c_ops s)) (c_panic s).
Definition wiped (c b : bool) (l : lnk) : lnk := Lnk c (l_gen l) None (fst (l_rcv l), None) (fst (l_snd l), None) b.
Definition may_retry (o : op) : Prop := o_kind o = KNext /\ o_ctx o = None.
Definition quiet (o : op) (e : lerr) : Prop := e = EClosed \/ exists c, o_ctx o = Some c /\ e = ECtx c.

Inductive ot (s : cstate) (i : nat) (o : op) (l : lnk) : opc -> lnk -> list nat -> list nat -> list cev -> Prop :=
  | OT_close1 : o_pc o = PStart -> o_kind o = KClose -> l_lock l = false -> is_Some (snd (l_rcv l)) ->
      ot s i o l PClosing (wiped true true l) (c_errs s) (c_oks s) []
  | OT_close2 : o_pc o = PStart -> o_kind o = KClose -> l_lock l = false -> snd (l_rcv l) = None ->
      ot s i o l (PDone ROk) (wiped true false l) (c_errs s) (c_oks s) [EvRet i (o_link o) (o_kind o) ROk]
  | OT_isclosed : o_pc o = PStart -> o_kind o <> KClose -> l_lock l = false -> l_closed l = true ->
      ot s i o l (PFail EClosed) l (c_errs s) (c_oks s) []
  | OT_have sid : o_pc o = PStart -> o_kind o <> KClose -> l_lock l = false -> l_closed l = false -> l_curr l = Some sid ->
      ot s i o l PGet l (c_errs s) (c_oks s) []
  | OT_await : o_pc o = PStart -> o_kind o <> KClose -> l_lock l = false -> l_closed l = false -> l_curr l = None ->
      ot s i o l (PAwait (l_gen l)) l (c_errs s) (c_oks s) []
  | OT_wait g : o_pc o = PAwait g -> c_lock s = false -> g = c_gen s ->
      ot s i o l (PWait g (c_gen s)) l (c_errs s) (c_oks s) []
  | OT_got g : o_pc o = PAwait g -> c_lock s = false -> g <> c_gen s ->
      ot s i o l (PGot (c_sess s) (c_gen s)) l (c_errs s) (c_oks s) []
  | OT_woken g n : o_pc o = PWait g n -> n <> c_gen s -> ot s i o l (PAwait g) l (c_errs s) (c_oks s) []
  | OT_waitctx g n c : o_pc o = PWait g n -> o_ctx o = Some c -> ot s i o l (PFail (ECtx c)) l (c_errs s) (c_oks s) []
  | OT_store x g : o_pc o = PGot x g -> l_lock l = false ->
      ot s i o l PGet (Lnk (l_closed l) g x (l_rcv l) (l_snd l) false) (c_errs s) (c_oks s) []
  | OT_reuse ob : o_pc o = PGet -> l_lock l = false -> part (o_kind o) l = (l_gen l, Some ob) ->
      ot s i o l (PUse ob (l_gen l)) l (c_errs s) (c_oks s) [EvUse i (o_link o) ob (l_gen l)]
  | OT_create sid : o_pc o = PGet -> l_lock l = false -> l_curr l = Some sid ->
      ot s i o l PCreate (locked true l) (c_errs s) (c_oks s) [EvNew i (o_link o) sid (l_gen l)]
  | OT_created sid : o_pc o = PCreate -> l_curr l = Some sid ->
      ot s i o l (PUse sid (l_gen l)) (locked false (set_part (o_kind o) (l_gen l, Some sid) l)) (c_errs s) (c_oks s)
        [EvUse i (o_link o) sid (l_gen l)]
  | OT_createfail c : o_pc o = PCreate ->
      ot s i o l (PFail (net_err c)) (locked false l) (c_errs s) (c_oks s) [EvNetErr i (o_link o) (l_gen l)]
  | OT_next ob g : o_pc o = PUse ob g -> o_kind o = KNext ->
      ot s i o l (PDone ROk) l (c_errs s) (c_oks s) [EvRet i (o_link o) (o_kind o) ROk]
  | OT_ok ob g ok : o_pc o = PUse ob g -> o_kind o = KAccept \/ o_kind o = KSend -> ok = c_oks s \/ ok = c_oks s ++ [g] ->
      ot s i o l (PDone ROk) l (c_errs s) ok [EvRet i (o_link o) (o_kind o) ROk]
  | OT_accfail ob g c : o_pc o = PUse ob g -> o_kind o = KAccept ->
      ot s i o l (PDone (RErr (net_err c))) l (c_errs s) (c_oks s) [EvRet i (o_link o) (o_kind o) (RErr (net_err c))]
  | OT_usefail ob g c : o_pc o = PUse ob g -> o_kind o = KNext \/ o_kind o = KSend ->
      ot s i o l (PFail (net_err c)) l (c_errs s) (c_oks s) [EvNetErr i (o_link o) g]
  | OT_failretry : o_pc o = PFail EClosed -> may_retry o -> ot s i o l PStart l (c_errs s) (c_oks s) []
  | OT_failret e : o_pc o = PFail e -> ~ may_retry o -> quiet o e ->
      ot s i o l (PDone (RErr e)) l (c_errs s) (c_oks s) [EvRet i (o_link o) (o_kind o) (RErr e)]
  | OT_fail e : o_pc o = PFail e -> ~ quiet o e -> ot s i o l (PReport (l_gen l) e) l (c_errs s) (c_oks s) []
  | OT_report g e : o_pc o = PReport g e -> length (c_errs s) < errs_cap ->
      ot s i o l (PClear e) l (c_errs s ++ [g]) (c_oks s) [EvReport i (o_link o) g]
  | OT_clearretry e : o_pc o = PClear e -> l_lock l = false -> may_retry o ->
      ot s i o l PStart (wiped (l_closed l) false l) (c_errs s) (c_oks s) []
  | OT_clearret e : o_pc o = PClear e -> l_lock l = false -> ~ may_retry o ->
      ot s i o l (PDone (RErr e)) (wiped (l_closed l) false l) (c_errs s) (c_oks s) [EvRet i (o_link o) (o_kind o) (RErr e)]
  | OT_closed r : o_pc o = PClosing ->
      ot s i o l (PDone r) (locked false l) (c_errs s) (c_oks s) [EvRet i (o_link o) (o_kind o) r].

Inductive ostep (s : cstate) (i : nat) : cstate -> list cev -> Prop :=
  | OS_panic o l : c_ops s !! i = Some o -> c_links s !! o_link o = Some l -> o_pc o = PGet -> l_lock l = false -> l_curr l = None ->
      (forall ob, part (o_kind o) l <> (l_gen l, Some ob)) -> ostep s i (cs_panic s) [EvPanic i (o_link o)]
  | OS_step o l p l' er ok ev : c_ops s !! i = Some o -> c_links s !! o_link o = Some l -> ot s i o l p l' er ok ev ->
      ostep s i (upd s i o p l' er ok) ev.

Definition own (lb : clabel) (i : nat) : Prop := lb = LStep i \/ lb = LWaitCtx i \/ exists r, lb = LNet i r.

Ltac open_step H :=
  repeat match type of H with context [match ?x with _ => _ end] => destruct x eqn:?; try discriminate H end.

Lemma upd_same s i o p l : c_links s !! o_link o = Some l -> set_op i o p s = upd s i o p l (c_errs s) (c_oks s).
Proof. intros H. unfold set_op, cs_ops, upd. f_equal. symmetry. by apply list_insert_id. Qed.


Lemma fails_case s i o l e s2 ev : c_links s !! o_link o = Some l -> fails i o e s = Some (s2, ev) ->
  (may_retry o /\ s2 = upd s i o PStart l (c_errs s) (c_oks s) /\ ev = []) \/
  (~ may_retry o /\ s2 = upd s i o (PDone (RErr e)) l (c_errs s) (c_oks s) /\ ev = [EvRet i (o_link o) (o_kind o) (RErr e)]).
Proof.
  intros Hl H. unfold fails, ret, may_retry in *. rewrite !(upd_same s i o _ l Hl) in H.
  destruct (o_kind o) eqn:Ek, (o_ctx o) eqn:Ec; injection H as <- <-;
    first [left; split; [by split|by split]|right; split; [intros [? ?]; discriminate|by split]].
Qed.

Lemma op_step_ot s i o l s2 ev : c_ops s !! i = Some o -> c_links s !! o_link o = Some l -> op_step s i o l = Some (s2, ev) -> ostep s i s2 ev.
Proof.
  intros Ho Hl H. unfold op_step in H.
  assert (Hs : forall p er ok ev, ot s i o l p l er ok ev -> er = c_errs s -> ok = c_oks s -> ostep s i (set_op i o p s) ev).
  { intros p er ok ev' Ht -> ->. rewrite (upd_same s i o p l Hl). by apply (OS_step s i o l). }
  destruct (o_pc o) eqn:Ep; try discriminate H.
  - destruct (l_lock l) eqn:Ek; [discriminate H|]. destruct (o_kind o) eqn:Eo.
    4: { destruct (snd (l_rcv l)) eqn:Er; unfold ret in H; injection H as <- <-.
         - apply (OS_step s i o l PClosing (wiped true true l) (c_errs s) (c_oks s)); [done|done|]. apply OT_close1; done || (by rewrite Er).
         - apply (OS_step s i o l (PDone ROk) (wiped true false l) (c_errs s) (c_oks s)); [done|done|]. by apply OT_close2. }
    all: destruct (l_closed l) eqn:Ec; [|destruct (l_curr l) eqn:Eu]; injection H as <- <-; (eapply Hs; [|reflexivity|reflexivity]).
    all: first [apply OT_isclosed; congruence|eapply OT_have; first [eassumption|congruence]|apply OT_await; congruence].
  - destruct (c_lock s) eqn:Ek; [discriminate H|]. destruct (Nat.eqb_spec g (c_gen s)); injection H as <- <-; (eapply Hs; [|reflexivity|reflexivity]).
    + by eapply OT_wait. + by eapply OT_got.
  - destruct (Nat.eqb_spec n (c_gen s)); [discriminate H|]. injection H as <- <-. eapply Hs; [|reflexivity|reflexivity]. by eapply OT_woken.
  - destruct (l_lock l) eqn:Ek; [discriminate H|]. injection H as <- <-.
    apply (OS_step s i o l PGet (Lnk (l_closed l) g s0 (l_rcv l) (l_snd l) false) (c_errs s) (c_oks s)); [done|done|]. by eapply OT_store.
  - destruct (l_lock l) eqn:Ek; [discriminate H|].
    assert (Hmk : (forall ob, part (o_kind o) l <> (l_gen l, Some ob)) -> match l_curr l with
               | Some sid => Some (set_op i o PCreate (set_link (o_link o) (locked true l) s), [EvNew i (o_link o) sid (l_gen l)])
               | None => Some (cs_panic s, [EvPanic i (o_link o)])
               end = Some (s2, ev) -> ostep s i s2 ev).
    { intros Hne H'. destruct (l_curr l) eqn:Eu; injection H' as <- <-.
      - apply (OS_step s i o l PCreate (locked true l) (c_errs s) (c_oks s)); [done|done|]. by eapply OT_create.
      - by apply (OS_panic s i o l). }
    destruct (part (o_kind o) l) as [g [ob|]] eqn:Epart.
    + destruct (Nat.eqb_spec g (l_gen l)) as [->|]; [|apply Hmk; [congruence|exact H]].
      injection H as <- <-. eapply Hs; [|reflexivity|reflexivity]. by eapply OT_reuse.
    + apply Hmk; [congruence|exact H].
  - case_bool_decide as Eb; [|case_bool_decide as Ee].
    + destruct Eb as [Hn He]. destruct (o_ctx o) as [c|] eqn:Ec; [|done]. injection He as ->.
      destruct (fails_case _ _ _ _ _ _ _ Hl H) as [(Hm & -> & ->)|(Hm & -> & ->)].
      * destruct Hm. congruence.
      * apply (OS_step s i o l _ l _ _ _ Ho Hl). apply OT_failret; [done|done|]. right. eauto.
    + subst e. destruct (fails_case _ _ _ _ _ _ _ Hl H) as [(Hm & -> & ->)|(Hm & -> & ->)];
        apply (OS_step s i o l _ l _ _ _ Ho Hl); [by apply OT_failretry|apply OT_failret; try done; by left].
    + injection H as <- <-. eapply Hs; [|reflexivity|reflexivity]. eapply OT_fail; [done|]. intros [->|(c & Hc & ->)]; [done|].
      apply Eb. by rewrite Hc.
  - destruct (Nat.ltb_spec (length (c_errs s)) errs_cap); [|discriminate H]. injection H as <- <-.
    assert (set_op i o (PClear e) (cs_errs (c_errs s ++ [g]) s) = upd s i o (PClear e) l (c_errs s ++ [g]) (c_oks s)) as ->.
    { unfold set_op, cs_ops, cs_errs, upd; cbn. f_equal. symmetry. by apply list_insert_id. }
    apply (OS_step s i o l _ l _ _ _ Ho Hl). by apply OT_report.
  - destruct (l_lock l) eqn:Ek; [discriminate H|].
    assert (H' : c_links (set_link (o_link o) (wiped (l_closed l) false l) s) !! o_link o = Some (wiped (l_closed l) false l)).
    { cbn. apply list_lookup_insert. by eapply lookup_lt_Some. }
    assert (Hw : forall p, upd (set_link (o_link o) (wiped (l_closed l) false l) s) i o p (wiped (l_closed l) false l) (c_errs s) (c_oks s) =
                 upd s i o p (wiped (l_closed l) false l) (c_errs s) (c_oks s)).
    { intros p. unfold upd, set_link; cbn. by rewrite list_insert_insert. }
    destruct (fails_case _ _ _ _ _ _ _ H' H) as [(Hm & -> & ->)|(Hm & -> & ->)]; cbn [c_errs c_oks set_link cs_links]; rewrite Hw;
      apply (OS_step s i o l _ _ _ _ _ Ho Hl); [by eapply OT_clearretry|by eapply OT_clearret].
Qed.

Lemma net_step_ot s i o l r s2 ev : c_ops s !! i = Some o -> c_links s !! o_link o = Some l -> net_step s i o l r = Some (s2, ev) -> ostep s i s2 ev.
Proof.
  intros Ho Hl H. unfold net_step in H. destruct (o_pc o) eqn:Ep; try discriminate H.
  - destruct r as [|c].
    + destruct (l_curr l) eqn:Eu; [|discriminate H]. injection H as <- <-.
      apply (OS_step s i o l (PUse n (l_gen l)) (locked false (set_part (o_kind o) (l_gen l, Some n) l)) (c_errs s) (c_oks s) _ Ho Hl). by eapply OT_created.
    + injection H as <- <-. apply (OS_step s i o l (PFail (net_err c)) (locked false l) (c_errs s) (c_oks s) _ Ho Hl). by eapply OT_createfail.
  - assert (Hk : o_kind o = KAccept \/ o_kind o = KSend -> ret i o ROk (report_ok g s) = Some (s2, ev) -> ostep s i s2 ev).
    { intros Hk Hr. unfold ret, report_ok in Hr. destruct (length (c_oks s) <? errs_cap); injection Hr as <- <-.
      - assert (set_op i o (PDone ROk) (cs_oks (c_oks s ++ [g]) s) = upd s i o (PDone ROk) l (c_errs s) (c_oks s ++ [g])) as ->.
        { unfold set_op, cs_ops, cs_oks, upd; cbn. f_equal. symmetry. by apply list_insert_id. }
        apply (OS_step s i o l _ l _ _ _ Ho Hl). eapply OT_ok; eauto.
      - rewrite (upd_same s i o _ l Hl). apply (OS_step s i o l _ l _ _ _ Ho Hl). eapply OT_ok; eauto. }
    assert (Hu := fun p => upd_same s i o p l Hl).
    destruct (o_kind o) eqn:Eo, r as [|c]; try discriminate H; try (apply Hk; [tauto|exact H]);
      unfold ret in H; rewrite Hu in H; injection H as <- <-; apply (OS_step s i o l _ l _ _ _ Ho Hl);
      rewrite <-?Eo; first [by eapply OT_next|by eapply OT_accfail|eapply OT_usefail; [done|tauto]].
  - unfold ret in H. injection H as <- <-.
    apply (OS_step s i o l (PDone match r with NOk => ROk | NErr e => RErr (net_err e) end) (locked false l) (c_errs s) (c_oks s) _ Ho Hl). by eapply OT_closed.
Qed.

(** ** All steps, by cases *)

Inductive sc (s : cstate) (lb : clabel) (s2 : cstate) (ev : list cev) : Prop :=
  | SC_cancel c : lb = LCCancel c -> c_ctx s = None -> ev = [EvCancel] ->
      s2 = CState (c_pc s) (c_local s) (c_prev s) (c_sess s) (c_gen s) (c_lock s) (Some c) (c_errs s) (c_oks s) (c_links s) (c_ops s) (c_panic s) -> sc s lb s2 ev
  | SC_link : lb = LLink -> c_lock s = false -> ev = [EvLink (length (c_links s))] ->
      s2 = cs_links (c_links s ++ [Lnk false (c_gen s) (c_sess s) (0, None) (0, None) false]) s -> sc s lb s2 ev
  | SC_call j k l : lb = LOp j k -> c_links s !! j = Some l -> ev = [EvCall (length (c_ops s)) j k] ->
      s2 = cs_ops (c_ops s ++ [Op j k None PStart]) s -> sc s lb s2 ev
  | SC_ctx i o c : lb = LCtx i c -> c_ops s !! i = Some o -> o_ctx o = None -> ev = [] ->
      s2 = cs_ops (<[i := Op (o_link o) (o_kind o) (Some c) (o_pc o)]> (c_ops s)) s -> sc s lb s2 ev
  | SC_own i : own lb i -> ostep s i s2 ev -> sc s lb s2 ev
  | SC_cont : cont_step s lb = Some (s2, ev) -> (forall i, ~ own lb i) -> sc s lb s2 ev.

(** Every operation is on a link. *)
Definition linked (s : cstate) : Prop := forall i o, c_ops s !! i = Some o -> is_Some (c_links s !! o_link o).

Lemma sstep_sc s lb s2 ev : linked s -> sstep s lb = Some (s2, ev) -> sc s lb s2 ev /\ c_panic s = false.
Proof.
  intros HL H. unfold sstep in H. destruct (c_panic s) eqn:Epan; [discriminate H|]. split; [|done].
  destruct lb; try (apply SC_cont; [exact H|by intros j [?|[?|[? ?]]]]).
  - destruct (c_ctx s) eqn:Ec; [discriminate H|]. injection H as <- <-. eapply SC_cancel; try done. by rewrite Epan.
  - destruct (c_lock s) eqn:Ec; [discriminate H|]. injection H as <- <-. by eapply SC_link.
  - destruct (c_links s !! l) eqn:Ec; [|discriminate H]. injection H as <- <-. by eapply SC_call.
  - destruct (c_ops s !! i) as [o|] eqn:Ec; [|discriminate H]. destruct (o_ctx o) eqn:Ex; [discriminate H|]. injection H as <- <-. by eapply SC_ctx.
  - destruct (c_ops s !! i) as [o|] eqn:Ec; [|discriminate H]. destruct (c_links s !! o_link o) as [l|] eqn:El; [|discriminate H].
    apply (SC_own _ _ _ _ i); [by left|]. by eapply op_step_ot.
  - destruct (c_ops s !! i) as [o|] eqn:Ec; [|discriminate H]. destruct (HL i o Ec) as [l Hl].
    destruct (o_pc o) eqn:Ep; try discriminate H. destruct (o_ctx o) eqn:Ex; [|discriminate H]. injection H as <- <-.
    apply (SC_own _ _ _ _ i); [right; by left|]. rewrite (upd_same s i o _ l Hl). apply (OS_step s i o l _ l _ _ _ Ec Hl). by eapply OT_waitctx.
  - destruct (c_ops s !! i) as [o|] eqn:Ec; [|discriminate H]. destruct (c_links s !! o_link o) as [l|] eqn:El; [|discriminate H].
    apply (SC_own _ _ _ _ i); [right; right; eauto|]. by eapply net_step_ot.
Qed.

Lemma linked_step s lb s2 ev : linked s -> sstep s lb = Some (s2, ev) -> linked s2.
Proof.
  intros HL H. destruct (sstep_sc _ _ _ _ HL H) as [Hc _].
  destruct Hc as [c|?|j k l ? Hl|i0 o0 c ? Ho|i0 ? Ho|Hc].
  - subst s2. exact HL.
  - subst s2. intros i o Hi. destruct (HL i o Hi) as [l Hl]. exists l. cbn. by apply lookup_app_l_Some.
  - subst s2. intros i o Hi. cbn in *. apply lookup_app_Some in Hi as [Hi|[_ Hi]]; [by apply (HL i)|]. apply list_lookup_singleton_Some in Hi as [_ <-]. cbn. rewrite Hl. by eexists.
  - subst s2. intros i o Hi. cbn in *. apply list_lookup_insert_Some in Hi as [(-> & <- & _)|[_ Hi]]; [by apply (HL i o0)|by apply (HL i)].
  - destruct Ho as [?|o l p l' er ok ev' Ho Hl _]; [exact HL|]. intros i1 o1 Hi. unfold upd in *; cbn in *.
    assert (is_Some (c_links s !! o_link o1)) as Hs.
    { apply list_lookup_insert_Some in Hi as [(-> & <- & _)|[_ Hi]]; [by apply (HL i1 o)|by apply (HL i1)]. }
    apply lookup_lt_is_Some. rewrite insert_length. by apply lookup_lt_is_Some.
  - intros i o. assert (c_ops s2 = c_ops s /\ c_links s2 = c_links s) as [-> ->]; [|by apply HL].
    unfold cont_step in Hc. destruct lb, (c_pc s); try discriminate Hc; open_step Hc; injection Hc as <- <-; done.
Qed.

(** ** Sessions, generations and what links hold *)

Definition op_ok (s : cstate) (evs : list cev) (o : op) : Prop :=
  match o_pc o with
  | PAwait g | PReport g _ => g <= c_gen s
  | PWait g n => g = n /\ n <= c_gen s
  | PGot x g => exists sid, x = Some sid /\ (g, sid) ∈ ests evs
  | PUse ob g => (g, ob) ∈ ests evs
  | _ => True
  end.
Definition link_ok (s : cstate) (evs : list cev) (l : lnk) : Prop :=
  l_gen l <= c_gen s /\ (forall sid, l_curr l = Some sid -> (l_gen l, sid) ∈ ests evs) /\
  (forall g sid, l_rcv l = (g, Some sid) -> (g, sid) ∈ ests evs) /\ (forall g sid, l_snd l = (g, Some sid) -> (g, sid) ∈ ests evs).

Record GInv (s : cstate) (evs : list cev) : Prop := {
  gi_linked : linked s;
  gi_gens : fst <$> ests evs = seq 1 (c_gen s);
  gi_sess : c_sess s = snd <$> last (ests evs);
  gi_local : c_local s = match c_pc s with CPublish _ => S (c_gen s) | _ => c_gen s end;
  gi_link : forall j l, c_links s !! j = Some l -> link_ok s evs l;
  gi_op : forall i o, c_ops s !! i = Some o -> op_ok s evs o;
  gi_errs : Forall (fun h => h <= c_gen s /\ exists i l, EvReport i l h ∈ evs) (c_errs s);
}.

Lemma gens_in s evs g sid : GInv s evs -> (g, sid) ∈ ests evs -> 1 <= g <= c_gen s.
Proof.
  intros HI Hin. apply (elem_of_list_fmap_1 fst) in Hin. rewrite (gi_gens _ _ HI) in Hin. apply elem_of_seq in Hin. cbn in Hin. lia.
Qed.

Lemma gens_unique s evs g sid sid' : GInv s evs -> (g, sid) ∈ ests evs -> (g, sid') ∈ ests evs -> sid = sid'.
Proof.
  intros HI H1 H2. apply elem_of_list_lookup in H1 as [i H1]. apply elem_of_list_lookup in H2 as [k H2].
  assert (Hx : forall n g x, ests evs !! n = Some (g, x) -> g = S n).
  { intros n g' x Hn. assert (Hf : (fst <$> ests evs) !! n = Some g') by (by rewrite list_lookup_fmap, Hn).
    rewrite (gi_gens _ _ HI) in Hf. apply lookup_seq in Hf. lia. }
  pose proof (Hx _ _ _ H1). pose proof (Hx _ _ _ H2). assert (i = k) as -> by lia. congruence.
Qed.

Lemma newest_sess s evs : GInv s evs -> c_gen s <> 0 -> exists sid, c_sess s = Some sid /\ (c_gen s, sid) ∈ ests evs.
Proof.
  intros HI Hg. rewrite (gi_sess _ _ HI). pose proof (gi_gens _ _ HI) as Hf.
  destruct (c_gen s) as [|n] eqn:En; [done|]. rewrite seq_S in Hf. cbn in Hf.
  apply fmap_app_inv in Hf as (a & b & Ha & Hb & He). destruct b as [|[g sid] [|]]; try done. injection Hb as ->.
  exists sid. rewrite He, last_snoc. split; [done|]. apply elem_of_app. right. left.
Qed.

Lemma op_ok_mono s evs s2 ev o : op_ok s evs o -> c_gen s <= c_gen s2 -> op_ok s2 (evs ++ ev) o.
Proof.
  unfold op_ok. intros H Hg. destruct (o_pc o); try done; rewrite ?ests_app.
  - lia.
  - lia.
  - destruct H as (sid & -> & H). exists sid. split; [done|]. apply elem_of_app. by left.
  - apply elem_of_app. by left.
  - lia.
Qed.
Lemma link_ok_mono s evs s2 ev l : link_ok s evs l -> c_gen s <= c_gen s2 -> link_ok s2 (evs ++ ev) l.
Proof.
  unfold link_ok. intros (H1 & H2 & H3 & H4) Hg. rewrite ests_app. split; [lia|].
  split_and!; intros; apply elem_of_app; left; eauto.
Qed.
Lemma errs_mono n evs n2 ev er : Forall (fun h => h <= n /\ exists i l, EvReport i l h ∈ evs) er -> n <= n2 ->
  Forall (fun h => h <= n2 /\ exists i l, EvReport i l h ∈ evs ++ ev) er.
Proof. intros H Hg. eapply Forall_impl; [exact H|]. intros h (Hh & i & l & Hin). split; [lia|]. exists i, l. apply elem_of_app. by left. Qed.

Lemma GInv_init : GInv c_init [].
Proof. by split; cbn. Qed.

Lemma wiped_ok s evs c b l : link_ok s evs l -> link_ok s evs (wiped c b l).
Proof. intros (H1 & _). repeat split; cbn; try done; intros; naive_solver. Qed.

Lemma ot_facts s i o l p l' er ok ev evs : GInv s evs -> c_links s !! o_link o = Some l -> c_ops s !! i = Some o -> ot s i o l p l' er ok ev ->
  op_ok s evs (Op (o_link o) (o_kind o) (o_ctx o) p) /\ link_ok s evs l' /\ ests ev = [] /\
  (er = c_errs s \/ exists g, er = c_errs s ++ [g] /\ g <= c_gen s /\ ev = [EvReport i (o_link o) g]).
Proof.
  intros HI Hl Ho Ht. pose proof (gi_link _ _ HI _ _ Hl) as Hlk. pose proof (gi_op _ _ HI _ _ Ho) as Hop. unfold op_ok in *; cbn [o_pc].
  destruct Ht;
    repeat match goal with
    | H : o_pc o = _ |- _ => rewrite H in Hop; clear H
    end; (split; [|split; [|split; [done|]]]); try done; try (by left); try (by apply wiped_ok);
    try (destruct Hlk as (H1 & H2 & H3 & H4); done).
  - apply Hlk.
  - assert (Hne : c_gen s <> 0) by lia. destruct (newest_sess _ _ HI Hne) as (sid & ? & ?). eauto.
  - lia.
  - destruct Hop as (sid & -> & Hin). destruct Hlk as (_ & _ & H3 & H4). pose proof (gens_in _ _ _ _ HI Hin). repeat split; cbn; try done; [lia|naive_solver].
  - destruct Hlk as (_ & _ & H3 & H4). destruct (o_kind o); cbn in *; eauto.
  - destruct Hlk as (_ & H2 & _). by apply H2.
  - destruct Hlk as (H1 & H2 & H3 & H4). unfold set_part, locked. destruct (o_kind o); repeat split; cbn; try done; intros g0 sid0 [= <- <-]; by apply H2.
  - right. eauto.
Qed.

Lemma GInv_step s evs lb s2 ev : GInv s evs -> sstep s lb = Some (s2, ev) -> GInv s2 (evs ++ ev).
Proof.
  intros HI H. pose proof (linked_step _ _ _ _ (gi_linked _ _ HI) H) as HL2.
  destruct (sstep_sc _ _ _ _ (gi_linked _ _ HI) H) as [Hc _].
  assert (Hgen : c_gen s <= c_gen s2 -> ests ev = [] -> c_gen s2 = c_gen s -> c_sess s2 = c_sess s ->
     c_local s2 = match c_pc s2 with CPublish _ => S (c_gen s2) | _ => c_gen s2 end ->
     (forall j l, c_links s2 !! j = Some l -> link_ok s evs l) -> (forall i o, c_ops s2 !! i = Some o -> op_ok s evs o) ->
     Forall (fun h => h <= c_gen s2 /\ exists i l, EvReport i l h ∈ evs ++ ev) (c_errs s2) -> GInv s2 (evs ++ ev)).
  { intros Hle He Hg Hs Hlo Hlk Hop Her. split; try done.
    - by rewrite ests_app, He, app_nil_r, Hg, (gi_gens _ _ HI).
    - by rewrite ests_app, He, app_nil_r, Hs, (gi_sess _ _ HI).
    - intros j l Hj. eapply link_ok_mono; [by eapply Hlk|lia].
    - intros i o Hi. eapply op_ok_mono; [by eapply Hop|lia]. }
  destruct Hc as [c ? ? -> ->|? ? -> ->|j k l ? Hl -> ->|i0 o0 c ? Ho ? -> ->|i0 ? Ho|Hc].
  - apply Hgen; try done; try apply HI. eapply errs_mono; [apply HI|done].
  - apply Hgen; try done; try apply HI; [|eapply errs_mono; [apply HI|done]].
    intros j l Hj. cbn in Hj. apply lookup_app_Some in Hj as [Hj|[_ Hj]]; [by eapply HI|]. apply list_lookup_singleton_Some in Hj as [_ <-].
    split; [done|]. split_and!; cbn; try done. intros sid Hs.
    destruct (decide (c_gen s = 0)) as [Hz|Hz].
    + pose proof (gi_gens _ _ HI) as Hg. rewrite Hz in Hg. cbn in Hg. apply fmap_nil_inv in Hg. pose proof (gi_sess _ _ HI) as Hx. rewrite Hg in Hx. cbn in Hx. congruence.
    + destruct (newest_sess _ _ HI Hz) as (x & Hx & Hin). congruence.
  - apply Hgen; try done; try apply HI; [|eapply errs_mono; [apply HI|done]].
    intros i o Hi. cbn in Hi. apply lookup_app_Some in Hi as [Hi|[_ Hi]]; [by eapply HI|]. apply list_lookup_singleton_Some in Hi as [_ <-]. done.
  - apply Hgen; try done; try apply HI; [|eapply errs_mono; [apply HI|done]].
    intros i o Hi. cbn in Hi. apply list_lookup_insert_Some in Hi as [(-> & <- & _)|[_ Hi]]; [|by eapply HI].
    by apply (gi_op _ _ HI i o0).
  - destruct Ho as [?|o l p l' er ok ev' Ho Hl Ht].
    + apply Hgen; try done; try apply HI. eapply errs_mono; [apply HI|done].
    + destruct (ot_facts _ _ _ _ _ _ _ _ _ _ HI Hl Ho Ht) as (Hop & Hlk & He & Her). apply Hgen; try done; try apply HI.
      * intros j l1 Hj. unfold upd in Hj; cbn in Hj. apply list_lookup_insert_Some in Hj as [(<- & <- & _)|[_ Hj]]; [done|by eapply HI].
      * intros i1 o1 Hi. unfold upd in Hi; cbn in Hi. apply list_lookup_insert_Some in Hi as [(-> & <- & _)|[_ Hi]]; [done|by eapply HI].
      * cbn. destruct Her as [->|(g & -> & Hg & ->)]; [eapply errs_mono; [apply HI|done]|]. apply Forall_app. split; [eapply errs_mono; [apply HI|done]|].
        repeat constructor; [done|]. exists i0, (o_link o). apply elem_of_app. right. left.
  - pose proof (gi_local _ _ HI) as Hlo. pose proof (gi_errs _ _ HI) as Her.
    unfold cont_step in Hc. destruct lb, (c_pc s) eqn:Epc; try discriminate Hc; open_step Hc; injection Hc as <- <-.
    all: try (apply Hgen; try done; try apply HI; cbn; try (by rewrite ?Epc); try (eapply errs_mono; [apply HI|done]); by rewrite Hlo).
    + split; try done; rewrite ?ests_app; cbn.
      * rewrite fmap_app, (gi_gens _ _ HI), Hlo, seq_S. done.
      * by rewrite last_snoc.
      * intros j l Hj. eapply link_ok_mono; [by eapply HI|cbn; lia].
      * intros i o Hi. eapply op_ok_mono; [by eapply HI|cbn; lia].
      * eapply errs_mono; [apply HI|cbn; lia].
    + apply Hgen; try done; try apply HI. cbn. eapply errs_mono; [|done]. by apply Forall_cons in Her as [_ Her].
    + apply Hgen; try done; try apply HI; cbn; try (by rewrite Epc). eapply errs_mono; [|done]. by apply Forall_cons in Her as [_ Her].
Qed.

Lemma ginv ls s evs : srun c_init ls = Some (s, evs) -> GInv s evs.
Proof.
  intros Hr. eapply (run_inv sstep GInv (fun _ => True) c_init []) with (4 := Hr).
  - exact GInv_init.
  - intros. by eapply GInv_step.
  - by apply Forall_true.
Qed.
