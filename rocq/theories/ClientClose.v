(** Closing a client, and FlushOnFirstMessage. *)
From Coq Require Import ZArith NArith Ascii String Lia.
From stdpp Require Import base gmap strings list.
From Verif Require Import GoBase Encoding SpecEncoding Records Messages SpecMessages MessageFacts Run Keepalive Client ClientFacts.

Local Open Scope list_scope.
Local Opaque decode_msg encode_flush.

(** ** Steps, once more *)

(** What a step does to the fields Close depends on. *)
Inductive close_step (s s' : cstate) (lb : clabel) (ev : list cev) : Prop :=
  | cs_begin : lb = LCloseBegin -> ev = [CCloseCall] -> c_close s = ClNone -> c_done s = false -> c_close s' = ClBegun ->
      c_done s' = true -> c_adding s' = c_adding s -> c_crashed s' = false -> close_step s s' lb ev
  | cs_again : lb = LCloseBegin -> ev = [CCloseCall; CPanic] -> c_close s = ClNone -> c_done s = true -> s' = cs_crashed s -> close_step s s' lb ev
  | cs_return : (lb = LCloseWait /\ c_close s = ClBegun \/ lb = LCloseWake /\ c_close s = ClWoken) -> ev = [CClosed] ->
      c_wg s = 0%Z -> s' = cs_close ClNone s -> close_step s s' lb ev
  | cs_wait : lb = LCloseWait -> ev = [] -> c_close s = ClBegun -> c_wg s <> 0%Z -> s' = cs_close ClWaiting s -> close_step s s' lb ev
  | cs_reuse : lb = LCloseWake -> ev = [CPanic] -> c_close s = ClWoken -> c_wg s <> 0%Z -> s' = cs_crashed s -> close_step s s' lb ev
  | cs_add : lb = LListenAdd -> ev = [] -> c_close s' = c_close s -> c_done s' = c_done s -> c_adding s' = S (c_adding s) ->
      c_listeners s' = c_listeners s -> c_crashed s' = false -> close_step s s' lb ev
  | cs_listen : c_close s = ClNone -> c_close s' = ClNone -> c_done s' = c_done s -> c_adding s = S (c_adding s') ->
      (exists p, lb = LListen p) -> Forall (fun e => match e with CListening _ _ _ => True | _ => False end) ev -> c_crashed s' = false -> close_step s s' lb ev
  | cs_listener i l : c_listeners s !! i = Some l -> listener_step s i l lb = Some (s', ev) -> close_step s s' lb ev
  | cs_other : c_close s' = c_close s -> c_done s' = c_done s -> c_adding s' = c_adding s -> c_crashed s' = false ->
      match lb with LReg _ _ | LCancelCtx _ | LSendFlush | LFlush | LFlushReg _ | LFlushCancel _ | LFlushTake _ | LFlushCtx _ | LFlushSent _ => True | _ => False end ->
      Forall (fun e => match e with CReg _ _ | CFlush _ _ _ | CFlushRet _ _ | CFlushStart _ => True | _ => False end) ev -> close_step s s' lb ev.

Lemma close_cases c s lb s' ev : cstep c s lb = Some (s', ev) -> close_step s s' lb ev.
Proof.
  intros Hs. pose proof (crashed_false _ _ _ _ _ Hs) as Hc. unfold cstep in Hs. rewrite Hc in Hs.
  assert (forall i, match c_listeners s !! i with Some l => listener_step s i l lb | None => None end = Some (s', ev) -> close_step s s' lb ev) as Hlis.
  { intros i H. destruct (c_listeners s !! i) as [l|] eqn:El; [|done]. by eapply cs_listener. }
  assert (forall f, match lb with LFlushReg _ | LFlushCancel _ | LFlushTake _ | LFlushCtx _ | LFlushSent _ => True | _ => False end ->
    match c_flushes s !! f with Some x => flush_step c s f x lb | None => None end = Some (s', ev) -> close_step s s' lb ev) as Hfl.
  { intros f Hlb H. destruct (c_flushes s !! f) as [x|]; [|done]. destruct (flush_same _ _ _ _ _ _ _ H) as (E1 & E2 & E3 & E4 & E5 & E6 & HF).
    apply cs_other; [done|done|done|by rewrite E6| |].
    - by destruct lb.
    - eapply Forall_impl; [exact HF|]. intros e. by destruct e. }
  destruct lb; try (by eapply Hlis); try (by eapply Hfl).
  - destruct (unlocked s); [|done]. injection Hs as <- <-. apply cs_other; try (by destruct k); (done || (repeat constructor)).
  - injection Hs as <- <-. by apply cs_add.
  - destruct (c_adding s) as [|n] eqn:Ea; [done|]. destruct (unlocked s) eqn:Eu; [|done]. injection Hs as <- <-.
    assert (c_close s = ClNone) as Ecl by (unfold unlocked in Eu; by destruct (c_close s)). apply cs_listen; try done.
    + by exists p.
    + repeat constructor.
  - injection Hs as <- <-. apply cs_other; (done || constructor).
  - destruct (unlocked s) eqn:Eu; [|done]. assert (c_close s = ClNone) as Ecl by (unfold unlocked in Eu; by destruct (c_close s)).
    destruct (c_done s) eqn:Ed; injection Hs as <- <-; [by apply cs_again|by apply cs_begin].
  - destruct (c_close s) eqn:Ecl; try done. destruct (_ =? _)%Z eqn:Ez; injection Hs as <- <-.
    + apply cs_return; [by left|done|by apply Z.eqb_eq|done].
    + apply cs_wait; try done. by apply Z.eqb_neq.
  - destruct (c_close s) eqn:Ecl; try done. destruct (_ =? _)%Z eqn:Ez; injection Hs as <- <-.
    + apply cs_return; [by right|done|by apply Z.eqb_eq|done].
    + apply cs_reuse; try done. by apply Z.eqb_neq.
  - injection Hs as <- <-. apply cs_other; (done || (repeat constructor)).
  - injection Hs as <- <-. apply cs_other; (done || (repeat constructor)).
Qed.

Lemma moves_no_close s i p q ev : moves s i p q ev -> ~ CClosed ∈ ev /\ ~ CCloseCall ∈ ev.
Proof. intros Hm. destruct Hm; set_solver. Qed.

Ltac not_in H := exfalso; repeat (apply elem_of_cons in H as [H|H]; [discriminate H|]); by apply elem_of_nil in H.

(** ** Nothing runs after Close *)

Definition after_inv (s : cstate) (evs : list cev) : Prop :=
  (forall i ad cr, CListening i ad cr ∈ evs -> i < length (c_listeners s)) /\
  (forall a b, evs = a ++ CClosed :: b -> forall i ad cr, CListening i ad cr ∈ a ->
     pc_of s i = Some LEnded /\ Forall (fun e => of_listener i e = false) b).

Lemma in_split_app {A} (x : A) evs ev a b : evs ++ ev = a ++ x :: b ->
  (exists b1, evs = a ++ x :: b1 /\ b = b1 ++ ev) \/ (exists a1, a = evs ++ a1 /\ ev = a1 ++ x :: b).
Proof.
  intros E. apply app_eq_app in E as [l [[-> E]|[-> E]]].
  - destruct l as [|y l]; [right; exists []; cbn in E; rewrite !app_nil_r; by split|]. left. injection E as <- ->. by exists l.
  - right. by exists l.
Qed.

Lemma after_step c s evs lb s' ev : wg_inv s -> after_inv s evs -> cstep c s lb = Some (s', ev) -> after_inv s' (evs ++ ev).
Proof.
  intros Hw [H1 H2] Hs. pose proof (step_cases _ _ _ _ _ Hs) as Hc.
  assert (length (c_listeners s) <= length (c_listeners s')) as Hlen.
  { destruct Hc as [Hq|[(ad & -> & El)|(j & l & q & Hl & Hst & _)]].
    - destruct (decide (length (c_listeners s) = 0)) as [E0|E0]; [lia|]. destruct (Hq (length (c_listeners s) - 1)) as [E _].
      unfold pc_of in E. destruct (lookup_lt_is_Some_2 (c_listeners s) (length (c_listeners s) - 1)) as [x Hx]; [lia|].
      rewrite Hx in E. destruct (c_listeners s' !! _) as [y|] eqn:Ey; [|done]. apply lookup_lt_Some in Ey. lia.
    - rewrite El, app_length. lia.
    - destruct (listener_same _ _ _ _ _ _ Hst) as (_ & _ & _ & _ & E & _). lia. }
  assert (forall i, pc_of s i = Some LEnded -> pc_of s' i = Some LEnded /\ Forall (fun e => of_listener i e = false) ev) as Hend.
  { intros i Hi. destruct Hc as [Hq|[(ad & -> & El)|(j & l & q & Hl & Hst & Hm & Hpc)]].
    - destruct (Hq i) as [E HF]. by rewrite E.
    - assert (i < length (c_listeners s)) as Hlt. { unfold pc_of in Hi. destruct (c_listeners s !! i) eqn:E; [|done]. by eapply lookup_lt_Some. }
      split; [unfold pc_of in *; by rewrite El, lookup_app_l|]. repeat constructor. apply bool_decide_eq_false. lia.
    - destruct (decide (j = i)) as [->|Hj].
      + unfold pc_of in Hi. rewrite Hl in Hi. injection Hi as Hi. rewrite Hi in Hm. inversion Hm.
      + split; [rewrite Hpc, bool_decide_eq_false_2 by congruence; done|]. by eapply moves_events. }
  split.
  - intros i ad cr Hin. apply elem_of_app in Hin as [Hin|Hin]; [specialize (H1 _ _ _ Hin); lia|].
    destruct Hc as [Hq|[(ad' & -> & El)|(j & l & q & Hl & Hst & Hm & Hpc)]].
    + destruct (Hq i) as [_ HF]. apply (proj1 (Forall_forall _ _) HF) in Hin. cbn [of_listener] in Hin. by apply bool_decide_eq_false in Hin.
    + apply elem_of_list_singleton in Hin. injection Hin as -> _ _. rewrite El, app_length. cbn. lia.
    + destruct Hm; not_in Hin.
  - intros a b E i ad cr Hin. apply in_split_app in E as [(b1 & E & ->)|(a1 & -> & E)].
    + destruct (H2 a b1 E i ad cr Hin) as [H3 H4]. destruct (Hend i H3) as [H5 H6]. split; [done|]. by apply Forall_app.
    + assert (a1 = [] /\ b = [] /\ c_wg s = 0%Z /\ s' = cs_close ClNone s) as (-> & -> & Hz & ->).
      { assert (CClosed ∈ ev) as Hcl by (rewrite E; apply elem_of_app; right; left).
        destruct (close_cases _ _ _ _ _ Hs) as [ Hlb Hev | Hlb Hev | Hlb Hev Hz Hs' | Hlb Hev | Hlb Hev | Hlb Hev | ? ? ? ? ? HF | j l Hl Hst | ? ? ? ? ? HF];
          try (rewrite Hev in Hcl; not_in Hcl).
        - rewrite Hev in E. destruct a1 as [|x [|y a1]]; [by injection E as <-|discriminate E|discriminate E].
        - by apply (proj1 (Forall_forall _ _) HF) in Hcl.
        - destruct (listener_moves _ _ _ _ _ _ Hl Hst) as (q & Hm & _). by destruct (moves_no_close _ _ _ _ _ Hm).
        - by apply (proj1 (Forall_forall _ _) HF) in Hcl. }
      rewrite app_nil_r in Hin. specialize (H1 _ _ _ Hin). destruct Hw as (Hw & _).
      assert (live s = 0%Z) as Hl by (unfold live in *; lia). destruct (lookup_lt_is_Some_2 (c_listeners s) i H1) as [l Hl'].
      assert (pc_of s i = Some (l_pc l)) as Hp by (unfold pc_of; by rewrite Hl'). split; [|constructor].
      change (pc_of (cs_close ClNone s) i) with (pc_of s i). rewrite Hp. f_equal. by eapply live_zero.
Qed.

Lemma after_run c ls s evs : crun c c_init ls = Some (s, evs) -> after_inv s evs.
Proof.
  intros Hr. assert (wg_inv s /\ after_inv s ([] ++ evs)) as [_ H]; [|done].
  apply (run_inv (cstep c) (fun s evs => wg_inv s /\ after_inv s evs) (fun _ => True) c_init [] ls s evs) with (4 := Hr); [| |by apply Forall_true].
  - split; [by vm_compute|]. split; [intros ? ? ? H; by apply elem_of_nil in H|]. by intros [|].
  - intros s1 evs1 l s2 ev [Hw Hi] _ Hs. split; [by eapply wg_step|by eapply after_step].
Qed.

Lemma silent_after_close c ls s evs a b i ad cr : crun c c_init ls = Some (s, evs) -> evs = a ++ CClosed :: b ->
  CListening i ad cr ∈ a -> forall e, e ∈ b -> of_listener i e = false.
Proof.
  intros Hr E Hin e He. destruct (after_run _ _ _ _ Hr) as [_ H]. destruct (H a b E i ad cr Hin) as [_ HF].
  by apply (proj1 (Forall_forall _ _) HF) in He.
Qed.

(** ** When Close does not return *)

(** A listener has a message for which it needs the lock, or a call of Listen
    has announced itself. *)
Definition blocks (s : cstate) : Prop := (exists i x, pc_of s i = Some (LGet x)) \/ 0 < c_adding s.

Lemma blocks_wg s : wg_inv s -> blocks s -> (0 < c_wg s)%Z.
Proof.
  intros (Hw & _) [(i & x & Hp)|Ha].
  - unfold pc_of in Hp. destruct (c_listeners s !! i) as [l|] eqn:El; [|done]. injection Hp as Hp.
    assert (running l = true) as Hr by (unfold running; by rewrite Hp). pose proof (live_pos _ _ _ El Hr). lia.
  - assert (0 <= live s)%Z by (unfold live; lia). lia.
Qed.

Lemma blocks_step c s lb s' ev : wg_inv s -> closing s -> blocks s -> cstep c s lb = Some (s', ev) ->
  closing s' /\ blocks s' /\ ~ CClosed ∈ ev.
Proof.
  intros Hw Hcl Hb Hs. pose proof (blocks_wg _ Hw Hb) as Hpos. unfold closing in *.
  assert (unlocked s = false) as Hu by (unfold unlocked; by destruct (c_close s)).
  assert (c_adding s <= c_adding s' -> blocks s') as Hbs.
  { intros Hle. destruct Hb as [(i & x & Hp)|Ha]; [|right; lia]. left. exists i, x.
    destruct (step_cases _ _ _ _ _ Hs) as [Hq|[(ad & -> & El)|(j & l & q & Hl & Hst & Hm & Hpc)]].
    - destruct (Hq i) as [-> _]. done.
    - unfold pc_of in *. destruct (c_listeners s !! i) as [l|] eqn:E; [|done]. rewrite El, lookup_app_l by (by eapply lookup_lt_Some). by rewrite E.
    - rewrite Hpc. case_bool_decide as Ej; [|done]. subst j. unfold pc_of in Hp. rewrite Hl in Hp. injection Hp as Hp. rewrite Hp in Hm.
      inversion Hm; congruence. }
  destruct (close_cases _ _ _ _ _ Hs) as [ Hlb Hev Hn | Hlb Hev Hn | Hlb Hev Hz Hs' | Hlb Hev Hn Hz -> | Hlb Hev Hn Hz -> | Hlb Hev Ecl Ed Ea | Hn | j l Hl Hst | Ecl Ed Ea Hx1 Hx2 HF];
    try congruence; try lia.
  - subst ev. split; [done|]. split; [by apply Hbs|apply not_elem_of_nil].
  - subst ev. split; [done|]. split; [by apply Hbs|]. by rewrite elem_of_list_singleton.
  - subst ev. split; [by rewrite Ecl|]. split; [apply Hbs; lia|apply not_elem_of_nil].
  - destruct (listener_moves _ _ _ _ _ _ Hl Hst) as (q & Hm & _). destruct (listener_same _ _ _ _ _ _ Hst) as (_ & _ & Ea & _).
    split; [|split; [apply Hbs; lia|by apply (moves_no_close _ _ _ _ _ Hm)]].
    unfold listener_step in Hst. destruct lb as [| | | |? [m|x]|? [|x]| | | | | | | | | | | | |]; try done; destruct (l_pc l) as [|m'|x'|x' [|h hs]| |]; try done.
    all: try (destruct (decode_msg (Some m')) as [[y|] [e|]|]).
    all: try (destruct (unlocked s); [|done]).
    all: injection Hst as <- <-; try (destruct (ends l x)); try done.
    + destruct (invoke_same h (set_pc j (LRun x' hs) s)) as (_ & _ & _ & _ & _ & _ & -> & _). exact Hcl.
    + destruct (c_close s) eqn:Ex; try done; try (destruct (_ =? _)%Z); cbn [cs_adding c_close set_pc cs_listeners cs_close]; by rewrite ?Ex.
  - split; [by rewrite Ecl|]. split; [apply Hbs; lia|]. intros H. by apply (proj1 (Forall_forall _ _) HF) in H.
Qed.

Lemma never_returns c ls0 s ev0 ls s' evs : crun c c_init ls0 = Some (s, ev0) -> closing s -> blocks s ->
  crun c s ls = Some (s', evs) -> closing s' /\ ~ CClosed ∈ evs.
Proof.
  intros Hr0 Hcl Hb Hr. pose proof (wg_run _ _ _ _ Hr0) as Hw.
  assert ((wg_inv s' /\ closing s' /\ blocks s') /\ ~ CClosed ∈ [] ++ evs) as [(_ & H1 & _) H2]; [|done].
  apply (run_inv (cstep c) (fun s evs => (wg_inv s /\ closing s /\ blocks s) /\ ~ CClosed ∈ evs) (fun _ => True) s [] ls s' evs) with (4 := Hr);
    [split; [done|apply not_elem_of_nil]| |by apply Forall_true].
  intros s1 evs1 l s2 ev [(H1 & H2 & H3) H4] _ Hs. destruct (blocks_step _ _ _ _ _ H1 H2 H3 Hs) as (H5 & H6 & H7).
  split; [split; [by eapply wg_step|done]|]. by rewrite not_elem_of_app.
Qed.

(** ** Awaiters *)

(** An awaiter's channel is closed exactly if its sync.Once has run. *)
Definition once_ok (s : cstate) : Prop := Forall (fun x => f_closed x = f_once x) (c_flushes s).

Lemma invoke_fine h s : once_ok s -> c_crashed (invoke h s) = c_crashed s /\ once_ok (invoke h s).
Proof.
  intros HF. destruct h as [|f]; [done|]. cbn [invoke].
  assert (once_ok (cs_flushes (alter once_do f (c_flushes s)) s)) as H.
  { unfold once_ok. cbn [cs_flushes c_flushes]. apply alter_forall; [|done]. intros x Hx. unfold once_do. destruct (f_once x) eqn:E; cbn; congruence. }
  destruct (c_flushes s !! f) as [x|] eqn:Ef; [|done].
  assert (once_panics x = false) as ->; [|done]. assert (f_closed x = f_once x) as E by (by eapply Forall_lookup_1 in Ef; [|exact HF]).
  unfold once_panics. rewrite E. by destruct (f_once x).
Qed.

Lemma once_step c s lb s' ev : once_ok s -> cstep c s lb = Some (s', ev) -> once_ok s'.
Proof.
  intros Ho Hs. pose proof (crashed_false _ _ _ _ _ Hs) as Hc. unfold cstep in Hs. rewrite Hc in Hs.
  assert (forall i, match c_listeners s !! i with Some l => listener_step s i l lb | None => None end = Some (s', ev) -> once_ok s') as Hlis.
  { intros i H. destruct (c_listeners s !! i) as [l|]; [|done]. unfold listener_step in H.
    destruct lb as [| | | |? [m|x]|? [|x]| | | | | | | | | | | | |]; try done; destruct (l_pc l) as [|m'|x'|x' [|h hs]| |]; try done.
    all: try (destruct (decode_msg (Some m')) as [[y|] [e|]|]).
    all: try (destruct (unlocked s); [|done]).
    all: injection H as <- <-; try (destruct (ends l x)); try exact Ho.
    - by apply invoke_fine.
    - destruct (c_close s); try exact Ho. by destruct (_ =? _)%Z. }
  assert (forall f, match c_flushes s !! f with Some x => flush_step c s f x lb | None => None end = Some (s', ev) -> once_ok s') as Hfl.
  { intros f H. destruct (c_flushes s !! f) as [x|]; [|done]. unfold flush_step in H. destruct lb; try done; destruct (f_pc x); try done.
    all: try (destruct (unlocked s); [|done]). all: try (destruct (f_closed x); [|done]). all: try (destruct (f_cancelled x); [|done]).
    all: injection H as <- <-; unfold once_ok; cbn [cs_flushes set_flush c_flushes register cs_handlers]; by apply alter_forall. }
  destruct lb; try (by eapply Hlis); try (by eapply Hfl).
  - destruct (unlocked s); [|done]. injection Hs as <- <-. by destruct k.
  - by injection Hs as <- <-.
  - destruct (c_adding s); [done|]. destruct (unlocked s); [|done]. by injection Hs as <- <-.
  - by injection Hs as <- <-.
  - destruct (unlocked s); [|done]. by destruct (c_done s); injection Hs as <- <-.
  - destruct (c_close s); try done. by destruct (_ =? _)%Z; injection Hs as <- <-.
  - destruct (c_close s); try done. by destruct (_ =? _)%Z; injection Hs as <- <-.
  - by injection Hs as <- <-.
  - injection Hs as <- <-. unfold once_ok. cbn [cs_flushes c_flushes]. apply Forall_app. split; [done|by repeat constructor].
Qed.

Lemma once_run c ls s evs : crun c c_init ls = Some (s, evs) -> once_ok s.
Proof.
  intros Hr. apply (run_inv (cstep c) (fun s _ => once_ok s) (fun _ => True) c_init [] ls s evs) with (4 := Hr); [constructor| |by apply Forall_true].
  intros s1 evs1 l s2 ev Hi _ Hs. by eapply once_step.
Qed.

(** ** When it does *)

(** What has to happen for Close to return: receivers give up, the handlers in
    progress run, receivers are closed, Close itself. *)
Definition winds_down (lb : clabel) : bool :=
  match lb with LLNext _ (NErr true) | LLRun _ | LLClose _ | LCloseWait | LCloseWake => true | _ => false end.
(** Receivers do not deliver messages once cancelled, nor errors other than the
    context's; nobody starts listening or closes again. *)
Definition behaved (lb : clabel) : Prop :=
  match lb with LLNext _ (NMsg _) | LLNext _ (NErr false) | LListenAdd | LCloseBegin => False | _ => True end.

Definition calm (p : lpc) : Prop := match p with LAccept _ | LGet _ => False | _ => True end.

Definition lrank (l : listener) : nat :=
  match l_pc l with LNext => 2 | LRun _ hs => length hs + 3 | LClosing => 1 | _ => 0 end.
Definition lranks (ls : list listener) : nat := sum_list (lrank <$> ls).
Definition crank (s : cstate) : nat :=
  lranks (c_listeners s) + match c_close s with ClNone => 0 | ClBegun => 2 | ClWaiting | ClWoken => 1 end.

Lemma lranks_alter ls i f l : ls !! i = Some l -> lranks (alter f i ls) + lrank l = lranks ls + lrank (f l).
Proof.
  revert i. induction ls as [|x ls IH]; intros i Hl; [done|]. destruct i as [|i].
  - injection Hl as ->. unfold lranks. cbn. lia.
  - cbn in Hl. change (alter f (S i) (x :: ls)) with (x :: alter f i ls). specialize (IH i Hl). unfold lranks in *. cbn. lia.
Qed.

(** Close is in progress and nothing blocks it, or it is over. *)
Definition quiet_close (s : cstate) (evs : list cev) : Prop :=
  (wg_inv s /\ once_ok s) /\ c_crashed s = false /\ c_adding s = 0 /\ (forall i p, pc_of s i = Some p -> calm p) /\
  Forall (fun l => l_cancelled l = true) (c_listeners s) /\
  (closing s \/ (c_close s = ClNone /\ live s = 0%Z /\ CClosed ∈ evs)).

Lemma lranks_same (ls ls' : list listener) : length ls = length ls' -> (forall i, l_pc <$> ls !! i = l_pc <$> ls' !! i) -> lranks ls = lranks ls'.
Proof.
  revert ls'. induction ls as [|l ls IH]; intros [|l' ls'] Hlen H; try done. unfold lranks in *. cbn.
  f_equal; [|apply IH; [by injection Hlen|]; intros i; exact (H (S i))]. specialize (H 0). cbn in H. injection H as H. unfold lrank. by rewrite H.
Qed.

Lemma quiet_step c s evs lb s' ev : quiet_close s evs -> behaved lb -> cstep c s lb = Some (s', ev) ->
  quiet_close s' (evs ++ ev) /\ crank s' + (if winds_down lb then 1 else 0) <= crank s.
Proof.
  intros ((Hw & Ho) & Hc & Ha & Hcalm & HF & Hcl) Hb Hs.
  pose proof (conj (wg_step _ _ _ _ _ Hw Hs) (once_step _ _ _ _ _ Ho Hs)) as Hw'.
  destruct (close_cases _ _ _ _ _ Hs) as [ -> | -> | Hlb -> Hz -> | -> -> Hn Hz -> | -> -> Hn Hz -> | -> | ? ? ? Ha' | j l Hl Hst | Ecl Ed Ea Ec Hlb HFe];
    try done; try lia.
  - (* Close returns *)
    assert (live s = 0%Z) as Hlive by (destruct Hw as (Hw & _); unfold live in *; lia).
    assert (closing s) as Hclo. { unfold closing. by destruct Hlb as [[_ ->]|[_ ->]]. } split.
    + split; [done|]. split; [done|]. split; [done|]. split; [done|]. split; [done|]. right. split; [done|]. split; [done|]. set_solver.
    + unfold crank. cbn [cs_close c_listeners c_close]. destruct Hlb as [[-> ->]|[-> ->]]; cbn [winds_down]; lia.
  - split.
    + split; [done|]. split; [done|]. split; [done|]. split; [done|]. split; [done|]. by left.
    + unfold crank. cbn [cs_close c_listeners c_close winds_down]. rewrite Hn. lia.
  - (* woken up: nobody added *)
    exfalso. destruct Hw as (Hw & _ & _ & Hwo). specialize (Hwo Hn). lia.
  - (* a listener *)
    destruct (listener_moves _ _ _ _ _ _ Hl Hst) as (q & Hm & Hpc). destruct (listener_same _ _ _ _ _ _ Hst) as (_ & _ & Ea & _ & Hlen & _).
    assert (pc_of s j = Some (l_pc l)) as Hpj by (unfold pc_of; by rewrite Hl).
    pose proof (Hcalm _ _ Hpj) as Hcj.
    assert (l_cancelled l = true) as Hlc by (apply (proj1 (Forall_forall _ _) HF); by eapply elem_of_list_lookup_2).
    assert (closing s) as Hclo.
    { destruct Hcl as [?|(_ & Hlive & _)]; [done|]. exfalso. pose proof (live_zero _ _ _ Hlive Hpj) as E. rewrite E in Hm. inversion Hm. }
    unfold listener_step in Hst.
    assert (forall p, lranks (c_listeners (set_pc j p s)) + lrank l = lranks (c_listeners s) + lrank (Listener p (l_cancelled l))) as Hrk.
    { intros p. unfold set_pc. cbn [cs_listeners c_listeners]. by apply (lranks_alter _ _ (fun l => Listener p (l_cancelled l))). }
    assert (forall p s1, c_listeners s1 = c_listeners (set_pc j p s) -> c_close s1 = c_close s -> c_crashed s1 = false -> c_adding s1 = c_adding s -> wg_inv s1 /\ once_ok s1 -> calm p ->
      s' = s1 -> lrank (Listener p (l_cancelled l)) + (if winds_down lb then 1 else 0) <= lrank l ->
      quiet_close s' (evs ++ ev) /\ crank s' + (if winds_down lb then 1 else 0) <= crank s) as Hfin.
    { intros p s1 E1 E2 E3 E4 Hw1 Hp -> Hle. split.
      - split; [done|]. split; [done|]. split; [by rewrite E4|]. split; [|split].
        + intros i p' Hp'. rewrite Hpc in Hp'. case_bool_decide as Ei; [|by eapply Hcalm]. subst i. injection Hp' as ->.
          specialize (Hpc j). rewrite bool_decide_eq_true_2 in Hpc by done. unfold pc_of in Hpc. rewrite E1 in Hpc. unfold set_pc in Hpc. cbn [cs_listeners c_listeners] in Hpc.
          rewrite list_lookup_alter, Hl in Hpc. cbn in Hpc. by injection Hpc as <-.
        + rewrite E1. by apply alter_forall.
        + left. unfold closing. by rewrite E2.
      - unfold crank. rewrite E1, E2. specialize (Hrk p). lia. }
    destruct lb as [| | | |? [m|x]|? [|x]| | | | | | | | | | | | |]; try done; destruct (l_pc l) as [|m'|x'|x' [|h hs]| |] eqn:Ep; try done.
    + destruct x; [|done]. unfold ends in Hst. rewrite Hlc in Hst. cbn [andb] in Hst. injection Hst as <- <-.
      apply (Hfin LClosing (set_pc j LClosing s)); try done. unfold lrank. cbn [l_pc winds_down]. rewrite Ep. lia.
    + injection Hst as <- <-. apply (Hfin LNext (set_pc j LNext s)); try done. unfold lrank. cbn [l_pc winds_down]. rewrite Ep. cbn. lia.
    + injection Hst as <- <-. apply (Hfin (LRun x' hs) (invoke h (set_pc j (LRun x' hs) s))); try done; try apply (invoke_same h (set_pc j (LRun x' hs) s)).
      { rewrite (proj1 (invoke_fine h (set_pc j (LRun x' hs) s) Ho)). exact Hc. }
      unfold lrank. cbn [l_pc winds_down]. rewrite Ep. cbn. lia.
    + injection Hst as Es Ee. set (w := (c_wg s - 1)%Z) in *. set (s1 := cs_adding (c_adding s) w (set_pc j LEnded s)) in *.
      assert (s' = s1 \/ s' = cs_close ClWoken s1 /\ c_close s = ClWaiting) as Hor.
      { rewrite <- Es. destruct (c_close s); try (by left). destruct (_ =? _)%Z; [by right|by left]. }
      clear Es. destruct Hor as [E|[E Ecl]].
      * apply (Hfin LEnded s1); try done; [by rewrite <- E|]. unfold lrank. cbn [l_pc winds_down]. rewrite Ep. lia.
      * subst s'. clear Hfin. specialize (Hrk LEnded). split.
        -- split; [done|]. split; [done|]. split; [done|]. split; [|split].
           ++ intros k p'. change (pc_of (cs_close ClWoken s1) k) with (pc_of s1 k). intros Hp'.
              assert (pc_of s1 k = if bool_decide (k = j) then Some LEnded else pc_of s k) as Hx by (by eapply (pc_of_set s j LEnded k)).
              rewrite Hx in Hp'. case_bool_decide; [by injection Hp' as <-|by eapply Hcalm].
           ++ cbn. by apply alter_forall.
           ++ left. done.
        -- unfold crank in *. cbn [cs_close c_close c_listeners s1 cs_adding]. rewrite Ecl.
           change (lrank (Listener LEnded (l_cancelled l))) with 0 in Hrk.
           assert (lrank l = 1) as El1 by (unfold lrank; by rewrite Ep). cbn [winds_down]. unfold set_pc in *. cbn [cs_listeners c_listeners] in *. lia.
  - (* other *)
    assert (forall i, pc_of s' i = pc_of s i) as Hpc.
    { intros i. destruct (step_cases _ _ _ _ _ Hs) as [Hq|[(ad & -> & El)|(j & l & q & Hl & Hst & Hm & Hpc)]]; [apply Hq| |].
      - inversion HFe as [|? ? He]. done.
      - exfalso. unfold listener_step in Hst. destruct lb; try done; by destruct (l_pc l). }
    assert (length (c_listeners s') = length (c_listeners s) /\ Forall (fun l => l_cancelled l = true) (c_listeners s')) as [Hlen HF'].
    { unfold cstep in Hs. rewrite Hc in Hs. destruct lb; try done.
      - destruct (unlocked s); [|done]. injection Hs as <- <-. by destruct k.
      - injection Hs as <- <-. cbn [cs_listeners c_listeners]. split; [apply alter_length|]. by apply alter_forall.
      - by injection Hs as <- <-.
      - by injection Hs as <- <-.
      - destruct (c_flushes s !! f) as [x|]; [|done]. by destruct (flush_same _ _ _ _ _ _ _ Hs) as (_ & _ & -> & _).
      - destruct (c_flushes s !! f) as [x|]; [|done]. by destruct (flush_same _ _ _ _ _ _ _ Hs) as (_ & _ & -> & _).
      - destruct (c_flushes s !! f) as [x|]; [|done]. by destruct (flush_same _ _ _ _ _ _ _ Hs) as (_ & _ & -> & _).
      - destruct (c_flushes s !! f) as [x|]; [|done]. by destruct (flush_same _ _ _ _ _ _ _ Hs) as (_ & _ & -> & _).
      - destruct (c_flushes s !! f) as [x|]; [|done]. by destruct (flush_same _ _ _ _ _ _ _ Hs) as (_ & _ & -> & _). }
    split.
    + split; [done|]. split; [done|]. split; [by rewrite Ea|]. split; [intros i p; rewrite Hpc; apply Hcalm|]. split; [done|].
      destruct Hcl as [Hcl|(H1 & H2 & H3)]; [left; unfold closing in *; by rewrite Ecl|]. right. rewrite Ecl. split; [done|].
      split; [|set_solver]. destruct Hw' as ((Hw' & _) & _). destruct Hw as (Hw & _).
      destruct (decide (live s' = 0%Z)) as [|Hne]; [done|]. exfalso.
      destruct (List.filter running (c_listeners s')) as [|l rest] eqn:El; [by unfold live in Hne; rewrite El in Hne|].
      assert (In l (List.filter running (c_listeners s'))) as Hin by (rewrite El; by left). apply filter_In in Hin as [Hin Hrun].
      apply elem_of_list_In, elem_of_list_lookup in Hin as [i Hi]. assert (pc_of s' i = Some (l_pc l)) as Hpi by (unfold pc_of; by rewrite Hi).
      rewrite Hpc in Hpi. pose proof (live_zero _ _ _ H2 Hpi) as E. unfold running in Hrun. by rewrite E in Hrun.
    + unfold crank. rewrite Ecl, (lranks_same (c_listeners s') (c_listeners s)); [|done|exact Hpc]. assert (winds_down lb = false) as -> by (by destruct lb). lia.
Qed.

Definition count_down (ls : list clabel) : nat := length (List.filter winds_down ls).

Lemma quiet_run c s ev0 ls s' evs : quiet_close s ev0 -> Forall behaved ls -> crun c s ls = Some (s', evs) ->
  quiet_close s' (ev0 ++ evs) /\ crank s' + count_down ls <= crank s.
Proof.
  intros Hq HF. revert s ev0 evs Hq. induction HF as [|lb ls Hb HF IH]; intros s ev0 evs Hq Hr.
  - injection Hr as <- <-. rewrite app_nil_r. split; [done|]. unfold count_down. cbn. lia.
  - cbn [run] in Hr. destruct (cstep c s lb) as [[s1 ev1]|] eqn:Es; [|done].
    destruct (run (cstep c) s1 ls) as [[s2 ev2]|] eqn:E2; [|done]. injection Hr as <- <-.
    destruct (quiet_step _ _ _ _ _ _ Hq Hb Es) as [H1 H2]. destruct (IH s1 _ _ H1 E2) as [H3 H4].
    rewrite app_assoc. split; [done|]. unfold count_down in *. cbn [List.filter]. destruct (winds_down lb); cbn [length]; lia.
Qed.

Lemma quiet_progress c s evs : quiet_close s evs -> CClosed ∈ evs \/ exists lb, winds_down lb = true /\ is_Some (cstep c s lb).
Proof.
  intros ((Hw & _) & Hc & Ha & Hcalm & HF & Hcl). destruct Hcl as [Hcl|(_ & _ & H)]; [|by left]. right.
  destruct (List.filter running (c_listeners s)) as [|l rest] eqn:El.
  - assert (c_wg s = 0%Z) as Hz. { destruct Hw as (Hw & _). unfold live in Hw. rewrite El in Hw. cbn in Hw. lia. }
    unfold closing in Hcl. destruct (c_close s) eqn:Ecl; try done.
    + exists LCloseWait. split; [done|]. unfold cstep. rewrite Hc, Ecl, Hz. eauto.
    + destruct Hw as (_ & _ & Hw & _). destruct (Hw Ecl); [lia|congruence].
    + exists LCloseWake. split; [done|]. unfold cstep. rewrite Hc, Ecl, Hz. eauto.
  - assert (In l (List.filter running (c_listeners s))) as Hin by (rewrite El; by left). apply filter_In in Hin as [Hin Hrun].
    apply elem_of_list_In in Hin. pose proof (proj1 (Forall_forall _ _) HF l Hin) as Hlc. apply elem_of_list_lookup in Hin as [i Hi].
    assert (pc_of s i = Some (l_pc l)) as Hpi by (unfold pc_of; by rewrite Hi). apply Hcalm in Hpi.
    unfold running in Hrun. destruct (l_pc l) as [|m'|x'|x' hs| |] eqn:Ep; try done.
    + exists (LLNext i (NErr true)). split; [done|]. unfold cstep. rewrite Hc, Hi. unfold listener_step. rewrite Ep. eauto.
    + exists (LLRun i). split; [done|]. unfold cstep. rewrite Hc, Hi. unfold listener_step. rewrite Ep. destruct hs; eauto.
    + exists (LLClose i). split; [done|]. unfold cstep. rewrite Hc, Hi. unfold listener_step. rewrite Ep. eauto.
Qed.

Lemma returns c ls0 s ev0 : crun c c_init ls0 = Some (s, ev0) -> c_crashed s = false -> closing s -> c_adding s = 0 ->
  (forall i p, pc_of s i = Some p -> calm p) ->
  exists n, forall ls s' evs, Forall behaved ls -> crun c s ls = Some (s', evs) ->
    count_down ls <= n /\ c_crashed s' = false /\
    (CClosed ∈ evs \/ exists lb, winds_down lb = true /\ is_Some (cstep c s' lb)).
Proof.
  intros Hr0 Hc Hcl Ha Hcalm. exists (crank s). intros ls s' evs HF Hr. pose proof (wg_run _ _ _ _ Hr0) as Hw. pose proof (once_run _ _ _ _ Hr0) as Ho.
  assert (quiet_close s []) as Hq.
  { split; [done|]. split; [done|]. split; [done|]. split; [done|]. split; [|by left]. by apply Hw. }
  destruct (quiet_run _ _ _ _ _ _ Hq HF Hr) as [Hq' Hle]. split; [lia|]. split; [apply Hq'|]. by apply quiet_progress.
Qed.

(** ** Closing again *)

Lemma done_run c ls s evs : crun c c_init ls = Some (s, evs) -> CCloseCall ∈ evs -> c_done s = true.
Proof.
  intros Hr. apply (run_inv (cstep c) (fun s evs => CCloseCall ∈ evs -> c_done s = true) (fun _ => True) c_init [] ls s evs) with (4 := Hr);
    [intros H; by apply elem_of_nil in H| |by apply Forall_true].
  clear. intros s evs lb s' ev Hi _ Hs Hin. apply elem_of_app in Hin.
  destruct (close_cases _ _ _ _ _ Hs) as [ Hlb -> ? ? ? H | Hlb -> ? H -> | Hlb -> Hz -> | Hlb -> Hn Hz -> | Hlb -> Hn Hz -> | Hlb -> ? H | ? ? H ? ? HFe | j l Hl Hst | Ecl H Ea Ec Hlb HFe];
    try done.
  - apply Hi. destruct Hin as [Hin|Hin]; [exact Hin|not_in Hin].
  - apply Hi. destruct Hin as [Hin|Hin]; [exact Hin|not_in Hin].
  - apply Hi. destruct Hin as [Hin|Hin]; [exact Hin|not_in Hin].
  - rewrite H. apply Hi. destruct Hin as [Hin|Hin]; [exact Hin|not_in Hin].
  - rewrite H. apply Hi. destruct Hin as [|Hin]; [done|]. by apply (proj1 (Forall_forall _ _) HFe) in Hin.
  - destruct (listener_same _ _ _ _ _ _ Hst) as (_ & _ & _ & -> & _). destruct Hin as [|Hin]; [by apply Hi|].
    destruct (listener_moves _ _ _ _ _ _ Hl Hst) as (q & Hm & _). by destruct (moves_no_close _ _ _ _ _ Hm).
  - rewrite H. apply Hi. destruct Hin as [|Hin]; [done|]. by apply (proj1 (Forall_forall _ _) HFe) in Hin.
Qed.

Lemma closed_called c ls s evs : crun c c_init ls = Some (s, evs) -> CClosed ∈ evs -> c_done s = true.
Proof.
  intros Hr Hin. assert (wg_inv s /\ (CClosed ∈ [] ++ evs -> c_done s = true)) as [_ H]; [|by apply H].
  apply (run_inv (cstep c) (fun s evs => wg_inv s /\ (CClosed ∈ evs -> c_done s = true)) (fun _ => True) c_init [] ls s evs) with (4 := Hr);
    [split; [by vm_compute|intros H; by apply elem_of_nil in H]| |by apply Forall_true].
  clear. intros s evs lb s' ev [Hw Hi] _ Hs. split; [by eapply wg_step|]. intros Hin. apply elem_of_app in Hin.
  destruct (close_cases _ _ _ _ _ Hs) as [ Hlb -> ? ? ? H | Hlb -> ? H -> | Hlb -> Hz -> | Hlb -> Hn Hz -> | Hlb -> Hn Hz -> | Hlb -> ? H | ? ? H ? ? HFe | j l Hl Hst | Ecl H Ea Ec Hlb HFe];
    try done.
  - destruct Hw as (_ & Hw & _). cbn. apply Hw. unfold closing. by destruct Hlb as [[_ ->]|[_ ->]].
  - apply Hi. destruct Hin as [Hin|Hin]; [exact Hin|not_in Hin].
  - apply Hi. destruct Hin as [Hin|Hin]; [exact Hin|not_in Hin].
  - rewrite H. apply Hi. destruct Hin as [Hin|Hin]; [exact Hin|not_in Hin].
  - rewrite H. apply Hi. destruct Hin as [|Hin]; [done|]. by apply (proj1 (Forall_forall _ _) HFe) in Hin.
  - destruct (listener_same _ _ _ _ _ _ Hst) as (_ & _ & _ & -> & _). destruct Hin as [|Hin]; [by apply Hi|].
    destruct (listener_moves _ _ _ _ _ _ Hl Hst) as (q & Hm & _). by destruct (moves_no_close _ _ _ _ _ Hm).
  - rewrite H. apply Hi. destruct Hin as [|Hin]; [done|]. by apply (proj1 (Forall_forall _ _) HFe) in Hin.
Qed.

Lemma second_close c ls s evs : crun c c_init ls = Some (s, evs) -> CClosed ∈ evs -> c_crashed s = false -> c_close s = ClNone ->
  exists s', cstep c s LCloseBegin = Some (s', [CCloseCall; CPanic]) /\ c_crashed s' = true.
Proof.
  intros Hr Hin Hc Hn. pose proof (closed_called _ _ _ _ Hr Hin) as Hd. exists (cs_crashed s). split; [|done].
  unfold cstep. rewrite Hc. unfold unlocked. by rewrite Hn, Hd.
Qed.
