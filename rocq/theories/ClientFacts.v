(** Facts about the client. *)
From Coq Require Import ZArith NArith Ascii String Lia.
From stdpp Require Import base gmap strings list.
From Verif Require Import GoBase Encoding SpecEncoding Records Messages SpecMessages MessageFacts Run Keepalive Client.

Local Open Scope list_scope.
Local Opaque decode_msg encode_flush.

(** ** Specification *)

(** What happened to listener [i]. *)
Definition received (i : nat) (evs : list cev) : list amqp_msg :=
  omap (fun x => match x with CRecv j m => if bool_decide (j = i) then Some m else None | _ => None end) evs.
Definition accepted (i : nat) (evs : list cev) : list amqp_msg :=
  omap (fun x => match x with CAcc j m => if bool_decide (j = i) then Some m else None | _ => None end) evs.
Definition reads (i : nat) (evs : list cev) : list message :=
  omap (fun x => match x with CRead j m => if bool_decide (j = i) then Some m else None | _ => None end) evs.
Definition calls (i : nat) (evs : list cev) : list (handler * message) :=
  omap (fun x => match x with CCall j h m => if bool_decide (j = i) then Some (h, m) else None | _ => None end) evs.

(** The message decodes without error. *)
Definition decoded (m : amqp_msg) : option message :=
  match decode_msg (Some m) with RDone (Some x) None => Some x | _ => None end.

(** The handlers registered for the kind of a message, in order. *)
Definition wanted (x : message) (before : list cev) : list handler :=
  omap (fun e => match e, x with
                 | CReg OnRec h, MsgRecord _ => Some h
                 | CReg OnHb h, MsgHeartbeat _ => Some h
                 | _, _ => None
                 end) before.

(** The calls that listener [i] has to make for the messages it read the
    handlers for, each with the handlers registered before. *)
Fixpoint due (i : nat) (before evs : list cev) : list (handler * message) :=
  match evs with
  | [] => []
  | e :: evs' =>
      (match e with
       | CRead j x => if bool_decide (j = i) then (fun h => (h, x)) <$> wanted x before else []
       | _ => []
       end) ++ due i (before ++ [e]) evs'
  end.

Definition pc_of (s : cstate) (i : nat) : option lpc := l_pc <$> c_listeners s !! i.

(** The message in hand, and the calls still to make. *)
Definition in_hand (s : cstate) (i : nat) : list message := match pc_of s i with Some (LGet x) => [x] | _ => [] end.
Definition to_call (s : cstate) (i : nat) : list (handler * message) :=
  match pc_of s i with Some (LRun x hs) => (fun h => (h, x)) <$> hs | _ => [] end.

(** Events of listener [i]. *)
Definition of_listener (i : nat) (e : cev) : bool :=
  match e with
  | CRecv j _ | CAcc j _ | CRead j _ | CCall j _ _ | CEnded j | CListening j _ _ => bool_decide (j = i)
  | _ => false
  end.

(** ** Lists of events *)

Lemma due_app i b e1 e2 : due i b (e1 ++ e2) = due i b e1 ++ due i (b ++ e1) e2.
Proof.
  revert b. induction e1 as [|e e1 IH]; intros b; cbn [due app]; [by rewrite app_nil_r|].
  rewrite IH, <- !app_assoc. done.
Qed.

Lemma due_other i b e : (forall x, e <> CRead i x) -> due i b [e] = [].
Proof. intros H. cbn [due]. rewrite app_nil_r. destruct e; try done. case_bool_decide; [|done]. subst. by destruct (H x). Qed.

Lemma due_quiet i b evs : Forall (fun e => of_listener i e = false) evs -> due i b evs = [].
Proof.
  revert b. induction evs as [|e evs IH]; intros b HF; [done|]. inversion HF as [|? ? He HF']; subst. cbn [due]. rewrite (IH _ HF'), app_nil_r.
  destruct e; try done. cbn [of_listener] in He. by rewrite He.
Qed.

Lemma quiet_omap {A} i (f : cev -> option A) evs : (forall e, of_listener i e = false -> f e = None) ->
  Forall (fun e => of_listener i e = false) evs -> omap f evs = [].
Proof. intros Hf. induction 1 as [|e evs He HF IH]; [done|]. cbn [omap list_omap]. by rewrite (Hf e He). Qed.

Lemma received_app i a b : received i (a ++ b) = received i a ++ received i b.
Proof. apply omap_app. Qed.
Lemma accepted_app i a b : accepted i (a ++ b) = accepted i a ++ accepted i b.
Proof. apply omap_app. Qed.
Lemma reads_app i a b : reads i (a ++ b) = reads i a ++ reads i b.
Proof. apply omap_app. Qed.
Lemma calls_app i a b : calls i (a ++ b) = calls i a ++ calls i b.
Proof. apply omap_app. Qed.
Lemma wanted_app x a b : wanted x (a ++ b) = wanted x a ++ wanted x b.
Proof. apply omap_app. Qed.

(** ** One step *)

Lemma lookup_alter_pc (ls : list listener) i j p (f : listener -> listener) l : ls !! i = Some l -> l_pc (f l) = p ->
  l_pc <$> alter f i ls !! j = if bool_decide (j = i) then Some p else l_pc <$> ls !! j.
Proof.
  intros Hl Hp. case_bool_decide as E.
  - subst j. by rewrite list_lookup_alter, Hl; cbn; rewrite Hp.
  - by rewrite list_lookup_alter_ne by congruence.
Qed.

Lemma pc_of_set s i p j l : c_listeners s !! i = Some l -> pc_of (set_pc i p s) j = if bool_decide (j = i) then Some p else pc_of s j.
Proof. intros Hl. unfold pc_of, set_pc, cs_listeners. cbn [c_listeners]. by eapply lookup_alter_pc; [exact Hl|]. Qed.

Lemma invoke_same h s : c_listeners (invoke h s) = c_listeners s /\ c_recs (invoke h s) = c_recs s /\ c_hbs (invoke h s) = c_hbs s /\
  c_adding (invoke h s) = c_adding s /\ c_done (invoke h s) = c_done s /\ c_wg (invoke h s) = c_wg s /\ c_close (invoke h s) = c_close s /\
  (c_crashed s = true -> c_crashed (invoke h s) = true).
Proof. destruct h as [|f]; [done|]. cbn [invoke]. destruct (c_flushes s !! f) as [x|]; [|done]. by destruct (once_panics x). Qed.
Lemma pc_of_invoke h s j : pc_of (invoke h s) j = pc_of s j.
Proof. unfold pc_of. by destruct (invoke_same h s) as [-> _]. Qed.
Lemma pc_of_crashed s j : pc_of (cs_crashed s) j = pc_of s j.
Proof. done. Qed.

(** What a step does to listener [i]: nothing; it starts; or it moves. *)
Inductive moves (s : cstate) (i : nat) : lpc -> lpc -> list cev -> Prop :=
  | mv_recv m : moves s i LNext (LAccept m) [CRecv i m]
  | mv_nerr : moves s i LNext LNext []
  | mv_nend : moves s i LNext LClosing []
  | mv_acc m x : decoded m = Some x -> moves s i (LAccept m) (LGet x) [CAcc i m]
  | mv_bad m : decoded m = None -> moves s i (LAccept m) LNext [CAcc i m]
  | mv_crash m : decode_msg (Some m) = RPanic -> moves s i (LAccept m) (LAccept m) [CAcc i m; CPanic]
  | mv_aerr m : moves s i (LAccept m) LNext []
  | mv_aend m : moves s i (LAccept m) LClosing []
  | mv_get x : unlocked s = true -> moves s i (LGet x) (LRun x (handlers_for s x)) [CRead i x]
  | mv_last x : moves s i (LRun x []) LNext []
  | mv_call x h hs : moves s i (LRun x (h :: hs)) (LRun x hs) [CCall i h x]
  | mv_end : moves s i LClosing LEnded [CEnded i].

Lemma listener_moves s i l lb s' ev : c_listeners s !! i = Some l -> listener_step s i l lb = Some (s', ev) ->
  exists p, moves s i (l_pc l) p ev /\ forall j, pc_of s' j = if bool_decide (j = i) then Some p else pc_of s j.
Proof.
  intros Hl Hs.
  assert (forall p, l_pc l = p -> forall j, pc_of s j = if bool_decide (j = i) then Some p else pc_of s j) as Hsame.
  { intros p <- j. case_bool_decide as E; [|done]. subst j. unfold pc_of. by rewrite Hl. }
  unfold listener_step in Hs. destruct lb as [| | | |? [m|x]|? [|x]| | | | | | | | | | | | |]; try done;
    destruct (l_pc l) as [|m'|x'|x' [|h hs]| |] eqn:Ep; try done.
  - injection Hs as <- <-. eexists. split; [constructor|]. intros j. by eapply pc_of_set.
  - injection Hs as <- <-. destruct (ends l x); eexists; (split; [constructor|]); intros j; [by eapply pc_of_set|by apply Hsame].
  - destruct (decode_msg (Some m')) as [[y|] [e|]|] eqn:Ed; injection Hs as <- <-; eexists.
    + split; [apply mv_bad; unfold decoded; by rewrite Ed|]. intros j. by eapply pc_of_set.
    + split; [apply mv_acc; unfold decoded; by rewrite Ed|]. intros j. by eapply pc_of_set.
    + split; [apply mv_bad; unfold decoded; by rewrite Ed|]. intros j. by eapply pc_of_set.
    + split; [apply mv_bad; unfold decoded; by rewrite Ed|]. intros j. by eapply pc_of_set.
    + split; [by apply mv_crash|]. intros j. rewrite pc_of_crashed. by apply Hsame.
  - injection Hs as <- <-. destruct (ends l x); eexists; (split; [constructor|]); intros j; by eapply pc_of_set.
  - destruct (unlocked s) eqn:Eu; [|done]. injection Hs as <- <-. eexists. split; [by constructor|]. intros j. by eapply pc_of_set.
  - injection Hs as <- <-. eexists. split; [constructor|]. intros j. by eapply pc_of_set.
  - injection Hs as <- <-. eexists. split; [constructor|]. intros j. rewrite pc_of_invoke. by eapply pc_of_set.
  - injection Hs as <- <-. exists LEnded. split; [constructor|]. intros j.
    assert (pc_of (cs_adding (c_adding s) (c_wg s - 1) (set_pc i LEnded s)) j = if bool_decide (j = i) then Some LEnded else pc_of s j) as Hx
      by (by eapply (pc_of_set s i LEnded j)).
    destruct (c_close s); try done. by destruct (_ =? _)%Z.
Qed.

Lemma moves_events s i p q ev j : moves s i p q ev -> j <> i -> Forall (fun e => of_listener j e = false) ev.
Proof. intros Hm Hj. destruct Hm; repeat constructor; cbn [of_listener]; by apply bool_decide_eq_false. Qed.

(** The events of other steps. *)
Lemma step_cases c s lb s' ev : cstep c s lb = Some (s', ev) ->
  (forall i, pc_of s' i = pc_of s i /\ Forall (fun e => of_listener i e = false) ev) \/
  (exists ad, ev = [CListening (length (c_listeners s)) ad listen_credit] /\ c_listeners s' = c_listeners s ++ [Listener LNext false]) \/
  (exists i l q, c_listeners s !! i = Some l /\ listener_step s i l lb = Some (s', ev) /\ moves s i (l_pc l) q ev /\
     forall j, pc_of s' j = if bool_decide (j = i) then Some q else pc_of s j).
Proof.
  unfold cstep. destruct (c_crashed s); [done|]. intros Hs.
  assert (forall i lb, match c_listeners s !! i with Some l => listener_step s i l lb | None => None end = Some (s', ev) ->
    exists i l q, c_listeners s !! i = Some l /\ listener_step s i l lb = Some (s', ev) /\ moves s i (l_pc l) q ev /\
      forall j, pc_of s' j = if bool_decide (j = i) then Some q else pc_of s j) as Hlis.
  { intros i lb' H. destruct (c_listeners s !! i) as [l|] eqn:El; [|done]. destruct (listener_moves _ _ _ _ _ _ El H) as (q & Hq & Hp).
    by exists i, l, q. }
  assert (forall f lb, match c_flushes s !! f with Some x => flush_step c s f x lb | None => None end = Some (s', ev) ->
    forall i, pc_of s' i = pc_of s i /\ Forall (fun e => of_listener i e = false) ev) as Hfl.
  { intros f lb' H. destruct (c_flushes s !! f) as [x|]; [|done]. unfold flush_step in H. intros i.
    destruct lb'; try done; destruct (f_pc x); try done.
    all: try (destruct (unlocked s); [|done]). all: try (destruct (f_closed x); [|done]). all: try (destruct (f_cancelled x); [|done]).
    all: injection H as <- <-; split; [done|repeat constructor]. }
  destruct lb; try (right; right; by eapply Hlis); try (left; by eapply Hfl).
  - destruct (unlocked s); [|done]. injection Hs as <- <-. left. intros i. split; [by destruct k|by repeat constructor].
  - injection Hs as <- <-. left. intros i. done.
  - destruct (c_adding s); [done|]. destruct (unlocked s); [|done]. injection Hs as <- <-. right. left. eexists. done.
  - injection Hs as <- <-. left. intros j. split; [|done]. unfold pc_of. cbn [cs_listeners c_listeners].
    destruct (decide (j = i)) as [->|Hj]; [rewrite list_lookup_alter; by destruct (c_listeners s !! i)|by rewrite list_lookup_alter_ne].
  - destruct (unlocked s); [|done]. destruct (c_done s); injection Hs as <- <-; left; intros i; (split; [|by repeat constructor]); [done|].
    unfold pc_of. cbn [c_listeners]. rewrite list_lookup_fmap. by destruct (c_listeners s !! i).
  - destruct (c_close s); try done. destruct (_ =? _)%Z; injection Hs as <- <-; left; intros i; (split; [done|by repeat constructor]).
  - destruct (c_close s); try done. destruct (_ =? _)%Z; injection Hs as <- <-; left; intros i; (split; [done|by repeat constructor]).
  - injection Hs as <- <-. left. intros i. split; [done|by repeat constructor].
  - injection Hs as <- <-. left. intros i. split; [done|by repeat constructor].
Qed.

(** Registrations. *)
Definition reg_inv (s : cstate) (evs : list cev) : Prop :=
  (forall r, c_recs s = wanted (MsgRecord r) evs) /\ (forall h, c_hbs s = wanted (MsgHeartbeat h) evs).

Lemma no_reg_wanted x ev : Forall (fun e => match e with CReg _ _ => False | _ => True end) ev -> wanted x ev = [].
Proof. induction 1 as [|e ev He HF IH]; [done|]. unfold wanted in *. cbn [omap list_omap]. destruct e; try exact IH. done. Qed.

Lemma listener_same s i l lb s' ev : listener_step s i l lb = Some (s', ev) ->
  c_recs s' = c_recs s /\ c_hbs s' = c_hbs s /\ c_adding s' = c_adding s /\ c_done s' = c_done s /\
  length (c_listeners s') = length (c_listeners s) /\ Forall (fun e => match e with CReg _ _ => False | _ => True end) ev.
Proof.
  intros H. unfold listener_step in H.
  assert (forall i p s, length (c_listeners (set_pc i p s)) = length (c_listeners s)) as Hlen by (intros; apply alter_length).
  destruct lb as [| | | |? [m|x]|? [|x]| | | | | | | | | | | | |]; try done; destruct (l_pc l) as [|m'|x'|x' [|h hs]| |]; try done.
  all: try (destruct (decode_msg (Some m')) as [[y|] [e|]|]).
  all: try (destruct (unlocked s); [|done]).
  all: injection H as <- <-.
  all: try (destruct (ends l x)).
  all: try (destruct (c_close s)). all: try (destruct (_ =? _)%Z).
  all: try (destruct (invoke_same h (set_pc i (LRun x' hs) s)) as (-> & -> & -> & -> & -> & _)).
  all: repeat (split; [first [done | apply Hlen | apply alter_length]|]).
  all: repeat constructor.
Qed.

Lemma reg_step c s evs lb s' ev : reg_inv s evs -> cstep c s lb = Some (s', ev) -> reg_inv s' (evs ++ ev).
Proof.
  intros [H1 H2] Hs.
  assert (c_recs s' = c_recs s -> c_hbs s' = c_hbs s -> Forall (fun e => match e with CReg _ _ => False | _ => True end) ev -> reg_inv s' (evs ++ ev)) as Hsame.
  { intros E1 E2 HF. split; [intros r|intros h]; rewrite wanted_app, (no_reg_wanted _ ev HF), app_nil_r; [by rewrite E1|by rewrite E2]. }
  unfold cstep in Hs. destruct (c_crashed s); [done|].
  assert (forall i lb, match c_listeners s !! i with Some l => listener_step s i l lb | None => None end = Some (s', ev) -> reg_inv s' (evs ++ ev)) as Hlis.
  { intros i lb' H. destruct (c_listeners s !! i) as [l|]; [|done]. destruct (listener_same _ _ _ _ _ _ H) as (E1 & E2 & _ & _ & _ & HF). by apply Hsame. }
  assert (forall h0, reg_inv (cs_handlers (c_recs s ++ [h0]) (c_hbs s) s) (evs ++ [CReg OnRec h0])) as Hr.
  { intros h0. split; [intros r|intros h]; rewrite wanted_app; cbn; [by rewrite (H1 r)|by rewrite app_nil_r]. }
  assert (forall h0, reg_inv (cs_handlers (c_recs s) (c_hbs s ++ [h0]) s) (evs ++ [CReg OnHb h0])) as Hh.
  { intros h0. split; [intros r|intros h]; rewrite wanted_app; cbn; [by rewrite app_nil_r|by rewrite (H2 h)]. }
  destruct lb; try (by eapply Hlis).
  - destruct (unlocked s); [|done]. injection Hs as <- <-. destruct k; cbn [register]; [apply Hr|apply Hh].
  - injection Hs as <- <-. by apply Hsame.
  - destruct (c_adding s); [done|]. destruct (unlocked s); [|done]. injection Hs as <- <-. apply Hsame; [done|done|by repeat constructor].
  - injection Hs as <- <-. by apply Hsame.
  - destruct (unlocked s); [|done]. destruct (c_done s); injection Hs as <- <-; (apply Hsame; [done|done|by repeat constructor]).
  - destruct (c_close s); try done. destruct (_ =? _)%Z; injection Hs as <- <-; (apply Hsame; [done|done|by repeat constructor]).
  - destruct (c_close s); try done. destruct (_ =? _)%Z; injection Hs as <- <-; (apply Hsame; [done|done|by repeat constructor]).
  - injection Hs as <- <-. apply Hsame; [done|done|by repeat constructor].
  - injection Hs as <- <-. apply Hsame; [done|done|by repeat constructor].
  - destruct (c_flushes s !! f) as [x|]; [|done]. cbn [flush_step] in Hs. destruct (f_pc x); try done; destruct (unlocked s); try done; injection Hs as <- <-; [apply Hr|apply Hh].
  - destruct (c_flushes s !! f) as [x|]; [|done]. cbn [flush_step] in Hs. injection Hs as <- <-. by apply Hsame.
  - destruct (c_flushes s !! f) as [x|]; [|done]. cbn [flush_step] in Hs. destruct (f_pc x); try done. destruct (f_closed x); [|done]. injection Hs as <- <-. apply Hsame; [done|done|by repeat constructor].
  - destruct (c_flushes s !! f) as [x|]; [|done]. cbn [flush_step] in Hs. destruct (f_pc x); try done. destruct (f_cancelled x); [|done]. injection Hs as <- <-. apply Hsame; [done|done|by repeat constructor].
  - destruct (c_flushes s !! f) as [x|]; [|done]. cbn [flush_step] in Hs. destruct (f_pc x); try done. injection Hs as <- <-. apply Hsame; [done|done|by repeat constructor].
Qed.

Lemma reg_run c ls s evs : crun c c_init ls = Some (s, evs) -> reg_inv s evs.
Proof.
  intros Hr. change evs with ([] ++ evs). apply (run_inv (cstep c) reg_inv (fun _ => True) c_init [] ls s evs) with (4 := Hr); [done| |by apply Forall_true].
  intros s1 evs1 l s2 ev Hi _ Hs. by eapply reg_step.
Qed.

Lemma wanted_none x evs : match x with MsgRecord _ | MsgHeartbeat _ => False | _ => True end -> wanted x evs = [].
Proof.
  intros Hx. unfold wanted. induction evs as [|e evs IH]; [done|]. cbn [omap list_omap]. rewrite IH.
  destruct e as [k h| | | | | | | | | | | |]; try done. destruct k, x; done.
Qed.

Lemma wanted_handlers s evs x : reg_inv s evs -> handlers_for s x = wanted x evs.
Proof.
  intros [H1 H2]. destruct x; cbn [handlers_for]; [by rewrite wanted_none|apply H2|by rewrite wanted_none|apply H1].
Qed.

(** ** Delivery *)

Definition list_inv (i : nat) (s : cstate) (evs : list cev) : Prop :=
  reg_inv s evs /\
  omap decoded (accepted i evs) = reads i evs ++ in_hand s i /\
  due i [] evs = calls i evs ++ to_call s i /\
  (accepted i evs ++ match pc_of s i with Some (LAccept m) => if c_crashed s then [] else [m] | _ => [] end) `sublist_of` received i evs.

Lemma quiet_parts i ev : Forall (fun e => of_listener i e = false) ev ->
  received i ev = [] /\ accepted i ev = [] /\ reads i ev = [] /\ calls i ev = [].
Proof.
  intros HF. split; [|split; [|split]]; (eapply quiet_omap; [|exact HF]); intros e He; destruct e; try done; cbn [of_listener] in He; by rewrite He.
Qed.

Lemma sublist_if (a b : list amqp_msg) (m : amqp_msg) (x : bool) : (a ++ [m]) `sublist_of` b -> (a ++ if x then [] else [m]) `sublist_of` b.
Proof.
  intros H. destruct x; [|done]. rewrite app_nil_r. etrans; [|exact H]. by apply sublist_inserts_r.
Qed.

Lemma crashed_false c s lb s' ev : cstep c s lb = Some (s', ev) -> c_crashed s = false.
Proof. unfold cstep. by destruct (c_crashed s). Qed.

Lemma panic_crashes s i l lb s' ev : listener_step s i l lb = Some (s', ev) -> CPanic ∈ ev -> c_crashed s' = true.
Proof.
  intros H Hin. unfold listener_step in H.
  destruct lb as [| | | |? [m|x]|? [|x]| | | | | | | | | | | | |]; try done; destruct (l_pc l) as [|m'|x'|x' [|h hs]| |]; try done.
  all: try (destruct (decode_msg (Some m')) as [[y|] [e|]|]).
  all: try (destruct (unlocked s); [|done]).
  all: injection H as <- <-; try reflexivity.
  all: repeat (apply elem_of_cons in Hin as [Hin|Hin]; [discriminate Hin|]); by apply elem_of_nil in Hin.
Qed.

Lemma list_step c i s evs lb s' ev : list_inv i s evs -> cstep c s lb = Some (s', ev) -> list_inv i s' (evs ++ ev).
Proof.
  intros (Hreg & H1 & H2 & H3) Hs. split; [by eapply reg_step|].
  pose proof (crashed_false _ _ _ _ _ Hs) as Hc. rewrite Hc in H3.
  rewrite accepted_app, reads_app, calls_app, received_app, due_app, omap_app. cbn [app].
  assert (forall s', pc_of s' i = pc_of s i -> Forall (fun e => of_listener i e = false) ev ->
    omap decoded (accepted i evs) ++ omap decoded (accepted i ev) = (reads i evs ++ reads i ev) ++ in_hand s' i /\
    due i [] evs ++ due i evs ev = (calls i evs ++ calls i ev) ++ to_call s' i /\
    ((accepted i evs ++ accepted i ev) ++ match pc_of s' i with Some (LAccept m) => if c_crashed s' then [] else [m] | _ => [] end)
      `sublist_of` received i evs ++ received i ev) as Hsame.
  { intros s1 Ep HF. destruct (quiet_parts _ _ HF) as (-> & -> & -> & ->). rewrite (due_quiet i evs ev HF). unfold in_hand, to_call.
    rewrite Ep, !app_nil_r. split; [exact H1|]. split; [exact H2|]. destruct (pc_of s i) as [[]|]; try done. by apply sublist_if. }
  destruct (step_cases _ _ _ _ _ Hs) as [Hq|[(ad & -> & El)|(j & l & q & Hl & Hst & Hm & Hpc)]].
  - destruct (Hq i) as [E HF]. by apply Hsame.
  - destruct (decide (length (c_listeners s) = i)) as [Ei|Ei].
    + assert (pc_of s i = None) as En. { unfold pc_of. rewrite lookup_ge_None_2 by lia. done. }
      assert (pc_of s' i = Some LNext) as En'. { unfold pc_of. rewrite El, <- Ei, lookup_app_r, Nat.sub_diag by lia. done. }
      unfold in_hand, to_call in *. rewrite En, En' in *. cbn. rewrite !app_nil_r in *. done.
    + apply Hsame.
      * unfold pc_of. rewrite El. destruct (decide (i < length (c_listeners s))) as [Hlt|Hge]; [by rewrite lookup_app_l by done|].
        rewrite (lookup_ge_None_2 (c_listeners s)) by lia. by rewrite lookup_ge_None_2 by (rewrite app_length; cbn; lia).
      * repeat constructor. by apply bool_decide_eq_false.
  - destruct (decide (j = i)) as [->|Hj].
    2:{ apply Hsame; [|by eapply moves_events]. rewrite Hpc. by rewrite bool_decide_eq_false_2 by congruence. }
    assert (pc_of s i = Some (l_pc l)) as Ep by (unfold pc_of; by rewrite Hl).
    specialize (Hpc i). rewrite bool_decide_eq_true_2 in Hpc by done.
    unfold in_hand, to_call in *. rewrite Ep in *. rewrite Hpc. pose proof (panic_crashes _ _ _ _ _ _ Hst) as Hpan. clear Hst Hsame Hpc Ep Hl.
    destruct Hm; cbn [accepted reads calls received omap list_omap due app]; rewrite ?bool_decide_eq_true_2 by done; cbn [omap list_omap option_bind];
      rewrite ?app_nil_r in *; rewrite ?H1, ?H2.
    all: rewrite ?H, ?app_nil_r.
    all: try (split; [reflexivity|split; [reflexivity|]]).
    all: try done.
    all: try (apply sublist_if; by apply sublist_app).
    all: try (by apply sublist_inserts_r).
    all: try (etrans; [|exact H3]; by apply sublist_inserts_r).
    + unfold decoded. rewrite H, Hpan by (right; left). rewrite !app_nil_r. done.
    + split; [done|]. split; [by rewrite (wanted_handlers s evs x Hreg)|done].
    + split; [done|]. split; [|done]. by rewrite fmap_cons, <- app_assoc.
Qed.

Lemma list_run c i ls s evs : crun c c_init ls = Some (s, evs) -> list_inv i s evs.
Proof.
  intros Hr. change evs with ([] ++ evs). apply (run_inv (cstep c) (list_inv i) (fun _ => True) c_init [] ls s evs) with (4 := Hr); [done| |by apply Forall_true].
  intros s1 evs1 l s2 ev Hi _ Hs. by eapply list_step.
Qed.

Lemma delivery c i ls s evs : crun c c_init ls = Some (s, evs) ->
  omap decoded (accepted i evs) = reads i evs ++ in_hand s i /\
  due i [] evs = calls i evs ++ to_call s i /\
  accepted i evs `sublist_of` received i evs.
Proof.
  intros Hr. destruct (list_run c i ls s evs Hr) as (_ & H1 & H2 & H3). split; [done|]. split; [done|].
  etrans; [|exact H3]. by apply sublist_inserts_r.
Qed.

(** Where listeners listen. *)
Lemma addresses c ls s evs i ad cr : crun c c_init ls = Some (s, evs) -> CListening i ad cr ∈ evs ->
  cr = 256%Z /\ ad ∈ [i_address c; String.append (i_address c) ".logs"; String.append (i_address c) ".flows"; String.append (i_address c) ".heartbeats"].
Proof.
  intros Hr. revert i ad cr.
  apply (run_inv (cstep c) (fun _ evs => forall i ad cr, CListening i ad cr ∈ evs -> cr = 256%Z /\
    ad ∈ [i_address c; String.append (i_address c) ".logs"; String.append (i_address c) ".flows"; String.append (i_address c) ".heartbeats"])
    (fun _ => True) c_init [] ls s evs) with (4 := Hr); [intros ? ? ? H; by apply elem_of_nil in H| |by apply Forall_true].
  clear. intros s evs lb s' ev Hi _ Hs i ad cr Hin. apply elem_of_app in Hin as [Hin|Hin]; [by eapply Hi|].
  unfold cstep in Hs. destruct (c_crashed s); [done|].
  assert (forall j lb, match c_listeners s !! j with Some l => listener_step s j l lb | None => None end = Some (s', ev) -> False) as Hlis.
  { intros j lb' H. destruct (c_listeners s !! j) as [l|] eqn:El; [|done]. destruct (listener_moves _ _ _ _ _ _ El H) as (q & Hq & _).
    inversion Hq; subst ev; set_solver. }
  assert (forall f lb, match c_flushes s !! f with Some x => flush_step c s f x lb | None => None end = Some (s', ev) -> False) as Hfl.
  { intros f lb' H. destruct (c_flushes s !! f) as [x|]; [|done]. unfold flush_step in H.
    destruct lb'; try done; destruct (f_pc x); try done.
    all: try (destruct (unlocked s); [|done]). all: try (destruct (f_closed x); [|done]). all: try (destruct (f_cancelled x); [|done]).
    all: injection H as <- <-; set_solver. }
  destruct lb; try (by destruct (Hlis _ _ Hs)); try (by destruct (Hfl _ _ Hs)).
  - destruct (unlocked s); [|done]. injection Hs as <- <-. set_solver.
  - injection Hs as <- <-. set_solver.
  - destruct (c_adding s); [done|]. destruct (unlocked s); [|done]. injection Hs as <- <-.
    apply elem_of_list_singleton in Hin. injection Hin as -> -> ->. split; [done|]. destruct p; cbn [listen_address]; set_solver.
  - injection Hs as <- <-. set_solver.
  - destruct (unlocked s); [|done]. destruct (c_done s); injection Hs as <- <-; set_solver.
  - destruct (c_close s); try done. destruct (_ =? _)%Z; injection Hs as <- <-; set_solver.
  - destruct (c_close s); try done. destruct (_ =? _)%Z; injection Hs as <- <-; set_solver.
  - injection Hs as <- <-. set_solver.
  - injection Hs as <- <-. set_solver.
Qed.

(** ** The wait group *)

Definition running (l : listener) : bool := match l_pc l with LEnded => false | _ => true end.
Definition live (s : cstate) : Z := Z.of_nat (length (List.filter running (c_listeners s))).

Lemma filter_alter (ls : list listener) i f l : ls !! i = Some l ->
  Z.of_nat (length (List.filter running (alter f i ls))) =
  (Z.of_nat (length (List.filter running ls)) + (if running (f l) then 1 else 0) - (if running l then 1 else 0))%Z.
Proof.
  revert i. induction ls as [|x ls IH]; intros i Hl; [done|]. destruct i as [|i].
  - injection Hl as ->. cbn [alter list_alter List.filter]. destruct (running l), (running (f l)); cbn [length]; lia.
  - cbn in Hl. change (alter f (S i) (x :: ls)) with (x :: alter f i ls). specialize (IH i Hl). cbn [List.filter].
    destruct (running x); cbn [length]; lia.
Qed.

Lemma live_set s i p l : c_listeners s !! i = Some l ->
  live (set_pc i p s) = (live s + (match p with LEnded => 0 | _ => 1 end) - (if running l then 1 else 0))%Z.
Proof.
  intros Hl. unfold live, set_pc. cbn [cs_listeners c_listeners]. rewrite (filter_alter _ _ _ _ Hl). by destruct p.
Qed.

Lemma live_cancel (ls : list listener) : length (List.filter running ((fun l => Listener (l_pc l) true) <$> ls)) = length (List.filter running ls).
Proof. induction ls as [|l ls IH]; [done|]. rewrite fmap_cons. cbn [List.filter]. change (running (Listener (l_pc l) true)) with (running l). destruct (running l); cbn [length]; by rewrite IH. Qed.

Definition closing (s : cstate) : Prop := c_close s <> ClNone.

(** The counter; cancellation; and a woken up Close has no listener left. *)
Definition wg_inv (s : cstate) : Prop :=
  c_wg s = (Z.of_nat (c_adding s) + live s)%Z /\
  (closing s -> c_done s = true /\ Forall (fun l => l_cancelled l = true) (c_listeners s)) /\
  (c_close s = ClWaiting -> (0 < c_wg s)%Z \/ c_crashed s = true) /\
  (c_close s = ClWoken -> live s = 0%Z).

Lemma alter_forall {A} (P : A -> Prop) (f : A -> A) i l : (forall x, P x -> P (f x)) -> Forall P l -> Forall P (alter f i l).
Proof.
  intros Hf HF. revert i. induction HF as [|x l Hx HF IH]; intros i; [destruct i; constructor|]. destruct i as [|i].
  - constructor; [by apply Hf|done].
  - constructor; [done|apply IH].
Qed.

Lemma live_pos s i l : c_listeners s !! i = Some l -> running l = true -> (0 < live s)%Z.
Proof.
  intros Hl Hr. unfold live. assert (In l (List.filter running (c_listeners s))) as Hin.
  { apply filter_In. split; [|done]. apply elem_of_list_In. by eapply elem_of_list_lookup_2. }
  destruct (List.filter running (c_listeners s)); [done|cbn; lia].
Qed.

Lemma live_zero s i p : live s = 0%Z -> pc_of s i = Some p -> p = LEnded.
Proof.
  unfold pc_of. intros Hz Hp. destruct (c_listeners s !! i) as [l|] eqn:El; [|done]. injection Hp as <-.
  destruct (running l) eqn:Er; [pose proof (live_pos _ _ _ El Er); lia|]. unfold running in Er. by destruct (l_pc l).
Qed.

Lemma wg_listener s i l lb s' ev : wg_inv s -> c_listeners s !! i = Some l -> c_crashed s = false ->
  listener_step s i l lb = Some (s', ev) -> wg_inv s'.
Proof.
  intros (H1 & H2 & H3 & H4) Hl Hc H.
  assert (forall p, running l = true -> match p with LEnded => False | _ => True end -> wg_inv (set_pc i p s)) as Hset.
  { intros p Hr Hp. pose proof (live_set s i p l Hl) as Hlive. rewrite Hr in Hlive.
    assert (live (set_pc i p s) = live s) as El by (destruct p; try lia; done). split; [by rewrite El|]. split; [|split; [done|by rewrite El]].
    intros Hcl. destruct (H2 Hcl) as [Hd HF]. split; [done|]. cbn [set_pc cs_listeners c_listeners]. by apply alter_forall. }
  assert (wg_inv s -> wg_inv s) as Hid by done.
  assert (forall p h, running l = true -> match p with LEnded => False | _ => True end -> wg_inv (invoke h (set_pc i p s))) as Hinv.
  { intros p h Hr Hp. destruct (invoke_same h (set_pc i p s)) as (E1 & _ & _ & E2 & E3 & E4 & E5 & E6).
    destruct (Hset p Hr Hp) as (G1 & G2 & G3 & G4). unfold wg_inv, closing, live in *. rewrite E1, E2, E3, E4, E5.
    split; [exact G1|]. split; [exact G2|]. split; [|exact G4]. intros E. destruct (G3 E); [by left|right; auto]. }
  unfold listener_step in H. 
  destruct lb as [| | | |? [m|x]|? [|x]| | | | | | | | | | | | |]; try done; destruct (l_pc l) as [|m'|x'|x' [|h hs]| |] eqn:Ep; try done.
  all: assert (running l = true) as Hr by (unfold running; by rewrite Ep).
  all: try (destruct (decode_msg (Some m')) as [[y|] [e|]|]).
  all: try (destruct (unlocked s); [|done]).
  all: injection H as <- <-.
  all: try (destruct (ends l x)).
  all: try (by apply Hset). all: try (by apply Hinv). all: try done.
  - split; [done|]. split; [done|]. split; [by right|done].
  - pose proof (live_set s i LEnded l Hl) as Hlive. rewrite Hr in Hlive.
    assert (wg_inv (cs_adding (c_adding s) (c_wg s - 1) (set_pc i LEnded s)) \/ c_close s = ClWaiting) as Hw.
    { destruct (c_close s) eqn:Ecl; [left|left|by right|left].
      all: split; [cbn [c_wg c_adding cs_adding]; change (live (cs_adding _ _ ?x)) with (live x); lia|].
      all: split; [|split; [cbn [c_close cs_adding set_pc cs_listeners]; by rewrite ?Ecl|]].
      all: try (intros Hcl; destruct H2 as [Hd HF]; [by rewrite ?Ecl|]; split; [done|]; by apply alter_forall).
      all: cbn [c_close cs_adding set_pc cs_listeners]; rewrite ?Ecl; try done.
      intros _. exfalso. pose proof (live_pos _ _ _ Hl Hr). specialize (H4 eq_refl). lia. }
    destruct (c_close s) eqn:Ecl; try (by destruct Hw).
    assert (closing s) as Hclo by (unfold closing; by rewrite ?Ecl). destruct (H2 Hclo) as [Hd HF].
    assert (0 <= live (set_pc i LEnded s))%Z by (unfold live; lia).
    destruct (_ =? 0)%Z eqn:Ez; [apply Z.eqb_eq in Ez|apply Z.eqb_neq in Ez].
    + split; [cbn [c_wg c_adding cs_adding cs_close]; change (live (cs_close _ (cs_adding _ _ ?x))) with (live x); lia|].
      split; [|split; [done|]].
      * intros _. split; [done|]. by apply alter_forall.
      * intros _. change (live (cs_close _ (cs_adding _ _ ?x))) with (live x). lia.
    + split; [cbn [c_wg c_adding cs_adding cs_close]; change (live (cs_adding _ _ ?x)) with (live x); lia|].
      split; [|split].
      * intros _. split; [done|]. by apply alter_forall.
      * intros _. left. cbn [c_wg cs_adding]. lia.
      * cbn [c_close cs_adding set_pc cs_listeners]. by rewrite ?Ecl.
Qed.

Lemma flush_same c s f x lb s' ev : flush_step c s f x lb = Some (s', ev) ->
  c_close s' = c_close s /\ c_done s' = c_done s /\ c_listeners s' = c_listeners s /\ c_adding s' = c_adding s /\ c_wg s' = c_wg s /\ c_crashed s' = c_crashed s /\
  Forall (fun e => match e with CReg _ _ | CFlush _ _ _ | CFlushRet _ _ => True | _ => False end) ev.
Proof.
  unfold flush_step. intros H. destruct lb; try done; destruct (f_pc x); try done.
  all: try (destruct (unlocked s); [|done]). all: try (destruct (f_closed x); [|done]). all: try (destruct (f_cancelled x); [|done]).
  all: injection H as <- <-; repeat (split; [done|]); repeat constructor.
Qed.

Lemma wg_step c s lb s' ev : wg_inv s -> cstep c s lb = Some (s', ev) -> wg_inv s'.
Proof.
  intros Hw Hs. pose proof (crashed_false _ _ _ _ _ Hs) as Hc. unfold cstep in Hs. rewrite Hc in Hs.
  assert (forall i lb, match c_listeners s !! i with Some l => listener_step s i l lb | None => None end = Some (s', ev) -> wg_inv s') as Hlis.
  { intros i lb' H. destruct (c_listeners s !! i) as [l|] eqn:El; [|done]. by eapply wg_listener. }
  assert (forall f lb, match c_flushes s !! f with Some x => flush_step c s f x lb | None => None end = Some (s', ev) -> wg_inv s') as Hfl.
  { intros f lb' H. destruct (c_flushes s !! f) as [x|]; [|done]. destruct (flush_same _ _ _ _ _ _ _ H) as (E1 & E2 & E3 & E4 & E5 & E6 & _).
    unfold wg_inv, closing, live in *. by rewrite E1, E2, E3, E4, E5, E6. }
  destruct Hw as (H1 & H2 & H3 & H4).
  destruct lb; try (by eapply Hlis); try (by eapply Hfl).
  - destruct (unlocked s); [|done]. injection Hs as <- <-. by destruct k.
  - injection Hs as <- <-. unfold wg_inv, closing, live in *. cbn [cs_adding c_wg c_adding c_close c_done c_listeners c_crashed].
    split; [lia|]. split; [done|]. split; [|done]. intros E. destruct (H3 E); [left; lia|by right].
  - destruct (c_adding s) as [|n] eqn:Ea; [done|]. destruct (unlocked s) eqn:Eu; [|done]. injection Hs as <- <-.
    unfold unlocked in Eu. destruct (c_close s) eqn:Ecl; try done. unfold wg_inv, closing, live in *.
    cbn [cs_adding cs_listeners c_wg c_adding c_close c_done c_listeners c_crashed]. rewrite Ecl. split; [|done].
    rewrite List.filter_app, app_length. cbn. lia.
  - injection Hs as <- <-. assert (live (cs_listeners (alter (fun l => Listener (l_pc l) true) i (c_listeners s)) s) = live s) as El.
    { unfold live. cbn [cs_listeners c_listeners]. destruct (c_listeners s !! i) as [l|] eqn:El.
      - rewrite (filter_alter _ _ _ _ El). change (running (Listener (l_pc l) true)) with (running l). destruct (running l); lia.
      - f_equal. f_equal. f_equal. apply list_eq. intros j. destruct (decide (i = j)) as [->|]; [by rewrite list_lookup_alter, El|by rewrite list_lookup_alter_ne]. }
    unfold wg_inv. rewrite El. split; [done|]. split; [|done]. intros Hcl. destruct (H2 Hcl) as [Hd HF]. split; [done|]. by apply alter_forall.
  - destruct (unlocked s) eqn:Eu; [|done]. unfold unlocked in Eu. destruct (c_close s) eqn:Ecl; try done.
    destruct (c_done s); injection Hs as <- <-; unfold wg_inv, closing, live in *; cbn [cs_crashed c_close c_done c_listeners c_wg c_adding c_crashed] in *; rewrite ?Ecl in *.
    + done.
    + rewrite live_cancel. split; [done|]. split; [|done]. intros _. split; [done|]. apply Forall_fmap. by apply Forall_true.
  - destruct (c_close s) eqn:Ecl; try done. assert (0 <= live s)%Z by (unfold live; lia).
    destruct (_ =? _)%Z eqn:Ez; injection Hs as <- <-; unfold wg_inv, closing, live in *; cbn [cs_close c_close c_done c_listeners c_wg c_adding c_crashed] in *.
    + done.
    + split; [done|]. split; [intros _; by apply H2; rewrite Ecl|]. split; [|done]. intros _. left. apply Z.eqb_neq in Ez. lia.
  - destruct (c_close s) eqn:Ecl; try done.
    destruct (_ =? _)%Z eqn:Ez; injection Hs as <- <-; unfold wg_inv, closing, live in *; cbn [cs_close cs_crashed c_close c_done c_listeners c_wg c_adding c_crashed] in *.
    + done.
    + rewrite Ecl in *. split; [done|]. split; [done|]. split; [by right|done].
  - by injection Hs as <- <-.
  - by injection Hs as <- <-.
Qed.

Lemma wg_run c ls s evs : crun c c_init ls = Some (s, evs) -> wg_inv s.
Proof.
  intros Hr. apply (run_inv (cstep c) (fun s _ => wg_inv s) (fun _ => True) c_init [] ls s evs) with (4 := Hr); [by vm_compute| |by apply Forall_true].
  intros s1 evs1 l s2 ev Hi _ Hs. by eapply wg_step.
Qed.
