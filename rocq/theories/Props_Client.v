(** Clients: C48-C52.  The vocabulary is at the top of ClientFacts.v and
    ClientFlush.v; events are those of Client.v. *)
From Coq Require Import ZArith NArith Ascii String Lia.
From stdpp Require Import base gmap strings list.
From Verif Require Import GoBase Encoding SpecEncoding Records Messages SpecMessages MessageFacts Run Keepalive Client ClientFacts ClientClose ClientFlush ClientLive.

Local Open Scope list_scope.

Definition ex_source : info := Info "me" 1 "CONTROLLER" "mc/sfe.me" "sfe.me".
Definition ex_hb : amqp_msg := encode_heartbeat (Heartbeat (MsgProps "" "" "") "me" 1 5).
Definition ex_beacon : amqp_msg := encode_beacon (Beacon (MsgProps "" "" "") 1 "CONTROLLER" "mc/sfe.me" "sfe.me" "me").

(** Events, abridged. *)
Definition glance (e : cev) : string * nat * nat :=
  match e with
  | CReg OnRec _ => ("rec", 0, 0) | CReg OnHb _ => ("hb", 0, 0)
  | CListening i _ _ => ("listening", i, 0)
  | CRecv i _ => ("recv", i, 0) | CAcc i _ => ("acc", i, 0) | CRead i _ => ("read", i, 0)
  | CCall i (User n) _ => ("call", i, n) | CCall i (Awaiter f) _ => ("awaiter", i, f)
  | CEnded i => ("ended", i, 0)
  | CCloseCall => ("close", 0, 0) | CClosed => ("closed", 0, 0)
  | CFlush (Some f) _ _ => ("flush", f, 0) | CFlush None _ _ => ("flush", 0, 1)
  | CFlushStart f => ("start", f, 0) | CFlushRet f b => ("ret", f, if b then 1 else 0)
  | CPanic => ("panic", 0, 0)
  end.
Definition glances (ls : list clabel) : option (bool * list (string * nat * nat)) :=
  match crun ex_source c_init ls with Some (s, evs) => Some (c_crashed s, glance <$> evs) | None => None end.
Lemma glances_spec ls b l : glances ls = Some (b, l) ->
  exists s evs, crun ex_source c_init ls = Some (s, evs) /\ c_crashed s = b /\ glance <$> evs = l.
Proof.
  unfold glances. destruct (crun ex_source c_init ls) as [[s evs]|]; [|done]. cbn. intros E. injection E as <- <-. eauto.
Qed.
(** ** C48: handlers see every accepted, decodable message once and in order *)

(** The messages for which a listener read the handlers are those it accepted
    that decode, in order, but for one it may have in hand; the calls it made are
    one per message and handler registered by then, in order, but for those of
    the last message still to be made; what it accepted is what it received,
    without repetition or reordering. *)
Theorem C48_delivery c i ls s evs : crun c c_init ls = Some (s, evs) ->
  omap decoded (accepted i evs) = reads i evs ++ in_hand s i /\
  due i [] evs = calls i evs ++ to_call s i /\
  accepted i evs `sublist_of` received i evs.
Proof. exact (delivery c i ls s evs). Qed.

Theorem C48_addresses c ls s evs i ad cr : crun c c_init ls = Some (s, evs) -> CListening i ad cr ∈ evs ->
  cr = 256%Z /\ ad ∈ [i_address c; String.append (i_address c) ".logs"; String.append (i_address c) ".flows"; String.append (i_address c) ".heartbeats"].
Proof. exact (addresses c ls s evs i ad cr). Qed.

(** Whatever is received and whatever Next and Accept return, a listener goes
    on until its context is cancelled or the client is closed. *)
Theorem C48_goes_on c i ls s evs ad cr : crun c c_init ls = Some (s, evs) -> LCancelCtx i ∉ ls -> LCloseBegin ∉ ls ->
  ~ CEnded i ∈ evs /\ (CListening i ad cr ∈ evs -> c_crashed s = false -> listens_on c s i).
Proof. exact (survives c i ls s evs ad cr). Qed.

(** A second handler, registered in between, sees only the second heartbeat;
    beacons are ignored; the first Accept of the last message fails. *)
Definition ex_listen : list clabel := [LReg OnHb 1; LListenAdd; LListen FromHeartbeats].
Definition ex_beat : list clabel := [LLNext 0 (NMsg ex_hb); LLAccept 0 AccOk; LLGet 0].
Example C48_example : glances (ex_listen ++ ex_beat ++ [LReg OnHb 2; LLRun 0; LLRun 0; LLNext 0 (NErr true); LLNext 0 (NMsg ex_beacon); LLAccept 0 AccOk; LLGet 0; LLRun 0]
    ++ ex_beat ++ [LLRun 0; LLRun 0; LLRun 0; LLNext 0 (NMsg ex_hb); LLAccept 0 (AccErr false)]) =
  Some (false, [("hb", 0, 0); ("listening", 0, 0); ("recv", 0, 0); ("acc", 0, 0); ("read", 0, 0); ("hb", 0, 0); ("call", 0, 1);
    ("recv", 0, 0); ("acc", 0, 0); ("read", 0, 0);
    ("recv", 0, 0); ("acc", 0, 0); ("read", 0, 0); ("call", 0, 1); ("call", 0, 2); ("recv", 0, 0)])%string.
Proof. vm_compute. reflexivity. Qed.

(** ** C49: no handler runs after Close returned *)

(** Nothing at all happens to the listeners started before: no message is
    received, accepted or handled. *)
Theorem C49_silent c ls s evs a b i ad cr : crun c c_init ls = Some (s, evs) -> evs = a ++ CClosed :: b ->
  CListening i ad cr ∈ a -> forall e, e ∈ b -> of_listener i e = false.
Proof. exact (silent_after_close c ls s evs a b i ad cr). Qed.

(** Two listeners, one in the middle of its handlers when Close is called. *)
Definition ex_close : list clabel :=
  ex_listen ++ [LListenAdd; LListen FromAddress] ++ ex_beat ++ [LCloseBegin; LCloseWait; LLRun 0; LLNext 1 (NErr true); LLRun 0; LLClose 1; LLNext 0 (NErr true); LLClose 0; LCloseWake].
Example C49_example : glances (ex_close ++ [LReg OnRec 3; LSendFlush]) =
  Some (false, [("hb", 0, 0); ("listening", 0, 0); ("listening", 1, 0); ("recv", 0, 0); ("acc", 0, 0); ("read", 0, 0); ("close", 0, 0);
    ("call", 0, 1); ("ended", 1, 0); ("ended", 0, 0); ("closed", 0, 0); ("rec", 0, 0); ("flush", 0, 1)])%string.
Proof. vm_compute. reflexivity. Qed.

(** ** C50: when Close returns *)

(** Never, if a listener has to deliver a message, or a call of Listen is under
    way, when Close has taken the lock. *)
Theorem C50_deadlock c ls0 s ev0 ls s' evs : crun c c_init ls0 = Some (s, ev0) -> closing s ->
  ((exists i x, pc_of s i = Some (LGet x)) \/ 0 < c_adding s) -> crun c s ls = Some (s', evs) -> closing s' /\ ~ CClosed ∈ evs.
Proof. exact (never_returns c ls0 s ev0 ls s' evs). Qed.

(** One message is enough. *)
Definition ex_stuck : list clabel := ex_listen ++ [LLNext 0 (NMsg ex_hb); LLAccept 0 AccOk; LCloseBegin; LCloseWait].
Definition stuckb : bool :=
  match crun ex_source c_init ex_stuck with
  | Some (s, evs) =>
      match c_close s, c_listeners s with ClWaiting, [Listener (LGet _) true] => negb (c_crashed s) | _, _ => false end
  | None => false
  end.
Theorem C50_refuted : exists ls0 s ev0, crun ex_source c_init ls0 = Some (s, ev0) /\ c_crashed s = false /\
  Forall (fun l => l_cancelled l = true) (c_listeners s) /\ closing s /\
  forall ls s' evs, crun ex_source s ls = Some (s', evs) -> ~ CClosed ∈ evs.
Proof.
  assert (stuckb = true) as H by (vm_compute; reflexivity). unfold stuckb in H. exists ex_stuck.
  destruct (crun ex_source c_init ex_stuck) as [[s evs]|] eqn:Er; [|discriminate H]. exists s, evs. split; [done|].
  destruct (c_close s) eqn:Ecl; try discriminate H. destruct (c_listeners s) as [|[p b] [|]] eqn:El; try discriminate H.
  2: by destruct p, b.
  destruct p as [| |x| | |]; try discriminate H. destruct b; [|discriminate H]. apply negb_true_iff in H.
  assert (closing s) as Hcl by (unfold closing; by rewrite Ecl).
  split; [done|]. split; [by repeat constructor|]. split; [done|]. intros ls s' evs' Hr.
  refine (proj2 (C50_deadlock _ _ _ _ _ _ _ Er Hcl _ Hr)). left. exists 0, x. unfold pc_of. by rewrite El.
Qed.

(** Otherwise it does, as long as cancelled receivers fail with the context's
    error: after finitely many further steps of listeners and Close, and there is
    always one to make until then. *)
Theorem C50_returns c ls0 s ev0 : crun c c_init ls0 = Some (s, ev0) -> c_crashed s = false -> closing s -> c_adding s = 0 ->
  (forall i p, pc_of s i = Some p -> match p with LAccept _ | LGet _ => False | _ => True end) ->
  exists n, forall ls s' evs, Forall behaved ls -> crun c s ls = Some (s', evs) ->
    count_down ls <= n /\ c_crashed s' = false /\
    (CClosed ∈ evs \/ exists lb, winds_down lb = true /\ is_Some (cstep c s' lb)).
Proof. exact (returns c ls0 s ev0). Qed.

Definition calmb : bool :=
  match crun ex_source c_init (ex_listen ++ [LListenAdd; LListen FromAddress] ++ ex_beat ++ [LCloseBegin; LCloseWait]) with
  | Some (s, _) =>
      match c_close s, c_listeners s with ClWaiting, [Listener (LRun _ [_]) true; Listener LNext true] => negb (c_crashed s) && (c_adding s =? 0) | _, _ => false end
  | None => false
  end.
(** The hypotheses are met in the run of C49, after LCloseWait. *)
Example C50_example : calmb = true.
Proof. vm_compute. reflexivity. Qed.

(** ** C51: Close cannot be called again *)

Theorem C51_second_close_panics c ls s evs : crun c c_init ls = Some (s, evs) -> CClosed ∈ evs -> c_crashed s = false -> c_close s = ClNone ->
  exists s', cstep c s LCloseBegin = Some (s', [CCloseCall; CPanic]) /\ c_crashed s' = true.
Proof. exact (second_close c ls s evs). Qed.
(** The first call does not panic, whatever happened before it. *)
Lemma done_called c ls s evs : crun c c_init ls = Some (s, evs) -> c_done s = true -> CCloseCall ∈ evs.
Proof.
  intros Hr. change evs with ([] ++ evs).
  apply (run_inv (cstep c) (fun s evs => c_done s = true -> CCloseCall ∈ evs) (fun _ => True) c_init [] ls s evs) with (4 := Hr); [done| |by apply Forall_true].
  intros s1 evs1 lb s2 ev Hi _ Hs Hd. apply elem_of_app.
  assert (c_done s2 = c_done s1 \/ CCloseCall ∈ ev) as [E|?]; [|left; apply Hi; congruence|by right].
  unfold cstep in Hs. destruct (c_crashed s1); [done|].
  destruct lb; try (destruct (c_listeners s1 !! i) as [l|]; [|done]; left; by eapply listener_same);
    try (destruct (c_flushes s1 !! f) as [x|]; [|done]; cbn [flush_step] in Hs; destruct (f_pc x); try done; try (destruct (unlocked s1); [|done]);
         try (destruct (f_closed x); [|done]); try (destruct (f_cancelled x); [|done]); injection Hs as <- _; by left).
  - destruct (unlocked s1); [|done]. injection Hs as <- _. left. by destruct k.
  - injection Hs as <- _. by left.
  - destruct (c_adding s1); [done|]. destruct (unlocked s1); [|done]. injection Hs as <- _. by left.
  - injection Hs as <- _. by left.
  - destruct (unlocked s1); [|done]. destruct (c_done s1); injection Hs as <- <-; right; apply elem_of_list_here.
  - destruct (c_close s1); try done. destruct (_ =? _)%Z; injection Hs as <- _; by left.
  - destruct (c_close s1); try done. destruct (_ =? _)%Z; injection Hs as <- _; by left.
  - injection Hs as <- _. by left.
  - injection Hs as <- _. by left.
Qed.
Theorem C51_first_close c ls s evs s' ev : crun c c_init ls = Some (s, evs) -> CCloseCall ∉ evs -> cstep c s LCloseBegin = Some (s', ev) ->
  ev = [CCloseCall] /\ c_crashed s' = false.
Proof.
  intros Hr Hn Hs. unfold cstep in Hs. destruct (c_crashed s); [done|]. destruct (unlocked s); [|done].
  destruct (c_done s) eqn:Ed; [|by injection Hs as <- <-]. by destruct (Hn (done_called c ls s evs Hr Ed)).
Qed.
(** For every client without listeners to begin with. *)
Theorem C51_refuted c : exists s, crun c c_init [LCloseBegin; LCloseWait; LCloseBegin] = Some (s, [CCloseCall; CClosed; CCloseCall; CPanic]) /\ c_crashed s = true.
Proof. eexists. split; [reflexivity|reflexivity]. Qed.
Example C51_example : glances (ex_close ++ [LCloseBegin]) =
  Some (true, [("hb", 0, 0); ("listening", 0, 0); ("listening", 1, 0); ("recv", 0, 0); ("acc", 0, 0); ("read", 0, 0); ("close", 0, 0);
    ("call", 0, 1); ("ended", 1, 0); ("ended", 0, 0); ("closed", 0, 0); ("close", 0, 0); ("panic", 0, 0)])%string.
Proof. vm_compute. reflexivity. Qed.

(** ** C52: FlushOnFirstMessage sends one flush, after a message *)

Theorem C52_at_most_one c f ls s evs : crun c c_init ls = Some (s, evs) -> length (flushes f evs) <= 1.
Proof. exact (one_flush c f ls s evs). Qed.

Theorem C52_after_message c f ls s evs a b ad m : crun c c_init ls = Some (s, evs) -> evs = a ++ CFlush (Some f) ad m :: b ->
  (exists a1 i x a2, a = a1 ++ CCall i (Awaiter f) x :: a2 /\ CFlushStart f ∈ a1 /\ is_update x) /\
  ad = i_direct c /\ decode_msg (Some m) = RDone (Some (MsgFlush (Flush (MsgProps (i_direct c) "FLUSH" "")))) None.
Proof.
  intros Hr E. split; [by eapply flush_after|]. destruct (flush_events c ls s evs (Some f) ad m Hr) as [-> ->]; [rewrite E; apply elem_of_app; right; left|].
  split; [done|]. apply flush_content.
Qed.

Theorem C52_cancelled c f ls s evs : crun c c_init ls = Some (s, evs) -> CFlushRet f true ∈ evs -> flushes f evs = [].
Proof. exact (cancelled_no_flush c f ls s evs). Qed.

(** Once a message was delivered the flush can be sent, unless the call returned
    because its context was over; and once that is over it can return. *)
Theorem C52_flushes c f ls s evs i x : crun c c_init ls = Some (s, evs) -> c_crashed s = false -> CReg OnHb (Awaiter f) ∈ evs ->
  CCall i (Awaiter f) x ∈ evs -> ~ CFlushRet f true ∈ evs -> flushes f evs <> [] \/ is_Some (cstep c s (LFlushTake f)).
Proof. exact (flush_possible c f ls s evs i x). Qed.
Theorem C52_returns c f ls s evs : crun c c_init ls = Some (s, evs) -> c_crashed s = false -> CReg OnHb (Awaiter f) ∈ evs ->
  flushes f evs = [] -> (forall x, c_flushes s !! f = Some x -> f_cancelled x = true) ->
  CFlushRet f true ∈ evs \/ exists s', cstep c s (LFlushCtx f) = Some (s', [CFlushRet f true]).
Proof. exact (cancel_possible c f ls s evs). Qed.

(** However many messages come, a client only crashes on a message that makes
    Decode panic, when closed again, or when Listen is called during Close. *)
Theorem C52_harmless c ls s evs lb s' ev : crun c c_init ls = Some (s, evs) -> cstep c s lb = Some (s', ev) -> c_crashed s' = true ->
  (exists i m, lb = LLAccept i AccOk /\ pc_of s i = Some (LAccept m) /\ decode_msg (Some m) = RPanic) \/
  (lb = LCloseBegin /\ c_done s = true) \/ (lb = LCloseWake /\ 0 < c_adding s).
Proof. exact (crash_causes c ls s evs lb s' ev). Qed.

(** Two messages in two listeners, one flush; a second call is cancelled. *)
Example C52_example : glances ([LFlush; LFlushReg 0; LFlushReg 0; LFlush; LFlushReg 1; LFlushReg 1; LListenAdd; LListen FromHeartbeats; LListenAdd; LListen FromAddress;
    LFlushCancel 1; LFlushCtx 1] ++ ex_beat ++ [LLRun 0; LFlushTake 0; LLNext 1 (NMsg ex_hb); LLAccept 1 AccOk; LLGet 1; LLRun 1; LLRun 1; LFlushSent 0; LLRun 0]) =
  Some (false, [("start", 0, 0); ("rec", 0, 0); ("hb", 0, 0); ("start", 1, 0); ("rec", 0, 0); ("hb", 0, 0); ("listening", 0, 0); ("listening", 1, 0);
    ("ret", 1, 1); ("recv", 0, 0); ("acc", 0, 0); ("read", 0, 0); ("awaiter", 0, 0); ("flush", 0, 0);
    ("recv", 1, 0); ("acc", 1, 0); ("read", 1, 0); ("awaiter", 1, 0); ("awaiter", 1, 1); ("ret", 0, 0); ("awaiter", 0, 1)])%string.
Proof. vm_compute. reflexivity. Qed.

Print Assumptions C48_delivery.
Print Assumptions C48_addresses.
Print Assumptions C48_goes_on.
Print Assumptions C49_silent.
Print Assumptions C50_deadlock.
Print Assumptions C50_refuted.
Print Assumptions C50_returns.
Print Assumptions C51_second_close_panics.
Print Assumptions C51_first_close.
Print Assumptions C51_refuted.
Print Assumptions C52_at_most_one.
Print Assumptions C52_after_message.
Print Assumptions C52_cancelled.
Print Assumptions C52_flushes.
Print Assumptions C52_returns.
Print Assumptions C52_harmless.
