(** Handlers that call the client that called them: C110.  The vocabulary is at
    the top of ClientReentryFacts.v; events are those of Client.v and
    ClientReentry.v. *)
From Coq Require Import ZArith NArith Ascii String Lia.
From stdpp Require Import base gmap strings list.
From Verif Require Import GoBase Encoding Records Messages Run Keepalive Client ClientFacts ClientClose ClientReentry ClientReentryFacts.

Local Open Scope list_scope.

(** ** C110 *)

(** Whatever handlers call and when, what the client does is what it might do
    were the calls made by others: C48-C52 hold of it. *)
Theorem C110_as_before c ls s evs : rrun c r_init ls = Some (s, evs) -> exists ls', crun c c_init ls' = Some (r_s s, base evs).
Proof. intros Hr. exact (ri_run _ _ _ (rinv_run _ _ _ _ Hr)). Qed.

(** A handler that has been called may make any call. *)
Theorem C110_may_call c ls i n x q s evs s' evs' : rrun c r_init ls = Some (s, evs) -> rstep c s (RBase (LLRun i)) = Some (s', evs') ->
  RE (CCall i (User n) x) ∈ evs' -> exists s2, rstep c s' (RCall i q) = Some (s2, [RAsk i q]).
Proof. exact (may_call c ls i n x q s evs s' evs'). Qed.

(** A call of OnRecord, OnHeartbeat or Listen made while no Close is in progress,
    and one of SendFlush at any time, needs nobody else to come back, having done
    what it is for. *)
Theorem C110_comes_back c ls s evs i q : rrun c r_init ls = Some (s, evs) -> c_crashed (r_s s) = false -> awaiting i evs = Some q ->
  q = RSendFlush \/ (q <> RClose /\ closing_now (base evs) = false) ->
  exists n s' ev', n <= 2 /\ rrun c s (replicate n (RGo i)) = Some (s', ev') /\ awaiting i (evs ++ ev') = None /\ RBack i q ∈ ev' /\ c_crashed (r_s s') = false /\
    match q with
    | RReg k m => base ev' = [CReg k (User m)]
    | RListen p => base ev' = [CListening (length (c_listeners (r_s s))) (listen_address c p) listen_credit]
    | RSendFlush => base ev' = [CFlush None (i_direct c) (flush_message c)]
    | RClose => False
    end.
Proof.
  intros Hr Hc Ha Hq. eapply go_on; try done. destruct Hq as [?|[? E]]; [by left|right]. split; [done|]. intros Hno.
  apply (now_closing _ _ _ _ Hr Hc) in Hno. congruence.
Qed.

(** Close never returns to a handler that called it. *)
Theorem C110_close_never c ls s evs i : rrun c r_init ls = Some (s, evs) -> RBack i RClose ∉ evs.
Proof. intros Hr. exact (ri_never _ _ _ (rinv_run _ _ _ _ Hr) i). Qed.

(** While a Close is in progress, whoever called it, a handler that calls
    OnRecord, OnHeartbeat, Listen or Close does not come back, and nor does that
    Close; no listener hands on another message, and nobody registers a handler,
    begins to listen or closes. *)
Theorem C110_hangs c ls0 s ev0 i q ls s' evs : rrun c r_init ls0 = Some (s, ev0) -> c_crashed (r_s s) = false -> closing_now (base ev0) = true ->
  awaiting i ev0 = Some q -> q <> RSendFlush -> rrun c s ls = Some (s', evs) ->
  forall e, e ∈ evs -> needs_lock e = false.
Proof. exact (hangs c ls0 s ev0 i q ls s' evs). Qed.

(** So the first Close, if a handler calls it, stops the client for good. *)
Theorem C110_close_hangs c ls s evs i : rrun c r_init ls = Some (s, evs) -> c_crashed (r_s s) = false -> CCloseCall ∉ base evs -> awaiting i evs = Some RClose ->
  exists s1, rrun c s [RGo i] = Some (s1, [RE CCloseCall]) /\
    forall ls2 s2 evs2, rrun c s1 ls2 = Some (s2, evs2) -> forall e, e ∈ evs2 -> needs_lock e = false.
Proof.
  intros Hr Hc Hn Ha. destruct (close_begins _ _ _ _ _ Hr Hc Hn Ha) as (s1 & Hr1 & Hc1 & Hcl & Ha1). exists s1. split; [done|].
  intros ls2 s2 evs2 Hr2. eapply (hangs c (ls ++ [RGo i])); [|exact Hc1|exact Hcl|exact Ha1|done|exact Hr2]. rewrite run_app, Hr. by rewrite Hr1.
Qed.

(** Handlers that call at most SendFlush do not keep a Close called by another
    from returning. *)
Theorem C110_close_returns c ls0 s ev0 : rrun c r_init ls0 = Some (s, ev0) -> c_crashed (r_s s) = false -> closing_now (base ev0) = true -> c_adding (r_s s) = 0 ->
  (forall i p, pc_of (r_s s) i = Some p -> match p with LAccept _ | LGet _ => False | _ => True end) ->
  (forall i, awaiting i ev0 = None \/ awaiting i ev0 = Some RSendFlush) ->
  exists ls s' evs, rrun c s ls = Some (s', evs) /\ Forall (fun l => wind l = true) ls /\ RE CClosed ∈ evs /\ c_crashed (r_s s') = false.
Proof. exact (close_can_return c ls0 s ev0). Qed.

(** A handler registers another and listens once more while a heartbeat is handed
    on: the other sees only the next one.  Then it closes the client: the second
    listener can no longer hand on what it received, and Close waits for ever. *)
Definition ex_me : info := Info "me" 1 "CONTROLLER" "mc/sfe.me" "sfe.me".
Definition ex_tick : amqp_msg := encode_heartbeat (Heartbeat (MsgProps "" "" "") "me" 1 5).
Definition glance (e : rcev) : string * nat * nat :=
  match e with
  | RE (CReg OnRec (User n)) => ("rec", 0, n) | RE (CReg OnHb (User n)) => ("hb", 0, n)
  | RE (CListening i _ _) => ("listening", i, 0)
  | RE (CCall i (User n) _) => ("call", i, n)
  | RE CCloseCall => ("close", 0, 0) | RE CClosed => ("closed", 0, 0)
  | RE (CFlush _ _ _) => ("flush", 0, 0) | RE CPanic => ("panic", 0, 0)
  | RE _ => ("", 0, 0)
  | RAsk i q => ("ask", i, match q with RReg _ _ => 0 | RListen _ => 1 | RSendFlush => 2 | RClose => 3 end)
  | RBack i q => ("back", i, match q with RReg _ _ => 0 | RListen _ => 1 | RSendFlush => 2 | RClose => 3 end)
  end.
Definition ex_see (i : nat) : list rlabel := [RBase (LLNext i (NMsg ex_tick)); RBase (LLAccept i AccOk); RBase (LLGet i)].
Definition ex_calls : list rlabel :=
  [RBase (LReg OnHb 1); RBase LListenAdd; RBase (LListen FromHeartbeats)] ++ ex_see 0 ++
  [RBase (LLRun 0); RCall 0 (RReg OnHb 2); RGo 0; RCall 0 (RListen FromHeartbeats); RGo 0; RGo 0; RBase (LLRun 0)] ++
  ex_see 1 ++ [RBase (LLRun 1); RBase (LLRun 1); RCall 1 RSendFlush].
Definition ex_closes : list rlabel := [RGo 1; RCall 1 RClose; RBase (LLNext 0 (NMsg ex_tick)); RBase (LLAccept 0 AccOk); RGo 1; RBase LCloseWait].
Definition seen (ls : list rlabel) : option (bool * list (string * nat * nat)) :=
  match rrun ex_me r_init ls with
  | Some (s, evs) => Some (c_crashed (r_s s), List.filter (fun x => negb (String.eqb (fst (fst x)) "")) (glance <$> evs))
  | None => None
  end.
Example C110_example : seen (ex_calls ++ ex_closes) = Some (false,
  [("hb", 0, 1); ("listening", 0, 0); ("call", 0, 1); ("ask", 0, 0); ("hb", 0, 2); ("back", 0, 0);
   ("ask", 0, 1); ("listening", 1, 0); ("back", 0, 1); ("call", 1, 1); ("call", 1, 2); ("ask", 1, 2);
   ("flush", 0, 0); ("back", 1, 2); ("ask", 1, 3); ("close", 0, 0)])%string.
Proof. vm_compute. reflexivity. Qed.

(** The hypotheses of C110_comes_back, C110_hangs and C110_close_hangs are met. *)
Example C110_example_hyps :
  (exists s evs, rrun ex_me r_init (ex_calls ++ ex_closes) = Some (s, evs) /\ c_crashed (r_s s) = false /\ closing_now (base evs) = true /\ awaiting 1 evs = Some RClose) /\
  (exists s evs, rrun ex_me r_init (ex_calls ++ take 2 ex_closes) = Some (s, evs) /\ c_crashed (r_s s) = false /\ CCloseCall ∉ base evs /\ awaiting 1 evs = Some RClose) /\
  (exists s evs, rrun ex_me r_init (take 8 ex_calls) = Some (s, evs) /\ c_crashed (r_s s) = false /\ closing_now (base evs) = false /\ awaiting 0 evs = Some (RReg OnHb 2)).
Proof.
  assert (forall ls (P : rstate -> list rcev -> bool), match rrun ex_me r_init ls with Some (s, evs) => P s evs | None => false end = true ->
    exists s evs, rrun ex_me r_init ls = Some (s, evs) /\ P s evs = true) as Hex.
  { intros ls P H. destruct (rrun ex_me r_init ls) as [[s evs]|]; [|done]. eauto. }
  split; [|split].
  - destruct (Hex (ex_calls ++ ex_closes) (fun s evs => negb (c_crashed (r_s s)) && closing_now (base evs) && match awaiting 1 evs with Some RClose => true | _ => false end)) as (s & evs & Hr & H); [vm_compute; reflexivity|].
    apply andb_true_iff in H as [H H3]. apply andb_true_iff in H as [H1 H2]. exists s, evs. split; [exact Hr|]. split; [by apply negb_true_iff|]. split; [done|]. by destruct (awaiting 1 evs) as [[]|].
  - destruct (Hex (ex_calls ++ take 2 ex_closes) (fun s evs => negb (c_crashed (r_s s)) && negb (existsb (fun e => match e with CCloseCall => true | _ => false end) (base evs)) && match awaiting 1 evs with Some RClose => true | _ => false end)) as (s & evs & Hr & H); [vm_compute; reflexivity|].
    apply andb_true_iff in H as [H H3]. apply andb_true_iff in H as [H1 H2]. exists s, evs. split; [exact Hr|]. split; [by apply negb_true_iff|]. split; [|by destruct (awaiting 1 evs) as [[]|]].
    intros Hin. apply negb_true_iff in H2. assert (existsb (fun e => match e with CCloseCall => true | _ => false end) (base evs) = true) as E; [|congruence].
    apply existsb_exists. exists CCloseCall. split; [by apply elem_of_list_In|done].
  - destruct (Hex (take 8 ex_calls) (fun s evs => negb (c_crashed (r_s s)) && negb (closing_now (base evs)) && match awaiting 0 evs with Some (RReg OnHb 2) => true | _ => false end)) as (s & evs & Hr & H); [vm_compute; reflexivity|].
    apply andb_true_iff in H as [H H3]. apply andb_true_iff in H as [H1 H2]. exists s, evs. split; [exact Hr|]. split; [by apply negb_true_iff|]. split; [by apply negb_true_iff|].
    destruct (awaiting 0 evs) as [[[] [|[|[|]]]| | |]|]; done.
Qed.

(** And those of C110_close_returns: another closes the client while the handler
    of the second listener has a flush to send. *)
Definition ex_others : list rlabel := ex_calls ++ [RBase LCloseBegin; RBase LCloseWait].
Definition calm_others : bool :=
  match rrun ex_me r_init ex_others with
  | Some (s, evs) => negb (c_crashed (r_s s)) && closing_now (base evs) && (c_adding (r_s s) =? 0) &&
      match c_listeners (r_s s) with [Listener LNext true; Listener (LRun _ []) true] => true | _ => false end &&
      match awaiting 0 evs, awaiting 1 evs with None, Some RSendFlush => true | _, _ => false end
  | None => false
  end.
Example C110_example_returns : calm_others = true.
Proof. vm_compute. reflexivity. Qed.

Print Assumptions C110_as_before.
Print Assumptions C110_may_call.
Print Assumptions C110_comes_back.
Print Assumptions C110_close_never.
Print Assumptions C110_hangs.
Print Assumptions C110_close_hangs.
Print Assumptions C110_close_returns.
