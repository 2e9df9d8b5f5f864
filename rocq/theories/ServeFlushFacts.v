(** How long a flush request waits, and how often flushes are served. *)
From Coq Require Import ZArith NArith Ascii String Lia.
From stdpp Require Import base gmap strings list.
From Verif Require Import GoBase Encoding Records Messages SpecMessages MessageFacts Env SyncMap Tokens Cache SpecStore StoreExamples Dispatch Diff ConvergeFacts Run Manager ManagerFacts ServeTime ServeTimeFacts.

Local Open Scope list_scope.
Local Open Scope Z_scope.
Local Opaque vanflow_registry builtin_types record_types Encode Decode attrs_of.

(** ** Specification *)

(** How many flush requests were received; a failure counts as one. *)
Fixpoint requests (evs : list (Z * mev)) : Z :=
  match evs with
  | [] => 0
  | (_, (MFlushReq | MFlushFail)) :: evs' => 1 + requests evs'
  | _ :: evs' => requests evs'
  end.

(** How many updates were published. *)
Definition updates (evs : list (Z * mev)) : Z := Z.of_nat (length (waits evs)).

(** ** What a step of the loop does *)

Lemma requests_app e1 e2 : requests (e1 ++ e2) = requests e1 + requests e2.
Proof. induction e1 as [|[t []] e1 IH]; cbn [app requests]; lia. Qed.

Lemma updates_app e1 e2 : updates (e1 ++ e2) = updates e1 + updates e2.
Proof. unfold updates. rewrite waits_app, app_length, fmap_length. lia. Qed.

Lemma passes_pos evs : 0 <= passes evs.
Proof. induction evs as [|[t []] evs IH]; cbn [passes]; lia. Qed.

(** The counts before and after: the place, the length of the channel of updates,
    the flush requests queued. *)
Inductive moves (c : tmcfg) (now until : Z) : spc -> Z -> Z -> spc -> Z -> Z -> list mev -> Prop :=
  | MvPublish p r f u : moves c now until p r f p (r + 1) f [MPublished u]
  | MvRecv p r f ok : moves c now until p r f p r (if f <? 8 then f + 1 else f) [if ok : bool then MFlushReq else MFlushFail]
  | MvOther p r f ev : (ev = [] \/ (exists m am ok, ev = [MSent m am ok]) \/ exists m, ev = [MSkipped m]) -> moves c now until p r f p r f ev
  | MvTake r f buf : 0 < r -> 0 < tc_buffer c -> moves c now until SIdle r f (SBuffer buf) (r - 1) f []
  | MvTakeOne r f p' : 0 < r -> (p' = SIdle \/ exists m, p' = SSend m) -> moves c now until SIdle r f p' (r - 1) f []
  | MvMore r f buf p' : 0 < r -> (p' = SIdle \/ (exists m, p' = SSend m) \/ exists buf', p' = SBuffer buf') -> moves c now until (SBuffer buf) r f p' (r - 1) f []
  | MvBuffered r f buf p' : until <= now -> (p' = SIdle \/ exists m, p' = SSend m) -> moves c now until (SBuffer buf) r f p' r f []
  | MvSend r f m : moves c now until (SSend m) r f SIdle r f [MQueued true m]
  | MvFlush r f : 0 < f -> 0 < tc_delay c -> moves c now until SIdle r f (SDrain 0) r (f - 1) []
  | MvFlushNow r f q tok : 0 < f -> tc_delay c <= 0 -> moves c now until SIdle r f (SPass q tok) r (f - 1) [MPassStart]
  | MvDrain r f n : 0 < f -> moves c now until (SDrain n) r f (SDrain (n + 1)) r (f - 1) []
  | MvDrainFull r f n q tok : 0 < f -> n + 1 = 2048 -> moves c now until (SDrain n) r f (SPass q tok) r (f - 1) [MPassStart]
  | MvDrained r f n q tok : until <= now -> moves c now until (SDrain n) r f (SPass q tok) r f [MPassStart]
  | MvPassEnd r f tok : moves c now until (SPass [] tok) r f SIdle r f [MPassEnd]
  | MvPass r f q tok p' : (exists q' tok', p' = SPass q' tok' \/ exists m, p' = SPassSend m q' tok') -> moves c now until (SPass q tok) r f p' r f []
  | MvPassSend r f m q tok : moves c now until (SPassSend m q tok) r f (SPass q tok) r f [MQueued false m].

Definition nchanges (s : mstate) : Z := Z.of_nat (length (m_changes s)).

Lemma step_moves c s l m' ev : m_cancelled (tm_m s) = false -> l <> LCancel -> tm_enabled s l = true -> mstep (tc_cfg c) (tm_m s) l = Some (m', ev) ->
  m_cancelled m' = false /\
  (m_crashed m' = true \/ moves c (tm_now s) (tm_until s) (m_serve (tm_m s)) (nchanges (tm_m s)) (m_flushes (tm_m s)) (m_serve m') (nchanges m') (m_flushes m') ev).
Proof.
  intros El Hl Hen H. destruct s as [m now until]. cbn [tm_m tm_now tm_until] in *. destruct (m_crashed m) eqn:Hc. { unfold mstep in H. by rewrite Hc in H. }
  unfold mstep in H. rewrite Hc in H. destruct l as [u|e a|ok| |ok| | |i e o]; try done.
  - destruct (_ <? 256); [|done]. injection H as <- <-. split; [done|]. right. unfold nchanges. flags. rewrite app_length. cbn [length].
    rewrite Nat2Z.inj_add. apply MvPublish.
  - assert (forall s2 e2 buf s1, s2 = finish_batch e2 buf s1 -> m_crashed s1 = false -> m_changes s2 = m_changes s1 /\ m_flushes s2 = m_flushes s1 /\ m_cancelled s2 = m_cancelled s1 /\
      (m_crashed s2 = true \/ m_serve s2 = SIdle \/ exists mm, m_serve s2 = SSend mm)) as Hfin.
    { intros s2 e2 buf s1 -> _. unfold finish_batch. destruct (batch_records e2 buf) as [[|? ?]|]; flags; eauto 10. }
    unfold serve_step in H. destruct (m_serve m) as [|buf|mm|n|q tok|mm q tok|] eqn:Ep; destruct a; try discriminate H.
    + destruct (m_changes m) as [|u q] eqn:Ech; [done|]. unfold nchanges. rewrite Ech. cbn [length]. rewrite Nat2Z.inj_succ.
      destruct (mc_buffers (tc_cfg c) && (1 <? mc_batch (tc_cfg c))) eqn:Eb; injection H as <- <-.
      * apply andb_true_iff in Eb as [Eb _]. cbn in Eb. apply Z.ltb_lt in Eb. flags. split; [done|]. right.
        assert (Z.of_nat (length q) = Z.succ (Z.of_nat (length q)) - 1) as E by lia. rewrite E at 2. apply MvTake; [lia|done].
      * destruct (Hfin _ e [u] (set_changes q m) eq_refl Hc) as (E1 & E2 & E3 & E4). rewrite E1, E2, E3. flags. split; [done|]. destruct E4 as [?|E4]; [by left|]. right.
        assert (Z.of_nat (length q) = Z.succ (Z.of_nat (length q)) - 1) as E by lia. rewrite E at 2. apply MvTakeOne; [lia|done].
    + destruct (Z.ltb_spec 0 (m_flushes m)); [|done]. destruct (mc_delays (tc_cfg c)) eqn:Ed; cbn in Ed; injection H as <- <-; (split; [done|]); right; flags.
      * apply MvFlush; [done|by apply Z.ltb_lt].
      * apply MvFlushNow; [done|by apply Z.ltb_ge].
    + by rewrite El in H.
    + destruct (m_changes m) as [|u q] eqn:Ech; [done|]. unfold nchanges. rewrite Ech. cbn [length]. rewrite Nat2Z.inj_succ.
      assert (Z.of_nat (length q) = Z.succ (Z.of_nat (length q)) - 1) as E by lia.
      destruct (_ =? _); injection H as <- <-.
      * unfold buffered. flags. rewrite El. destruct (Hfin _ e (buf ++ [u]) (set_changes q m) eq_refl Hc) as (E1 & E2 & E3 & E4). rewrite E1, E2, E3. flags. split; [done|].
        destruct E4 as [?|E4]; [by left|]. right. rewrite E at 2. apply MvMore; [lia|]. destruct E4 as [?|?]; eauto.
      * flags. split; [done|]. right. rewrite E at 2. apply MvMore; [lia|]. eauto.
    + injection H as <- <-. cbn in Hen. rewrite El in Hen. cbn in Hen. apply Z.leb_le in Hen. unfold buffered. rewrite El.
      destruct (Hfin _ e buf m eq_refl Hc) as (E1 & E2 & E3 & E4). unfold nchanges. rewrite E1, E2, E3. split; [done|]. destruct E4 as [?|E4]; [by left|]. right. by apply MvBuffered.
    + by rewrite El in H.
    + destruct (_ <? 256); [|done]. injection H as <- <-. flags. split; [done|]. right. apply MvSend.
    + destruct (Z.ltb_spec 0 (m_flushes m)); [|done]. destruct (Z.eqb_spec (n + 1) 2048).
      * unfold drained, start_pass in H. flags. rewrite El in H. injection H as <- <-. split; [done|]. right. flags. by apply MvDrainFull.
      * injection H as <- <-. split; [done|]. right. flags. by apply MvDrain.
    + unfold drained, start_pass in H. rewrite El in H. injection H as <- <-. split; [done|]. right. cbn in Hen. rewrite El in Hen. cbn in Hen. apply Z.leb_le in Hen. flags. by apply MvDrained.
    + by destruct q.
    + by destruct q.
    + by destruct q.
    + by destruct q.
    + by destruct q.
    + destruct q as [|i q]; injection H as <- <-.
      * split; [done|]. right. flags. apply MvPassEnd.
      * unfold list_next. destruct ((run_op _ _ _ _).1.2) as [|? ?|l tk [er|]|? ?|]; flags; try (split; [done|]; right; rewrite Ep; apply MvPass; eauto); try (split; [done|]; by left).
        destruct l; flags; (split; [done|]); right; apply MvPass; eauto.
    + by rewrite El in H.
    + destruct (_ <? 256); [|done]. injection H as <- <-. flags. split; [done|]. right. apply MvPassSend.
  - destruct (m_listening m); [|done]. injection H as <- <-. split; [by destruct (m_flushes m <? 8)|]. right.
    assert (m_serve (if m_flushes m <? 8 then set_flushes (m_flushes m + 1) m else m) = m_serve m) as -> by (by destruct (m_flushes m <? 8)).
    assert (nchanges (if m_flushes m <? 8 then set_flushes (m_flushes m + 1) m else m) = nchanges m) as -> by (by destruct (m_flushes m <? 8)).
    assert (m_flushes (if m_flushes m <? 8 then set_flushes (m_flushes m + 1) m else m) = if m_flushes m <? 8 then m_flushes m + 1 else m_flushes m) as -> by (by destruct (m_flushes m <? 8)).
    apply MvRecv.
  - by rewrite El, andb_false_r in H.
  - destruct (m_sending m); [|done]. unfold send_step in H. destruct (m_sends m) as [|mm q]; [done|].
    destruct (encode_record_msg _) as [am|er|]; injection H as <- <-; flags; (split; [done|]); [right|right|by left]; apply MvOther; right; eauto 10.
  - by rewrite El, andb_false_r in H.
  - destruct (run_op _ _ _ _) as [[? ?] ?]. injection H as <- <-. split; [done|]. right. apply MvOther. by left.
Qed.

(** ** How long a request waits *)

Section asked.
Context (c : tmcfg) (P : Z) (HP : 0 <= P).

Definition Bf : Z := Z.max 0 (tc_buffer c).
Definition Fd : Z := Z.max 0 (tc_delay c).

(** With [z] updates published since, less those still in the channel. *)
Definition upto (z : Z) : Z := Z.max 0 (z + 1) * (Bf + P).
Definition upto1 (z : Z) : Z := Z.max 1 (z + 1) * (Bf + P).

Lemma upto_mono z z' : z <= z' -> upto z <= upto z'.
Proof. intros H. unfold upto. apply Z.mul_le_mono_nonneg_r; unfold Bf; lia. Qed.
Lemma upto1_mono z z' : z <= z' -> upto1 z <= upto1 z'.
Proof. intros H. unfold upto1. apply Z.mul_le_mono_nonneg_r; unfold Bf; lia. Qed.
Lemma upto_next z : upto z + (Bf + P) <= upto1 (z + 1).
Proof. unfold upto, upto1. transitivity ((Z.max 0 (z + 1) + 1) * (Bf + P)); [lia|]. apply Z.mul_le_mono_nonneg_r; unfold Bf; lia. Qed.
Lemma upto_one z : 0 <= z -> upto1 z = upto z.
Proof. intros H. unfold upto, upto1. f_equal. lia. Qed.
Lemma upto_le z : upto z <= upto1 z.
Proof. unfold upto, upto1. apply Z.mul_le_mono_nonneg_r; unfold Bf; lia. Qed.

(** The loop, and what it has to do. *)
Record steady (s : tmstate) (b : option Z) : Prop := Steady {
  sd_live : m_cancelled (tm_m s) = false;
  sd_run : m_serve (tm_m s) <> SStopped;
  sd_b : if ready s then is_Some b else b = None;
  sd_busy : forall t, b = Some t -> t <= tm_now s <= t + P;
  sd_flushes : 0 <= m_flushes (tm_m s);
  sd_until : match m_serve (tm_m s) with
    | SBuffer _ => tm_until s <= tm_now s + Bf /\ (forall t, b = Some t -> t <= tm_until s)
    | SDrain _ => tm_until s <= tm_now s + Fd /\ (forall t, b = Some t -> t <= tm_until s)
    | _ => True
    end;
}.

(** A request of [t] is not served yet, and [n] updates were published since. *)
Record asked (s : tmstate) (b : option Z) (t n : Z) : Prop := Asked {
  ak_n : 0 <= n;
  ak_there : 0 < m_flushes (tm_m s) \/ match m_serve (tm_m s) with SDrain _ => True | _ => False end;
  ak_since : forall t0, b = Some t0 -> match m_serve (tm_m s) with SDrain _ => True | _ => t0 <= t + upto (n - nchanges (tm_m s)) end;
  ak_until : match m_serve (tm_m s) with
    | SBuffer _ => tm_until s <= t + upto1 (n - nchanges (tm_m s))
    | SDrain _ => tm_until s <= t + upto n + P + Fd
    | _ => True
    end;
}.

Lemma asked_bound s b t n : steady s b -> asked s b t n -> tm_now s <= t + (n + 1) * (Bf + P) + Fd + 2 * P.
Proof.
  intros [] []. assert (upto (n - nchanges (tm_m s)) <= upto n) as H1 by (apply upto_mono; unfold nchanges; lia).
  assert (upto1 (n - nchanges (tm_m s)) <= upto1 n) as H2 by (apply upto1_mono; unfold nchanges; lia). rewrite (upto_one n) in H2 by done.
  assert (upto n = (n + 1) * (Bf + P)) as E by (unfold upto; f_equal; lia). assert (0 <= Fd) by (unfold Fd; lia).
  destruct b as [t0|].
  - specialize (ak_since0 _ eq_refl). specialize (sd_busy0 _ eq_refl). destruct (m_serve (tm_m s)); try lia. destruct sd_until0 as [_ Hu]. specialize (Hu _ eq_refl). lia.
  - unfold ready in sd_b0. rewrite sd_live0 in sd_b0. destruct (m_serve (tm_m s)) eqn:Ep; try (by destruct sd_b0); try done.
    + destruct ak_there0 as [Hf|[]]. rewrite (proj2 (Z.ltb_lt _ _) Hf), orb_true_r in sd_b0. by destruct sd_b0.
    + destruct (Z.leb_spec (tm_until s) (tm_now s)); [rewrite orb_true_r in sd_b0; by destruct sd_b0|]. lia.
    + destruct (Z.leb_spec (tm_until s) (tm_now s)); [rewrite orb_true_r in sd_b0; by destruct sd_b0|]. lia.
Qed.

Lemma next_some b s t : next_since b s = Some t -> b = Some t \/ b = None /\ t = ready_since s.
Proof. unfold next_since. destruct (ready s); [|done]. intros [= <-]. destruct b; eauto. Qed.

(** When it has nothing to do. *)
Lemma steady_idle s : steady s None -> (m_serve (tm_m s) = SIdle /\ m_flushes (tm_m s) = 0 /\ nchanges (tm_m s) = 0) \/
  (exists buf, m_serve (tm_m s) = SBuffer buf /\ nchanges (tm_m s) = 0) \/ exists n, m_serve (tm_m s) = SDrain n.
Proof.
  intros []. unfold ready in sd_b0. rewrite sd_live0 in sd_b0. unfold nchanges. destruct (m_serve (tm_m s)) eqn:Ep; try (by destruct sd_b0); try done; eauto.
  - destruct (m_changes (tm_m s)); [|by destruct sd_b0]. left. split; [done|]. split; [|done]. cbn in sd_b0. destruct (Z.ltb_spec 0 (m_flushes (tm_m s))); [by destruct sd_b0|]. lia.
  - destruct (m_changes (tm_m s)); [|by destruct sd_b0]. eauto.
Qed.

Lemma next_until b s : (forall t, b = Some t -> t <= tm_until s) -> match m_serve (tm_m s) with SBuffer _ | SDrain _ => True | _ => False end ->
  forall t, next_since b s = Some t -> t <= tm_until s.
Proof.
  intros Hb Hs t E. apply next_some in E as [E|[_ ->]]; [by apply Hb|]. unfold ready_since. destruct (m_serve (tm_m s)); try done; lia.
Qed.

Lemma steady_time s b dt : 0 <= dt -> steady s b ->
  (match next_since b (TMState (tm_m s) (tm_now s + dt) (tm_until s)) with Some t => tm_now s + dt <= t + P | None => True end) ->
  steady (TMState (tm_m s) (tm_now s + dt) (tm_until s)) (next_since b (TMState (tm_m s) (tm_now s + dt) (tm_until s))).
Proof.
  intros Hdt [] Hb. constructor; cbn [tm_m tm_now tm_until]; try done.
  - apply next_b.
  - match goal with |- forall t, next_since ?b ?s = Some t -> _ => apply (next_busy P 0 b s) end; [|exact Hb]. intros t E. specialize (sd_busy0 t E). cbn. lia.
  - destruct (m_serve (tm_m s)) eqn:Ep; try done; destruct sd_until0 as [H1 H2]; (split; [lia|]).
    all: apply (next_until b (TMState (tm_m s) (tm_now s + dt) (tm_until s))); [done|cbn; by rewrite Ep].
Qed.

Lemma steady_step s b l s' ev : steady s b -> l <> TMStep LCancel -> tmstep c s l = Some (s', ev) ->
  (match next_since b s' with Some t => tm_now s' <= t + P | None => True end) -> m_crashed (tm_m s') = true \/ steady s' (next_since b s').
Proof.
  intros Hs Hl H Hb. destruct l as [dt|l]; cbn [tmstep] in H.
  { destruct (Z.leb_spec 0 dt); [|done]. injection H as <- <-. right. by apply steady_time. }
  destruct (tm_enabled s l) eqn:Een; [|done]. destruct (mstep (tc_cfg c) (tm_m s) l) as [[m' ev']|] eqn:Em; [|done]. injection H as <- <-. cbn [tm_m].
  destruct (step_moves c s l m' ev' (sd_live _ _ Hs)) as (El & [?|Hm]); [congruence|done|done|by left|]. right. destruct Hs.
  assert (0 <= Bf /\ 0 <= Fd) as [HB HF] by (unfold Bf, Fd; lia).
  constructor; cbn [tm_m tm_now tm_until]; try done.
  - intros E. rewrite E in Hm. inversion Hm; subst; try congruence; try naive_solver.
  - apply next_b.
  - match goal with |- forall t, next_since ?b ?s = Some t -> _ => apply (next_busy P 0 b s) end; [|exact Hb]. intros t E. specialize (sd_busy0 t E). cbn. lia.
  - inversion Hm; subst; try lia. all: try (destruct (m_flushes (tm_m s) <? 8); lia).
  - assert (forall u, b = Some u -> u <= tm_now s) as Hle by (intros u E; specialize (sd_busy0 u E); lia).
    pose proof (next_until b (TMState m' (tm_now s) (new_until c (m_serve (tm_m s)) (m_serve m') (tm_now s) (tm_until s)))) as Hnu. cbn [tm_m tm_until] in Hnu.
    destruct (m_serve m') eqn:E'; try done.
    + assert ((exists bf, m_serve (tm_m s) = SBuffer bf) \/ m_serve (tm_m s) = SIdle /\ 0 < tc_buffer c) as [[bf Ep]|[Ep H0]].
      { inversion Hm; subst; try congruence; eauto; try naive_solver. }
      * rewrite Ep in *. cbn [new_until] in *. destruct sd_until0 as [H1 H2]. split; [done|]. by apply Hnu.
      * rewrite Ep in *. cbn [new_until] in *. assert (Bf = tc_buffer c) as EB by (unfold Bf; lia). split; [lia|]. apply Hnu; [|done]. intros u E. specialize (Hle u E). lia.
    + assert ((exists k, m_serve (tm_m s) = SDrain k) \/ m_serve (tm_m s) = SIdle /\ 0 < tc_delay c) as [[bf Ep]|[Ep H0]].
      { inversion Hm; subst; try congruence; eauto; try naive_solver. }
      * rewrite Ep in *. cbn [new_until] in *. destruct sd_until0 as [H1 H2]. split; [done|]. by apply Hnu.
      * rewrite Ep in *. cbn [new_until] in *. assert (Fd = tc_delay c) as EB by (unfold Fd; lia). split; [lia|]. apply Hnu; [|done]. intros u E. specialize (Hle u E). lia.
Qed.

Definition drains (p : spc) : Prop := match p with SDrain _ => True | _ => False end.

Lemma asked_moves p r f p' r' f' ev now until b b' t n : moves c now until p r f p' r' f' ev -> passes (pair now <$> ev) = 0 -> 0 <= n -> 0 <= r -> t <= now ->
  (0 < f \/ drains p) -> (forall t0, b = Some t0 -> match p with SDrain _ => True | _ => t0 <= t + upto (n - r) end) ->
  match p with SBuffer _ => until <= t + upto1 (n - r) | SDrain _ => until <= t + upto n + P + Fd | _ => True end ->
  (forall t0, b = Some t0 -> now <= t0 + P) -> (b = None -> now < until /\ ((exists buf, p = SBuffer buf) /\ r = 0 \/ drains p /\ f <= 0)) ->
  (forall t0, b' = Some t0 -> b = Some t0 \/ b = None /\ t0 <= now) ->
  (0 < f' \/ drains p') /\
  (forall t0, b' = Some t0 -> match p' with SDrain _ => True | _ => t0 <= t + upto (n + updates (pair now <$> ev) - r') end) /\
  match p' with SBuffer _ => new_until c p p' now until <= t + upto1 (n + updates (pair now <$> ev) - r')
    | SDrain _ => new_until c p p' now until <= t + upto (n + updates (pair now <$> ev)) + P + Fd | _ => True end.
Proof.
  intros Hm Hp Hn Hr Ht Hth Hsi Hun Hpr Hno Hb'.
  assert (0 <= Bf /\ 0 <= Fd) as [HB HF] by (unfold Bf, Fd; lia).
  assert (forall z, upto z <= upto (z + 1)) as M0 by (intros z; apply upto_mono; lia).
  assert (forall z, upto1 z <= upto1 (z + 1)) as M1 by (intros z; apply upto1_mono; lia).
  pose proof upto_next as Mn. pose proof upto_le as Ml.
  (* the same place, and the same difference *)
  assert (forall p0 k d, p = p0 -> n + k - (r + d) = n - r -> 0 <= k ->
    (forall t0, b' = Some t0 -> match p0 with SDrain _ => True | _ => t0 <= t + upto (n + k - (r + d)) end) /\
    match p0 with SBuffer _ => until <= t + upto1 (n + k - (r + d)) | SDrain _ => until <= t + upto (n + k) + P + Fd | _ => True end) as Hkeep.
  { intros p0 k d <- E Hk. rewrite E. split.
    - intros t0 E0. destruct (Hb' _ E0) as [E1|[E1 E2]]; [by apply Hsi|]. destruct (Hno E1) as (H1 & [[[buf Ep] H2]|[H2 _]]); [|by destruct p].
      rewrite Ep in *. rewrite H2, Z.sub_0_r in *. rewrite upto_one in Hun by done. lia.
    - destruct p; try done. assert (upto n <= upto (n + k)) by (apply upto_mono; lia). lia. }
  (* another place: it had something to do *)
  assert ((match p with SBuffer _ => r <> 0 \/ until <= now | SDrain _ => 0 < f \/ until <= now | _ => True end) -> exists t1, b = Some t1 /\ now <= t1 + P) as Hsome.
  { intros Hq. destruct b as [t1|]; [exists t1; split; [done|by apply Hpr]|]. exfalso. destruct (Hno eq_refl) as (H1 & [[[buf ->] H2]|[H2 H3]]); [destruct Hq; lia|].
    destruct p; try done. destruct Hq; lia. }
  assert (forall k, updates [(now, k)] = match k with MPublished _ => 1 | _ => 0 end) as Eup by (by intros []).
  assert (b <> None -> forall t0, b' = Some t0 -> b = Some t0) as Hold by (intros Hx t0 E0; destruct (Hb' _ E0) as [?|[? _]]; done).
  destruct Hm; cbn [fmap list_fmap passes new_until drains] in *; rewrite ?Eup; change (updates []) with 0 in *; try done.
  - (* publish *) rewrite new_until_same. split; [done|]. apply (Hkeep p 1 1); [done|lia|lia].
  - (* a request *) rewrite new_until_same. replace (match (if ok then MFlushReq else MFlushFail) with MPublished _ => 1 | _ => 0 end) with 0 by (by destruct ok).
    split; [destruct Hth as [?|?]; [left; destruct (f <? 8); lia|by right]|].
    replace (n + 0 - r) with (n + 0 - (r + 0)) by lia. apply (Hkeep p 0 0); [done|lia|lia].
  - (* the others *) rewrite new_until_same.
    assert (updates (pair now <$> ev) = 0) as -> by (destruct H as [->|[(? & ? & ? & ->)|(? & ->)]]; done).
    split; [done|]. replace (n + 0 - r) with (n + 0 - (r + 0)) by lia. apply (Hkeep p 0 0); [done|lia|lia].
  - (* take *) destruct (Hsome I) as (t1 & -> & Hnow). specialize (Hsi _ eq_refl). split; [done|].
    replace (n + 0 - (r - 1)) with (n - r + 1) by lia. split.
    + intros t0 E0. apply Hold in E0; [|done]. injection E0 as <-. specialize (M0 (n - r)). lia.
    + specialize (Mn (n - r)). assert (Bf = tc_buffer c) as EB by (unfold Bf; lia). lia.
  - (* take one *) destruct (Hsome I) as (t1 & -> & Hnow). specialize (Hsi _ eq_refl). 
    replace (n + 0 - (r - 1)) with (n - r + 1) by lia. assert (~ drains p') as Hnd by (intros Hnd; by destruct H0 as [->|[? ->]]). split; [tauto|]. split.
    + intros t0 E0. apply Hold in E0; [|done]. injection E0 as <-. specialize (M0 (n - r)). destruct p'; (done || lia).
    + by destruct H0 as [->|[? ->]].
  - (* more *) destruct Hsome as (t1 & -> & Hnow); [lia|]. specialize (Hsi _ eq_refl).
    replace (n + 0 - (r - 1)) with (n - r + 1) by lia. assert (~ drains p') as Hnd by (intros Hnd; by destruct H0 as [->|[[? ->]|[? ->]]]). split; [tauto|]. split.
    + intros t0 E0. apply Hold in E0; [|done]. injection E0 as <-. specialize (M0 (n - r)). destruct p'; (done || lia).
    + destruct H0 as [->|[[? ->]|[? ->]]]; try done. specialize (M1 (n - r)). lia.
  - (* buffered *) destruct Hsome as (t1 & -> & Hnow); [lia|]. specialize (Hsi _ eq_refl).
    replace (n + 0 - r) with (n - r) by lia. assert (~ drains p') as Hnd by (intros Hnd; by destruct H0 as [->|[? ->]]). split; [tauto|]. split.
    + intros t0 E0. apply Hold in E0; [|done]. injection E0 as <-. destruct p'; (done || lia).
    + by destruct H0 as [->|[? ->]].
  - (* send *) destruct (Hsome I) as (t1 & -> & Hnow). specialize (Hsi _ eq_refl). split; [tauto|]. split; [|done].
    intros t0 E0. apply Hold in E0; [|done]. injection E0 as <-. replace (n + 0 - r) with (n - r) by lia. done.
  - (* flush *) destruct (Hsome I) as (t1 & -> & Hnow). specialize (Hsi _ eq_refl). split; [by right|]. split; [done|].
    assert (upto (n - r) <= upto (n + 0)) by (apply upto_mono; lia). assert (Fd = tc_delay c) as EB by (unfold Fd; lia). lia.
  - (* drain *) split; [by right|]. split; [done|]. by rewrite Z.add_0_r.
  - (* the end of a pass *) destruct (Hsome I) as (t1 & -> & Hnow). specialize (Hsi _ eq_refl). split; [tauto|]. split; [|done].
    intros t0 E0. apply Hold in E0; [|done]. injection E0 as <-. replace (n + 0 - r) with (n - r) by lia. done.
  - (* a pass *) destruct (Hsome I) as (t1 & -> & Hnow). specialize (Hsi _ eq_refl). assert (~ drains p') as Hnd by (intros Hnd; by destruct H as (? & ? & [->|[? ->]])). split; [tauto|]. split.
    + intros t0 E0. apply Hold in E0; [|done]. injection E0 as <-. replace (n + 0 - r) with (n - r) by lia. by destruct p'.
    + by destruct H as (? & ? & [->|[? ->]]).
  - destruct (Hsome I) as (t1 & -> & Hnow). specialize (Hsi _ eq_refl). split; [tauto|]. split; [|done].
    intros t0 E0. apply Hold in E0; [|done]. injection E0 as <-. replace (n + 0 - r) with (n - r) by lia. done.
Qed.

Lemma asked_step s b l s' ev t n : steady s b -> asked s b t n -> t <= tm_now s -> l <> TMStep LCancel -> tmstep c s l = Some (s', ev) -> passes ev = 0 ->
  m_crashed (tm_m s') = true \/ asked s' (next_since b s') t (n + updates ev).
Proof.
  intros Hs Ha Ht Hl H Hp.
  destruct l as [dt|l]; cbn [tmstep] in H.
  { destruct (Z.leb_spec 0 dt); [|done]. injection H as <- <-. right.
    assert (b = None -> (exists buf, m_serve (tm_m s) = SBuffer buf /\ nchanges (tm_m s) = 0) \/ exists k, m_serve (tm_m s) = SDrain k) as Hi.
    { intros ->. destruct (steady_idle s Hs) as [(E1 & E2 & _)|[?|?]]; eauto. destruct Ha. rewrite E1, E2 in ak_there0. destruct ak_there0; [lia|done]. }
    destruct Ha, Hs. assert (n + updates [] = n) as -> by (change (updates []) with 0; lia). constructor; cbn [tm_m tm_now tm_until]; try done.
    intros t0 E. apply next_some in E as [E|[E ->]]; [by apply ak_since0|]. destruct (Hi E) as [(buf & Ep & Er)|(k & Ep)]; rewrite Ep in *; [|done].
    unfold ready_since. cbn. rewrite Ep. rewrite Er, Z.sub_0_r in *. rewrite upto_one in ak_until0 by done. lia. }
  destruct (tm_enabled s l) eqn:Een; [|done]. destruct (mstep (tc_cfg c) (tm_m s) l) as [[m' ev']|] eqn:Em; [|done]. injection H as <- <-. cbn [tm_m].
  destruct (step_moves c s l m' ev' (sd_live _ _ Hs)) as (El & [?|Hm]); [congruence|done|done|by left|]. right.
  assert (b = None -> tm_now s < tm_until s /\ ((exists buf, m_serve (tm_m s) = SBuffer buf) /\ nchanges (tm_m s) = 0 \/ drains (m_serve (tm_m s)) /\ m_flushes (tm_m s) <= 0)) as Hno.
  { intros ->. destruct Hs, Ha. unfold ready in sd_b0. rewrite sd_live0 in sd_b0. destruct (m_serve (tm_m s)) eqn:Ep; try (by destruct sd_b0); try done; unfold nchanges.
    - destruct ak_there0 as [Hf|[]]. rewrite (proj2 (Z.ltb_lt _ _) Hf), orb_true_r in sd_b0. by destruct sd_b0.
    - destruct (m_changes (tm_m s)); [|by destruct sd_b0]. cbn in sd_b0. destruct (Z.leb_spec (tm_until s) (tm_now s)); [by destruct sd_b0|]. eauto.
    - destruct (Z.ltb_spec 0 (m_flushes (tm_m s))); [by destruct sd_b0|]. cbn in sd_b0. destruct (Z.leb_spec (tm_until s) (tm_now s)); [by destruct sd_b0|]. split; [done|]. right. done. }
  destruct Ha. pose proof (sd_busy _ _ Hs) as Hbusy.
  set (s' := TMState m' (tm_now s) (new_until c (m_serve (tm_m s)) (m_serve m') (tm_now s) (tm_until s))).
  destruct (asked_moves _ _ _ _ _ _ _ _ _ b (next_since b s') t n Hm Hp ak_n0) as (H1 & H2 & H3); try done.
  - unfold nchanges. lia.
  - intros t0 E. specialize (Hbusy t0 E). lia.
  - intros t0 E. apply next_some in E as [E|[E ->]]; [by left|]. right. split; [done|]. unfold ready_since. subst s'. cbn. destruct (m_serve m'); lia.
  - constructor; try done. unfold updates. lia.
Qed.

(** A new request. *)
Lemma moves_recv now until p r f p' r' f' ev e : moves c now until p r f p' r' f' ev -> e ∈ ev -> e = MFlushReq \/ e = MFlushFail ->
  p' = p /\ r' = r /\ f' = (if f <? 8 then f + 1 else f) /\ ev = [e].
Proof.
  intros Hm He Hf. destruct Hm; try (by apply elem_of_nil in He); try (apply elem_of_list_singleton in He as ->; destruct Hf; done).
  destruct H as [->|[(? & ? & ? & ->)|(? & ->)]]; [by apply elem_of_nil in He|..]; apply elem_of_list_singleton in He as ->; destruct Hf; done.
Qed.

Lemma asked_new s b l s' ev t e : steady s b -> l <> TMStep LCancel -> m_crashed (tm_m s') = false -> tmstep c s l = Some (s', ev) -> (t, e) ∈ ev -> e = MFlushReq \/ e = MFlushFail ->
  asked s' (next_since b s') (tm_now s) 0 /\ ev = [(tm_now s, e)] /\ tm_now s' = tm_now s.
Proof.
  intros Hs Hl Hc H Hin He. destruct l as [dt|l]; cbn [tmstep] in H. { destruct (0 <=? dt); [|done]. injection H as <- <-. by apply elem_of_nil in Hin. }
  destruct (tm_enabled s l) eqn:Een; [|done]. destruct (mstep (tc_cfg c) (tm_m s) l) as [[m' ev']|] eqn:Em; [|done]. injection H as <- <-. cbn [tm_m] in Hc.
  destruct (step_moves c s l m' ev' (sd_live _ _ Hs)) as (El & [?|Hm]); [congruence|done|done|congruence|].
  apply elem_of_list_fmap in Hin as (x & [= -> <-] & Hin). destruct (moves_recv _ _ _ _ _ _ _ _ _ _ Hm Hin He) as (Es & Ec & Ef & ->). split; [|done].
  assert (0 < m_flushes m') as Hf. { destruct Hs. rewrite Ef. destruct (Z.ltb_spec (m_flushes (tm_m s)) 8); lia. }
  assert (0 <= nchanges (tm_m s)) as Hn by (unfold nchanges; lia).
  assert (forall z, 0 <= upto z) as H0 by (intros z; unfold upto, Bf; apply Z.mul_nonneg_nonneg; lia).
  rewrite Es, new_until_same.
  assert (forall t0, next_since b (TMState m' (tm_now s) (tm_until s)) = Some t0 -> t0 <= tm_now s) as Hle.
  { intros t0 E. apply next_some in E as [E|[E ->]]; [apply Hs in E; lia|]. unfold ready_since. cbn. destruct (m_serve m'); lia. }
  destruct Hs. constructor; cbn [tm_m tm_now tm_until]; rewrite ?Es, ?Ec; try done.
  - by left.
  - intros t0 E. specialize (Hle t0 E). specialize (H0 (0 - nchanges (tm_m s))). destruct (m_serve (tm_m s)); (done || lia).
  - assert (Bf + P <= upto1 (0 - nchanges (tm_m s))) by (unfold upto1; transitivity (1 * (Bf + P)); [lia|]; apply Z.mul_le_mono_nonneg_r; unfold Bf; lia).
    destruct (m_serve (tm_m s)); try done; [lia|]. specialize (H0 0). lia.
Qed.

(** The requests that no pass followed. *)
Definition pending (s : tmstate) (b : option Z) (evs : list (Z * mev)) : Prop :=
  forall a t e d, evs = a ++ (t, e) :: d -> e = MFlushReq \/ e = MFlushFail -> passes d = 0 -> t <= tm_now s /\ asked s b t (updates d).

Lemma app_split {A} (l1 l2 a d : list A) x : l1 ++ l2 = a ++ x :: d ->
  (exists d1, l1 = a ++ x :: d1 /\ d = d1 ++ l2) \/ exists a1, a = l1 ++ a1 /\ l2 = a1 ++ x :: d.
Proof.
  revert a. induction l1 as [|y l1 IH]; intros a H; [right; by exists a|]. destruct a as [|z a].
  - cbn in H. injection H as <- <-. left. by exists l1.
  - cbn in H. injection H as <- H. destruct (IH a H) as [(d1 & -> & ->)|(a1 & -> & ->)]; [left|right]; eauto.
Qed.

Lemma pending_step s b l s' evs ev : steady s b -> pending s b evs -> l <> TMStep LCancel -> tmstep c s l = Some (s', ev) ->
  m_crashed (tm_m s') = true \/ pending s' (next_since b s') (evs ++ ev).
Proof.
  intros Hs Hp Hl H. destruct (m_crashed (tm_m s')) eqn:Hc; [by left|]. right. intros a t e d E He Hd.
  assert (tm_now s <= tm_now s') as Hle. { destruct l; cbn [tmstep] in H; [destruct (Z.leb_spec 0 dt); [|done]; injection H as <- <-; cbn; lia|].
    destruct (tm_enabled s l); [|done]. destruct (mstep _ _ _) as [[? ?]|]; [|done]. injection H as <- <-. cbn. lia. }
  apply app_split in E as [(d1 & E & ->)|(a1 & -> & E)].
  - rewrite passes_app in Hd. pose proof (passes_pos d1). pose proof (passes_pos ev). destruct (Hp _ _ _ _ E He) as [Hq1 Hq2]; [lia|]. split; [lia|].
    rewrite updates_app. destruct (asked_step s b l s' ev t (updates d1)) as [?|?]; try done; [lia|congruence].
  - destruct (asked_new s b l s' ev t e) as (Ha & -> & En); try done. { rewrite E. apply elem_of_app. right. left. }
    destruct a1 as [|? [|? ?]]; cbn in E; try done. injection E as <- <-. split; [lia|exact Ha].
Qed.

Lemma pending_run s b evs0 ls s' evs : steady s b -> pending s b evs0 -> LCancel ∉ untimed ls -> tmrun c s ls = Some (s', evs) -> keeps_up c P b s ls ->
  m_crashed (tm_m s') = true \/ exists b', steady s' b' /\ pending s' b' (evs0 ++ evs).
Proof.
  intros Hs Hp Hl. revert s b evs0 evs Hs Hp. induction ls as [|l ls IH]; intros s b evs0 evs Hs Hp Hr Hk.
  - injection Hr as <- <-. right. exists b. by rewrite app_nil_r.
  - unfold tmrun in Hr. cbn [run keeps_up] in Hr, Hk. destruct (tmstep c s l) as [[s1 ev1]|] eqn:E; [|done].
    destruct (run (tmstep c) s1 ls) as [[s2 ev2]|] eqn:E2; [|done]. injection Hr as <- <-. destruct Hk as [Hk1 Hk]. rewrite app_assoc.
    assert (l <> TMStep LCancel) as Hlc by (intros ->; apply Hl; left).
    assert (LCancel ∉ untimed ls) as Hl' by (intros Hin; apply Hl; destruct l; [exact Hin|by right]).
    destruct (steady_step s b l s1 ev1 Hs Hlc E Hk1) as [Hc|Hs1]; [|destruct (pending_step s b l s1 evs0 ev1 Hs Hp Hlc E) as [Hc|Hp1]].
    + left. clear -Hc E2. revert s1 ev2 Hc E2. induction ls as [|l ls IH]; intros s1 ev2 Hc E2; [by injection E2 as <- <-|].
      cbn [run] in E2. destruct (tmstep c s1 l) as [[s3 ev3]|] eqn:E3; [|done]. destruct (run (tmstep c) s3 ls) as [[s4 ev4]|] eqn:E4; [|done]. injection E2 as <- <-.
      apply (IH s3 ev4); [|done]. destruct l; cbn [tmstep] in E3; [destruct (0 <=? dt); [|done]; by injection E3 as <- <-|].
      destruct (tm_enabled s1 l); [|done]. unfold mstep in E3. by rewrite Hc in E3.
    + left. clear -Hc E2. revert s1 ev2 Hc E2. induction ls as [|l ls IH]; intros s1 ev2 Hc E2; [by injection E2 as <- <-|].
      cbn [run] in E2. destruct (tmstep c s1 l) as [[s3 ev3]|] eqn:E3; [|done]. destruct (run (tmstep c) s3 ls) as [[s4 ev4]|] eqn:E4; [|done]. injection E2 as <- <-.
      apply (IH s3 ev4); [|done]. destruct l; cbn [tmstep] in E3; [destruct (0 <=? dt); [|done]; by injection E3 as <- <-|].
      destruct (tm_enabled s1 l); [|done]. unfold mstep in E3. by rewrite Hc in E3.
    + by apply (IH Hl' s1 (next_since b s1)).
Qed.
End asked.

(** A request is answered by a pass in bounded time. *)
Lemma answered c P w now ls s evs a t e d : 0 <= P -> LCancel ∉ untimed ls -> tmrun c (tm_init w now) ls = Some (s, evs) -> keeps_up c P None (tm_init w now) ls ->
  m_crashed (tm_m s) = false -> evs = a ++ (t, e) :: d -> e = MFlushReq \/ e = MFlushFail -> passes d = 0 ->
  tm_now s <= t + (updates d + 1) * (Z.max 0 (tc_buffer c) + P) + Z.max 0 (tc_delay c) + 2 * P.
Proof.
  intros HP Hl Hr Hk Hc E He Hd.
  assert (steady c P (tm_init w now) None) as Hs0 by (constructor; [done|done|done|done|cbn; lia|done]).
  assert (pending c P (tm_init w now) None []) as Hp0 by (intros [|? ?] ? ? ? Ex; discriminate Ex).
  destruct (pending_run c P HP (tm_init w now) None [] ls s evs Hs0 Hp0 Hl Hr Hk) as [?|(b & Hs & Hp)]; [congruence|].
  destruct (Hp a t e d E He Hd) as [_ Ha]. exact (asked_bound c P HP s b t (updates d) Hs Ha).
Qed.

(** ** How often flushes are served *)

Definition drained_so_far (p : spc) : Z := match p with SDrain n => n + 1 | _ => 0 end.

(** What is known of the last pass, and of passes one after the other. *)
Record paced (c : tmcfg) (s : tmstate) (evs : list (Z * mev)) : Prop := Paced {
  pa_live : m_cancelled (tm_m s) = false;
  pa_flushes : m_flushes (tm_m s) <= 8;
  pa_last : forall a t d, evs = a ++ (t, MPassStart) :: d -> passes d = 0 ->
    t <= tm_now s /\ m_flushes (tm_m s) + drained_so_far (m_serve (tm_m s)) <= 8 + requests d /\ (drains (m_serve (tm_m s)) -> t + tc_delay c <= tm_until s);
  pa_two : forall a t1 d t2 e, evs = a ++ (t1, MPassStart) :: d ++ (t2, MPassStart) :: e -> passes d = 0 -> t1 + tc_delay c <= t2 \/ 2041 <= requests d;
}.

Lemma requests_pos evs : 0 <= requests evs.
Proof. induction evs as [|[t []] evs IH]; cbn [requests]; lia. Qed.

(** One step: a pass starts, or the counts go on. *)
Lemma moves_count c now until p r f p' r' f' ev : moves c now until p r f p' r' f' ev -> f <= 8 ->
  f' <= 8 /\
  (ev = [MPassStart] /\ f' + drained_so_far p' <= 8 /\ ~ drains p' /\ (p = SIdle /\ tc_delay c <= 0 \/ drains p /\ (until <= now \/ 2049 <= f + drained_so_far p)) \/
   passes (pair now <$> ev) = 0 /\ f' + drained_so_far p' <= f + drained_so_far p + requests (pair now <$> ev) /\
   (drains p' -> drains p /\ new_until c p p' now until = until \/ new_until c p p' now until = now + tc_delay c)).
Proof.
  intros Hm Hf. destruct Hm; cbn [fmap list_fmap passes requests drained_so_far new_until drains] in *; rewrite ?new_until_same.
  all: try (split; [lia|]; right; split; [done|]; split; [lia|]; tauto).
  - destruct (Z.ltb_spec f 8); (split; [lia|]); right; (split; [by destruct ok|]); (split; [destruct ok; lia|]); tauto.
  - split; [done|]. right. destruct H as [->|[(? & ? & ? & ->)|(? & ->)]]; cbn; (split; [done|]); (split; [lia|]); tauto.
  - split; [done|]. right. split; [done|]. destruct H0 as [->|[? ->]]; cbn; (split; [lia|]); tauto.
  - split; [done|]. right. split; [done|]. destruct H0 as [->|[[? ->]|[? ->]]]; cbn; (split; [lia|]); tauto.
  - split; [done|]. right. split; [done|]. destruct H0 as [->|[? ->]]; cbn; (split; [lia|]); tauto.
  - split; [lia|]. left. split; [done|]. split; [lia|]. split; [tauto|]. by left.
  - split; [lia|]. left. split; [done|]. split; [lia|]. split; [tauto|]. right. split; [done|]. right. lia.
  - split; [lia|]. left. split; [done|]. split; [lia|]. split; [tauto|]. right. split; [done|]. by left.
  - split; [done|]. right. split; [done|]. destruct H as (? & ? & [->|[? ->]]); cbn; (split; [lia|]); tauto.
Qed.

Lemma paced_step c s l s' evs ev : paced c s evs -> l <> TMStep LCancel -> tmstep c s l = Some (s', ev) -> m_crashed (tm_m s') = true \/ paced c s' (evs ++ ev).
Proof.
  intros [Hl Hf Ha Hb] Hlc H. destruct l as [dt|l]; cbn [tmstep] in H.
  { destruct (Z.leb_spec 0 dt); [|done]. injection H as <- <-. right. rewrite app_nil_r. constructor; try done. intros a t d E Hd. destruct (Ha a t d E Hd). cbn [tm_m tm_now tm_until]. split; [lia|done]. }
  destruct (tm_enabled s l) eqn:Een; [|done]. destruct (mstep (tc_cfg c) (tm_m s) l) as [[m' ev']|] eqn:Em; [|done]. injection H as <- <-. cbn [tm_m].
  destruct (step_moves c s l m' ev' Hl) as (El & [?|Hm]); [congruence|done|done|by left|]. right.
  destruct (moves_count _ _ _ _ _ _ _ _ _ _ Hm Hf) as (Hf' & [(-> & H1 & H2 & H3)|(H1 & H2 & H3)]).
  - cbn [fmap list_fmap]. constructor; cbn [tm_m tm_now tm_until]; try done.
    + intros a t d E Hd. apply app_split in E as [(d1 & E & ->)|(a1 & -> & E)].
      { rewrite passes_app in Hd. cbn in Hd. pose proof (passes_pos d1). lia. }
      destruct a1 as [|? [|? ?]]; cbn in E; try done. injection E as <- <-. split; [lia|]. split; [cbn; lia|]. intros Hx. by destruct (H2 Hx).
    + intros a t1 d t2 e E Hd. replace (a ++ (t1, MPassStart) :: d ++ (t2, MPassStart) :: e) with ((a ++ (t1, MPassStart) :: d) ++ (t2, MPassStart) :: e) in E by (by rewrite <- app_assoc).
      apply app_split in E as [(e1 & E & ->)|(a1 & E1 & E)].
      * apply (Hb a t1 d t2 e1); [|done]. by rewrite E, <- app_assoc.
      * destruct a1 as [|? [|? ?]]; cbn in E; try done. injection E as <- <-. rewrite app_nil_r in E1. destruct (Ha a t1 d) as (G1 & G2 & G3); [done|done|].
        destruct H3 as [[_ H3]|[H3 [H4|H4]]]; [left; lia| |right; lia]. left. specialize (G3 H3). lia.
  - constructor; cbn [tm_m tm_now tm_until]; try done.
    + intros a t d E Hd. apply app_split in E as [(d1 & E & ->)|(a1 & -> & E)].
      * rewrite passes_app in Hd. destruct (Ha a t d1 E) as (G1 & G2 & G3); [lia|]. split; [done|]. rewrite requests_app. split; [lia|].
        intros Hd'. destruct (H3 Hd') as [[Hd0 ->]| ->]; [by apply G3|lia].
      * exfalso. rewrite E, passes_app in H1. cbn in H1. pose proof (passes_pos a1). pose proof (passes_pos d). lia.
    + intros a t1 d t2 e E Hd. replace (a ++ (t1, MPassStart) :: d ++ (t2, MPassStart) :: e) with ((a ++ (t1, MPassStart) :: d) ++ (t2, MPassStart) :: e) in E by (by rewrite <- app_assoc).
      apply app_split in E as [(e1 & E & ->)|(a1 & E1 & E)].
      * apply (Hb a t1 d t2 e1); [|done]. by rewrite E, <- app_assoc.
      * exfalso. rewrite E, passes_app in H1. cbn in H1. pose proof (passes_pos a1). pose proof (passes_pos e). lia.
Qed.

Lemma crashed_stays c s ls s' evs : m_crashed (tm_m s) = true -> tmrun c s ls = Some (s', evs) -> m_crashed (tm_m s') = true.
Proof.
  revert s evs. induction ls as [|l ls IH]; intros s evs Hc H; [by injection H as <- <-|]. unfold tmrun in H. cbn [run] in H.
  destruct (tmstep c s l) as [[s3 ev3]|] eqn:E3; [|done]. destruct (run (tmstep c) s3 ls) as [[s4 ev4]|] eqn:E4; [|done]. injection H as <- <-.
  apply (IH s3 ev4); [|done]. destruct l; cbn [tmstep] in E3; [destruct (0 <=? dt); [|done]; by injection E3 as <- <-|].
  destruct (tm_enabled s l); [|done]. unfold mstep in E3. by rewrite Hc in E3.
Qed.

Lemma spaced c w now ls s evs a t1 d t2 e : LCancel ∉ untimed ls -> tmrun c (tm_init w now) ls = Some (s, evs) -> m_crashed (tm_m s) = false ->
  evs = a ++ (t1, MPassStart) :: d ++ (t2, MPassStart) :: e -> passes d = 0 -> t1 + tc_delay c <= t2 \/ 2041 <= requests d.
Proof.
  intros Hl Hr Hc E Hd.
  assert (m_crashed (tm_m s) = true \/ paced c s ([] ++ evs)) as [?|Hp]; [|congruence|by apply (pa_two _ _ _ Hp a t1 d t2 e)].
  refine (run_inv (tmstep c) (fun s evs => m_crashed (tm_m s) = true \/ paced c s evs) (fun l => l <> TMStep LCancel) (tm_init w now) [] ls s evs _ _ _ Hr).
  - right. constructor; [done|cbn; lia|..]; intros [|? ?] ? ? ?; intros; done.
  - intros s1 evs1 l s2 ev [Hc1|Hp] Hl1 Hs; [left|by eapply paced_step].
    apply (crashed_stays c s1 [l] s2 ev Hc1). unfold tmrun. rewrite run_one, Hs. done.
  - apply Forall_forall. intros l Hin ->. apply Hl. apply elem_of_list_omap. by exists (TMStep LCancel).
Qed.

(** ** Without flush requests *)

Lemma recv_requests c s ls s' evs ok : tmrun c s ls = Some (s', evs) -> LRecv ok ∈ untimed ls -> 1 <= requests evs.
Proof.
  revert s evs. induction ls as [|l ls IH]; intros s evs H Hin; [by apply elem_of_nil in Hin|]. unfold tmrun in H. cbn [run] in H.
  destruct (tmstep c s l) as [[s1 ev1]|] eqn:E1; [|done]. destruct (run (tmstep c) s1 ls) as [[s2 ev2]|] eqn:E2; [|done]. injection H as <- <-. rewrite requests_app.
  pose proof (requests_pos ev1). pose proof (requests_pos ev2). destruct l as [dt|l]; [specialize (IH _ _ E2 Hin); lia|].
  apply elem_of_cons in Hin as [<-|Hin]; [|specialize (IH _ _ E2 Hin); lia].
  cbn [tmstep tm_enabled] in E1. unfold mstep in E1. destruct (m_crashed (tm_m s)); [done|]. destruct (m_listening (tm_m s)); [|done]. unfold recv_step in E1. injection E1 as <- <-.
  destruct ok; cbn; lia.
Qed.

Lemma moves_calm c now until p r f p' r' f' ev : moves c now until p r f p' r' f' ev -> f = 0 -> match p with SDrain _ | SPass _ _ | SPassSend _ _ _ => False | _ => True end ->
  requests (pair now <$> ev) = 0 -> passes (pair now <$> ev) = 0 /\ f' = 0 /\ match p' with SDrain _ | SPass _ _ | SPassSend _ _ _ => False | _ => True end.
Proof.
  intros Hm Hf Hp Hr. destruct Hm; subst; try done; try lia.
  - by destruct ok.
  - destruct H as [->|[(? & ? & ? & ->)|(? & ->)]]; done.
  - destruct H0 as [->|[? ->]]; done.
  - destruct H0 as [->|[[? ->]|[? ->]]]; done.
  - destruct H0 as [->|[? ->]]; done.
Qed.

Lemma no_passes c w now ls s evs : LCancel ∉ untimed ls -> tmrun c (tm_init w now) ls = Some (s, evs) -> m_crashed (tm_m s) = false -> requests evs = 0 -> passes evs = 0.
Proof.
  intros Hl Hr Hc Hq.
  assert (m_crashed (tm_m s) = true \/ m_cancelled (tm_m s) = false /\ (requests ([] ++ evs) = 0 -> passes ([] ++ evs) = 0 /\ m_flushes (tm_m s) = 0 /\
    match m_serve (tm_m s) with SDrain _ | SPass _ _ | SPassSend _ _ _ => False | _ => True end)) as [?|[_ Hp]]; [|congruence|by apply Hp].
  refine (run_inv (tmstep c) (fun s evs => m_crashed (tm_m s) = true \/ m_cancelled (tm_m s) = false /\ (requests evs = 0 -> passes evs = 0 /\ m_flushes (tm_m s) = 0 /\
    match m_serve (tm_m s) with SDrain _ | SPass _ _ | SPassSend _ _ _ => False | _ => True end)) (fun l => l <> TMStep LCancel) (tm_init w now) [] ls s evs _ _ _ Hr).
  - by right.
  - intros s1 evs1 l s2 ev [Hc1|[Hlv Hp]] Hl1 Hs.
    { left. apply (crashed_stays c s1 [l] s2 ev Hc1). unfold tmrun. rewrite run_one, Hs. done. }
    destruct l as [dt|l]; cbn [tmstep] in Hs.
    { destruct (0 <=? dt); [|done]. injection Hs as <- <-. right. rewrite app_nil_r. done. }
    destruct (tm_enabled s1 l) eqn:Een; [|done]. destruct (mstep (tc_cfg c) (tm_m s1) l) as [[m' ev']|] eqn:Em; [|done]. injection Hs as <- <-. cbn [tm_m].
    destruct (step_moves c s1 l m' ev' Hlv) as (El & [?|Hm]); [congruence|done|done|by left|]. right. split; [done|]. rewrite requests_app, passes_app. intros Hz.
    pose proof (requests_pos evs1). pose proof (requests_pos (pair (tm_now s1) <$> ev')). destruct Hp as (P1 & P2 & P3); [lia|].
    destruct (moves_calm _ _ _ _ _ _ _ _ _ _ Hm P2 P3) as (Q1 & Q2 & Q3); [lia|]. split; [lia|done].
  - apply Forall_forall. intros l Hin ->. apply Hl. apply elem_of_list_omap. by exists (TMStep LCancel).
Qed.

Lemma waits_passes evs x : x ∈ waits evs -> 0 <= wu_passes x <= passes evs.
Proof.
  induction evs as [|[t e] evs IH]; [by intros ?%elem_of_nil|]. intros H. pose proof (passes_pos evs).
  destruct e; cbn [waits passes] in *; try (specialize (IH H); lia). apply elem_of_cons in H as [->|H]; [cbn; lia|by apply IH].
Qed.

(** ** As long as updates are published *)

(** No stores, updates are buffered for [b], two at most; no delay. *)
Definition busy_cfg (b : Z) : tmcfg := TMCfg [] (fun _ => ex_cf) b 2 0 1.
Definition ex_same : rec_update := RecUpdate (Some (ex_site "s1")) (Some (ex_site "s1")).
Definition busy_round (b : Z) : list tmlabel := [TMStep (LPublish ex_same); ex_now ATakeUpdate; TMTime b; ex_now ATimeout].
Fixpoint busy_rounds (n : nat) (b : Z) : list tmlabel := match n with O => [] | S n => busy_round b ++ busy_rounds n b end.
Definition busy_run (n : nat) (b : Z) : list tmlabel := TMStep (LRecv true) :: busy_rounds n b.
Definition busy_state (now until : Z) : tmstate := TMState (MState [] 1 [] SIdle true true false false ∅) now until.

Lemma same_nothing : batch_records (at_time 9) [ex_same] = Some [].
Proof. vm_compute. reflexivity. Qed.

Lemma busy_round_run b now until : 0 < b ->
  tmrun (busy_cfg b) (busy_state now until) (busy_round b) = Some (busy_state (now + b) (now + b), [(now, MPublished ex_same)]) /\
  forall ls, keeps_up (busy_cfg b) 0 (Some (now + b)) (busy_state (now + b) (now + b)) ls -> keeps_up (busy_cfg b) 0 (Some now) (busy_state now until) (busy_round b ++ ls).
Proof.
  intros Hd. assert (0 <? b = true) as E1 by (apply Z.ltb_lt; lia). assert (0 <=? b = true) as E2 by (apply Z.leb_le; lia).
  assert (now + b <=? now + b = true) as E3 by (apply Z.leb_le; lia). assert (now + b <=? now = false) as E4 by (apply Z.leb_gt; lia).
  assert (forall t u, tmstep (busy_cfg b) (TMState (MState [] 1 [] SIdle true true false false ∅) t u) (TMStep (LPublish ex_same)) =
    Some (TMState (MState [ex_same] 1 [] SIdle true true false false ∅) t u, [(t, MPublished ex_same)])) as S1 by done.
  assert (forall u, tmstep (busy_cfg b) (TMState (MState [ex_same] 1 [] SIdle true true false false ∅) now u) (ex_now ATakeUpdate) =
    Some (TMState (MState [] 1 [] (SBuffer [ex_same]) true true false false ∅) now (now + b), [])) as S2.
  { intros u. unfold tmstep, ex_now. cbn [tm_enabled]. cbn. rewrite E1. reflexivity. }
  assert (tmstep (busy_cfg b) (TMState (MState [] 1 [] (SBuffer [ex_same]) true true false false ∅) now (now + b)) (TMTime b) =
    Some (TMState (MState [] 1 [] (SBuffer [ex_same]) true true false false ∅) (now + b) (now + b), [])) as S3.
  { unfold tmstep. by rewrite E2. }
  assert (tmstep (busy_cfg b) (TMState (MState [] 1 [] (SBuffer [ex_same]) true true false false ∅) (now + b) (now + b)) (ex_now ATimeout) =
    Some (busy_state (now + b) (now + b), [])) as S4.
  { unfold tmstep, ex_now. cbn [tm_enabled tm_m m_cancelled orb tm_until tm_now]. rewrite E3. unfold mstep, serve_step. cbn [m_crashed m_serve]. unfold buffered. cbn [m_cancelled].
    unfold finish_batch. rewrite same_nothing. reflexivity. }
  split.
  - unfold tmrun, busy_round. cbn [run]. unfold busy_state at 1. rewrite S1, S2, S3, S4. reflexivity.
  - intros ls Hk. unfold busy_round. cbn [app].
    eapply (keeps_up_cons _ _ _ _ _ _ _ (Some now)); [apply S1|reflexivity|cbn; lia|].
    eapply (keeps_up_cons _ _ _ _ _ _ _ None); [apply S2| |done|]. { unfold next_since. cbn. by rewrite E4. }
    eapply (keeps_up_cons _ _ _ _ _ _ _ (Some (now + b))); [apply S3| |cbn; lia|]. { unfold next_since. cbn. rewrite E3. f_equal. lia. }
    eapply (keeps_up_cons _ _ _ _ _ _ _ (Some (now + b))); [apply S4|reflexivity|cbn; lia|exact Hk].
Qed.

Lemma busy_rounds_run n b now until : 0 < b -> exists until' evs, tmrun (busy_cfg b) (busy_state now until) (busy_rounds n b) = Some (busy_state (now + Z.of_nat n * b) until', evs) /\
  keeps_up (busy_cfg b) 0 (Some now) (busy_state now until) (busy_rounds n b) /\ passes evs = 0 /\ updates evs = Z.of_nat n.
Proof.
  intros Hd. revert now until. induction n as [|n IH]; intros now until.
  - exists until, []. split; [|done]. cbn. by rewrite Z.add_0_r.
  - destruct (busy_round_run b now until Hd) as [Hr Hk]. destruct (IH (now + b) (now + b)) as (u & evs & Hr' & Hk' & Hp & Hu).
    exists u, ([(now, MPublished ex_same)] ++ evs). cbn [busy_rounds]. split; [|split; [by apply Hk|split]].
    + unfold tmrun in *. rewrite run_app, Hr, Hr'. do 2 f_equal. unfold busy_state. f_equal. lia.
    + exact Hp.
    + rewrite updates_app, Hu. change (updates [(now, MPublished ex_same)]) with 1. lia.
Qed.

Lemma busy_untimed n b : LCancel ∉ untimed (busy_run n b).
Proof.
  assert (LCancel ∉ untimed (busy_rounds n b)) as H.
  { induction n as [|n IH]; [by apply not_elem_of_nil|]. cbn [busy_rounds]. unfold untimed. rewrite omap_app. intros [H|H]%elem_of_app; [|by apply IH].
    cbn in H. repeat (apply elem_of_cons in H as [H|H]; [discriminate H|]). by apply elem_of_nil in H. }
  intros [H'|H']%elem_of_cons; [discriminate H'|]. by apply H.
Qed.

Lemma flush_starved n b : 0 < b -> exists ls s evs, tmrun (busy_cfg b) (tm_init ∅ 0) ls = Some (s, (0, MFlushReq) :: evs) /\
  keeps_up (busy_cfg b) 0 None (tm_init ∅ 0) ls /\ LCancel ∉ untimed ls /\ m_crashed (tm_m s) = false /\
  passes evs = 0 /\ updates evs = Z.of_nat n /\ tm_now s = Z.of_nat n * b.
Proof.
  intros Hd. destruct (busy_rounds_run n b 0 0 Hd) as (u & evs & Hr & Hk & Hp & Hu).
  exists (busy_run n b), (busy_state (Z.of_nat n * b) u), evs. split; [|split; [|split; [|split; [|split; [|split]]]]]; try done.
  - unfold busy_run, tmrun in *. cbn [run].
    assert (tmstep (busy_cfg b) (tm_init ∅ 0) (TMStep (LRecv true)) = Some (busy_state 0 0, [(0, MFlushReq)])) as -> by reflexivity.
    rewrite Hr. reflexivity.
  - apply busy_untimed.
Qed.
