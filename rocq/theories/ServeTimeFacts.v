(** How long an update waits. *)
From Coq Require Import ZArith NArith Ascii String Lia.
From stdpp Require Import base gmap strings list.
From Verif Require Import GoBase Encoding Records Messages SpecMessages MessageFacts Env SyncMap Tokens Cache SpecStore StoreExamples Dispatch Diff ConvergeFacts Run Manager ManagerFacts ServeTime.

Local Open Scope list_scope.
Local Open Scope Z_scope.
Local Opaque vanflow_registry builtin_types record_types Encode Decode attrs_of.

(** ** Specification *)

(** The steps of the manager, without the clock. *)
Definition untimed (ls : list tmlabel) : list mlabel := omap (fun l => match l with TMStep l => Some l | _ => None end) ls.

(** How many passes over the stores started. *)
Fixpoint passes (evs : list (Z * mev)) : Z :=
  match evs with
  | [] => 0
  | (_, MPassStart) :: evs' => 1 + passes evs'
  | _ :: evs' => passes evs'
  end.

(** An update that was published: when, and how many passes started since. *)
Record waiting := Waiting { wu_at : Z; wu_passes : Z; wu_update : rec_update }.
Fixpoint waits (evs : list (Z * mev)) : list waiting :=
  match evs with
  | [] => []
  | (t, MPublished u) :: evs' => Waiting t (passes evs') u :: waits evs'
  | _ :: evs' => waits evs'
  end.

(** The serving loop has something to do: it runs, or waits for room in the send
    queue, or waits in a select of which a case is ready. *)
Definition ready (s : tmstate) : bool :=
  let m := tm_m s in
  match m_serve m with
  | SIdle => (match m_changes m with [] => false | _ => true end) || (0 <? m_flushes m) || m_cancelled m
  | SBuffer _ => (match m_changes m with [] => false | _ => true end) || (tm_until s <=? tm_now s) || m_cancelled m
  | SDrain _ => (0 <? m_flushes m) || (tm_until s <=? tm_now s) || m_cancelled m
  | SStopped => false
  | _ => true
  end.

(** Since when, if it just had nothing to do. *)
Definition ready_since (s : tmstate) : Z :=
  match m_serve (tm_m s) with
  | SBuffer _ | SDrain _ => Z.min (tm_now s) (tm_until s)
  | _ => tm_now s
  end.

(** The loop and the sender keep up: never has the loop something to do for longer
    than [P].  [b] is since when it has. *)
Definition next_since (b : option Z) (s : tmstate) : option Z :=
  if ready s then Some (match b with Some t => t | None => ready_since s end) else None.
Fixpoint keeps_up (c : tmcfg) (P : Z) (b : option Z) (s : tmstate) (ls : list tmlabel) : Prop :=
  match ls with
  | [] => True
  | l :: ls' =>
      match tmstep c s l with
      | Some (s', _) =>
          match next_since b s' with Some t => tm_now s' <= t + P | None => True end /\ keeps_up c P (next_since b s') s' ls'
      | None => True
      end
  end.

(** ** The clock and the steps *)

Lemma waits_published evs : wu_update <$> waits evs = published evs.*2.
Proof. induction evs as [|[t []] evs IH]; [done|..]; cbn; try exact IH. f_equal. exact IH. Qed.

Lemma passes_app e1 e2 : passes (e1 ++ e2) = passes e1 + passes e2.
Proof. induction e1 as [|[t []] e1 IH]; cbn [app passes]; lia. Qed.

Definition later (k : Z) (x : waiting) : waiting := Waiting (wu_at x) (wu_passes x + k) (wu_update x).

Lemma later_0 (l : list waiting) : later 0 <$> l = l.
Proof. induction l as [|[t k u] l IH]; [done|]. cbn. rewrite IH. unfold later. cbn. by rewrite Z.add_0_r. Qed.

Lemma later_update k (l : list waiting) : wu_update <$> (later k <$> l) = wu_update <$> l.
Proof. rewrite <- list_fmap_compose. apply list_fmap_ext. done. Qed.

Lemma waits_app e1 e2 : waits (e1 ++ e2) = (later (passes e2) <$> waits e1) ++ waits e2.
Proof.
  induction e1 as [|[t []] e1 IH]; [done|..]; cbn [app waits]; try exact IH.
  rewrite IH, passes_app. reflexivity.
Qed.

(** What a timed run does is a run of the manager. *)
Lemma tmrun_mrun c s ls s' evs : tmrun c s ls = Some (s', evs) -> mrun (tc_cfg c) (tm_m s) (untimed ls) = Some (tm_m s', evs.*2).
Proof.
  revert s evs. induction ls as [|l ls IH]; intros s evs H; [by injection H as <- <-|].
  unfold tmrun in H. cbn [run] in H. destruct (tmstep c s l) as [[s1 ev1]|] eqn:E; [|done].
  destruct (run (tmstep c) s1 ls) as [[s2 ev2]|] eqn:E2; [|done]. injection H as <- <-. specialize (IH _ _ E2).
  destruct l as [dt|l]; cbn [tmstep] in E.
  - destruct (0 <=? dt); [|done]. injection E as <- <-. exact IH.
  - destruct (tm_enabled s l); [|done]. destruct (mstep (tc_cfg c) (tm_m s) l) as [[m' ev]|] eqn:Em; [|done]. injection E as <- <-.
    change (untimed (TMStep l :: ls)) with (l :: untimed ls). cbn [mrun]. rewrite Em. cbn [tm_m] in IH. rewrite IH.
    rewrite fmap_app, <- list_fmap_compose, list_fmap_id. done.
Qed.

(** Every run of the manager takes some time. *)
Lemma mrun_tmrun c s ls m' ev : mrun (tc_cfg c) (tm_m s) ls = Some (m', ev) ->
  exists tls s' evs, untimed tls = ls /\ tmrun c s tls = Some (s', evs) /\ tm_m s' = m' /\ evs.*2 = ev.
Proof.
  revert s ev. induction ls as [|l ls IH]; intros s ev H.
  - injection H as <- <-. by exists [], s, [].
  - cbn [mrun] in H. destruct (mstep (tc_cfg c) (tm_m s) l) as [[m1 ev1]|] eqn:E; [|done].
    destruct (mrun (tc_cfg c) m1 ls) as [[m2 ev2]|] eqn:E2; [|done]. injection H as <- <-.
    set (s0 := TMState (tm_m s) (tm_now s + Z.max 0 (tm_until s - tm_now s)) (tm_until s)).
    set (s1 := TMState m1 (tm_now s0) (new_until c (m_serve (tm_m s)) (m_serve m1) (tm_now s0) (tm_until s0))).
    destruct (IH s1 ev2 E2) as (tls & s' & evs & <- & Hr & Hm & He).
    exists (TMTime (Z.max 0 (tm_until s - tm_now s)) :: TMStep l :: tls), s', ((pair (tm_now s0) <$> ev1) ++ evs).
    split; [done|]. split; [|split; [done|]].
    + unfold tmrun. cbn [run tmstep]. rewrite (proj2 (Z.leb_le _ _)) by lia. fold s0.
      assert (tm_enabled s0 l = true) as ->.
      { destruct l as [| e [] | | | | | |]; try done. cbn. rewrite (proj2 (Z.leb_le _ _)) by lia. by rewrite orb_true_r. }
      change (tm_m s0) with (tm_m s). rewrite E. fold s1. unfold tmrun in Hr. by rewrite Hr.
    + rewrite fmap_app, He, <- list_fmap_compose, list_fmap_id. done.
Qed.

(** ** The bound *)

Section bound.
Context (c : tmcfg) (P D : Z).

Definition B : Z := Z.max 0 (tc_buffer c).

(** When an update could have been taken, were it not for passes. *)
Definition due (x : waiting) : Z := wu_at x + wu_passes x * (D + P).

(** The ledger of the updates: handed on, in hand, in the channel. *)
Record ledger (s : tmstate) (b : option Z) (evs : list (Z * mev)) (dn : list (env * rec_update)) (pd pc pq : list waiting) : Prop := Ledger {
  lg_waits : waits evs = pd ++ pc ++ pq;
  lg_dn : wu_update <$> pd = dn.*2;
  lg_pq : wu_update <$> pq = m_changes (tm_m s);
  lg_msgs : concat (update_msgs evs.*2) = handed dn;
  lg_env : Forall (fun x => env_ok x.1) dn;
  lg_pc : match m_serve (tm_m s) with
    | SBuffer buf => wu_update <$> pc = buf
    | SSend m => exists e, env_ok e /\ batch_records e (wu_update <$> pc) = Some m
    | SStopped => False
    | _ => pc = []
    end;
  lg_live : m_cancelled (tm_m s) = false;
  lg_b : if ready s then is_Some b else b = None;
  lg_busy : forall t, b = Some t -> t <= tm_now s <= t + P;
  lg_until : match m_serve (tm_m s) with
    | SBuffer _ => 0 <= tc_buffer c /\ tm_until s <= tm_now s + B /\ (forall t, b = Some t -> t <= tm_until s) /\
        Forall (fun x => tm_until s <= due x + D + P + B) (pc ++ pq)
    | SDrain _ => tm_until s <= tm_now s + D /\ Forall (fun x => tm_until s <= due x + D + (D + P)) pq
    | SSend _ => forall t, b = Some t -> Forall (fun x => t <= due x + D + P + B) pc
    | _ => True
    end;
  lg_since : forall t, b = Some t -> Forall (fun x => t <= due x + D + match m_serve (tm_m s) with SDrain _ => D + P | _ => 0 end) pq;
}.

(** Either flush requests may delay it, by at most [D], or there are none. *)
Definition calm (s : mstate) : Prop := m_flushes s = 0 /\ match m_serve s with SDrain _ | SPass _ _ | SPassSend _ _ _ => False | _ => True end.

Definition timely (quiet : Prop) (s : tmstate) (b : option Z) (evs : list (Z * mev)) : Prop :=
  m_crashed (tm_m s) = true \/ (quiet -> calm (tm_m s)) /\ exists dn pd pc pq, ledger s b evs dn pd pc pq.

Lemma ledger_bound s b evs dn pd pc pq : 0 <= P -> 0 <= D -> ledger s b evs dn pd pc pq ->
  Forall (fun x => tm_now s <= wu_at x + (wu_passes x + 2) * (D + P) + B) (pc ++ pq).
Proof.
  intros HP HD []. assert (0 <= B) as HB by (unfold B; lia). unfold ready in lg_b0. rewrite lg_live0 in lg_b0. rewrite ?orb_false_r in lg_b0.
  assert (forall t, b = Some t -> Forall (fun x => tm_now s <= wu_at x + (wu_passes x + 2) * (D + P) + B) pq) as Hq.
  { intros t E. specialize (lg_busy0 t E). eapply Forall_impl; [exact (lg_since0 t E)|]. intros x Hx. cbn in Hx. unfold due in Hx. destruct (m_serve (tm_m s)); lia. }
  apply Forall_app. destruct b as [t|].
  - split; [|by apply (Hq t)]. specialize (lg_busy0 t eq_refl). destruct (m_serve (tm_m s)); try (by rewrite lg_pc0); try done.
    + destruct lg_until0 as (_ & _ & Ht & Hf). apply Forall_app in Hf as [Hf _]. specialize (Ht t eq_refl). eapply Forall_impl; [exact Hf|].
      intros x Hx. cbn in Hx. unfold due in Hx. lia.
    + eapply Forall_impl; [exact (lg_until0 t eq_refl)|]. intros x Hx. cbn in Hx. unfold due in Hx. lia.
  - assert (forall z, z = true -> (if z then is_Some (@None Z) else @None Z = None) -> False) as Hno by (intros z -> [? ?]; done).
    destruct (m_serve (tm_m s)); try (exfalso; by destruct lg_b0); try done.
    + rewrite lg_pc0. split; [done|]. destruct (m_changes (tm_m s)); [by apply fmap_nil_inv in lg_pq0 as ->|]. exfalso. by destruct lg_b0.
    + destruct (m_changes (tm_m s)) eqn:Ech; [|exfalso; by destruct lg_b0]. apply fmap_nil_inv in lg_pq0 as ->. cbn in lg_b0.
      destruct (Z.leb_spec (tm_until s) (tm_now s)); [exfalso; by destruct lg_b0|]. split; [|done]. destruct lg_until0 as (_ & _ & _ & Hf).
      rewrite app_nil_r in Hf. eapply Forall_impl; [exact Hf|]. intros x Hx. cbn in Hx. unfold due in Hx. lia.
    + rewrite lg_pc0. split; [done|]. destruct (Z.leb_spec (tm_until s) (tm_now s)).
      { rewrite orb_true_r in lg_b0. exfalso. by destruct lg_b0. }
      destruct lg_until0 as (_ & Hf). eapply Forall_impl; [exact Hf|]. intros x Hx. cbn in Hx. unfold due in Hx. lia.
Qed.

Lemma next_busy b s : (forall t, b = Some t -> t <= tm_now s) -> (match next_since b s with Some t => tm_now s <= t + P | None => True end) ->
  forall t, next_since b s = Some t -> t <= tm_now s <= t + P.
Proof.
  intros Hb HP t E. rewrite E in HP. split; [|done]. unfold next_since in E. destruct (ready s); [|done]. injection E as <-.
  destruct b as [t|]; [by apply Hb|]. unfold ready_since. destruct (m_serve (tm_m s)); lia.
Qed.

Lemma next_b b s : if ready s then is_Some (next_since b s) else next_since b s = None.
Proof. unfold next_since. by destruct (ready s). Qed.

Ltac rdy := match goal with |- context [ready ?x] => destruct (ready x) end.
Ltac nb := match goal with |- forall t, next_since ?b ?s = Some t -> _ => apply (next_busy b s) end.

(** When it just had nothing to do, nothing is in the channel, or it drains. *)
Lemma idle_empty s evs dn pd pc pq : ledger s None evs dn pd pc pq -> pq = [] /\ (match m_serve (tm_m s) with SIdle | SBuffer _ => True | _ => False end) \/
  match m_serve (tm_m s) with SDrain _ => True | _ => False end.
Proof.
  intros []. unfold ready in lg_b0. rewrite lg_live0 in lg_b0. destruct (m_serve (tm_m s)); try (exfalso; by destruct lg_b0); try done; try (by right); left.
  all: split; [|done]; destruct (m_changes (tm_m s)); [by apply fmap_nil_inv in lg_pq0|exfalso; by destruct lg_b0].
Qed.

Lemma waits_keep evs ev : waits ev = [] -> passes ev = 0 -> waits (evs ++ ev) = waits evs.
Proof. intros H1 H2. by rewrite waits_app, H1, H2, later_0, app_nil_r. Qed.

Lemma msgs_keep (evs ev : list (Z * mev)) : update_msgs ev.*2 = [] -> update_msgs (evs ++ ev).*2 = update_msgs evs.*2.
Proof. intros H. rewrite fmap_app. unfold update_msgs in *. by rewrite omap_app, H, app_nil_r. Qed.

(** The loop stays where it is. *)
Lemma ledger_same s s' b evs ev dn pd pc pq : ledger s b evs dn pd pc pq ->
  m_serve (tm_m s') = m_serve (tm_m s) -> m_changes (tm_m s') = m_changes (tm_m s) -> m_cancelled (tm_m s') = m_cancelled (tm_m s) ->
  tm_until s' = tm_until s -> tm_now s <= tm_now s' -> waits ev = [] -> passes ev = 0 -> update_msgs ev.*2 = [] ->
  (match next_since b s' with Some t => tm_now s' <= t + P | None => True end) ->
  ledger s' (next_since b s') (evs ++ ev) dn pd pc pq.
Proof.
  intros L Es Ec El Eu En Hw Hp Hm HP.
  assert (b = None -> pq = [] /\ (match m_serve (tm_m s) with SIdle | SBuffer _ => True | _ => False end) \/ match m_serve (tm_m s) with SDrain _ => True | _ => False end) as Hi.
  { intros ->. by apply idle_empty in L. }
  destruct L. constructor; rewrite ?Es, ?Ec, ?El, ?Eu; try done.
  - by rewrite waits_keep.
  - by rewrite msgs_keep.
  - apply next_b.
  - nb; [|done]. intros t E. specialize (lg_busy0 t E). lia.
  - unfold next_since. destruct (m_serve (tm_m s)) eqn:Ep; try done.
    + destruct lg_until0 as (H1 & H2 & H3 & H4). split; [done|]. split; [lia|]. split; [|done]. intros t. destruct (ready s'); [|done]. intros [= <-].
      destruct b as [t|]; [by apply H3|]. unfold ready_since. rewrite Es. rewrite Eu. lia.
    + intros t. destruct (ready s'); [|done]. intros [= <-]. destruct b as [t|]; [by apply lg_until0|]. by destruct (Hi eq_refl) as [[_ ?]|?].
    + destruct lg_until0 as (H1 & H2). split; [lia|done].
  - intros t. unfold next_since. destruct (ready s'); [|done]. intros [= <-]. destruct b as [t|]; [by apply lg_since0|].
    destruct (Hi eq_refl) as [[-> _]|Hd]; [done|]. unfold ready_since. rewrite Es, Eu. destruct (m_serve (tm_m s)); try done.
    destruct lg_until0 as (_ & H). eapply Forall_impl; [exact H|]. intros x Hx. cbn in Hx. lia.
Qed.

(** A batch is done. *)
Lemma ledger_finish (quiet : Prop) (m : mstate) e (buf : list rec_update) now until t0 evs dn pd pc pq : env_ok e -> m_crashed m = false -> m_cancelled m = false ->
  waits evs = pd ++ pc ++ pq -> wu_update <$> pd = dn.*2 -> wu_update <$> pc = buf -> wu_update <$> pq = m_changes m ->
  concat (update_msgs evs.*2) = handed dn -> Forall (fun x => env_ok x.1) dn -> t0 <= now <= t0 + P ->
  Forall (fun x => t0 <= due x + D + P + B) pc -> Forall (fun x => t0 <= due x + D) pq -> (quiet -> m_flushes m = 0) ->
  (match next_since (Some t0) (TMState (finish_batch e buf m) now until) with Some t => now <= t + P | None => True end) ->
  timely quiet (TMState (finish_batch e buf m) now until) (next_since (Some t0) (TMState (finish_batch e buf m) now until)) evs.
Proof.
  intros He Hc Hl Hw Hd Hb Hq Hm Hen Ht Hpc Hpq Hqu HP. unfold timely. cbn [tm_m]. revert HP. unfold finish_batch. destruct (batch_records e buf) as [[|r rs]|] eqn:Er; intros HP; [| |by left]; right.
  - split; [intros Q; split; [by apply Hqu|done]|]. exists (dn ++ ((fun u => (e, u)) <$> buf)), (pd ++ pc), [], pq.
    constructor; cbn [tm_m tm_now tm_until]; flags; try done.
    + by rewrite <- app_assoc.
    + rewrite !fmap_app, Hd, Hb, <- list_fmap_compose. f_equal. symmetry. apply list_fmap_id.
    + unfold handed. rewrite omap_app. fold (handed dn). fold (handed ((fun u => (e, u)) <$> buf)). rewrite <- (batch_handed e buf [] Er). by rewrite app_nil_r.
    + apply Forall_app. split; [done|]. by apply Forall_fmap, Forall_true.
    + apply next_b.
    + nb; [|exact HP]. cbn. intros t [= ->]. lia.
    + intros t. unfold next_since. rdy; [|done]. intros [= <-]. eapply Forall_impl; [exact Hpq|]. intros x Hx. cbn in Hx. lia.
  - split; [intros Q; split; [by apply Hqu|done]|]. exists dn, pd, pc, pq.
    constructor; cbn [tm_m tm_now tm_until]; flags; try done.
    + exists e. split; [done|]. by rewrite Hb.
    + apply next_b.
    + nb; [|exact HP]. cbn. intros t [= ->]. lia.
    + intros t. unfold next_since. rdy; [|done]. by intros [= <-].
    + intros t. unfold next_since. rdy; [|done]. intros [= <-]. eapply Forall_impl; [exact Hpq|]. intros x Hx. cbn in Hx. lia.
Qed.

Lemma new_until_same p now until : new_until c p p now until = until.
Proof. by destruct p. Qed.

(** From one place to another with the updates as they are, and perhaps a pass
    starting. *)
Lemma ledger_pass s m' k until t0 evs ev dn pd pq : ledger s (Some t0) evs dn pd [] pq -> 0 <= P -> 0 <= D ->
  match m_serve (tm_m s) with SIdle | SDrain _ | SPass _ _ | SPassSend _ _ _ => True | _ => False end ->
  match m_serve m' with SIdle | SPass _ _ | SPassSend _ _ _ => True | SDrain _ => until <= tm_now s + D | _ => False end ->
  m_changes m' = m_changes (tm_m s) -> m_cancelled m' = m_cancelled (tm_m s) -> waits ev = [] -> passes ev = k -> 0 <= k -> update_msgs ev.*2 = [] ->
  match m_serve (tm_m s), m_serve m' with SDrain _, SDrain _ => until = tm_until s | SDrain _, _ => 1 <= k | _, _ => True end ->
  (match next_since (Some t0) (TMState m' (tm_now s) until) with Some t => tm_now s <= t + P | None => True end) ->
  exists pd' pq', ledger (TMState m' (tm_now s) until) (next_since (Some t0) (TMState m' (tm_now s) until)) (evs ++ ev) dn pd' [] pq'.
Proof.
  intros L HPp HD Hs Hs' Ec El Hw Hp Hk Hm Hd HP. exists (later k <$> pd), (later k <$> pq). destruct L. pose proof (lg_busy0 _ eq_refl) as Hb. pose proof (lg_since0 _ eq_refl) as Hq.
  assert (forall x, due (later k x) = due x + k * (D + P)) as Edue by (intros x; unfold due, later; cbn; lia).
  assert (0 <= k * (D + P)) as Hkp by (apply Z.mul_nonneg_nonneg; lia).
  constructor; cbn [tm_m tm_now tm_until]; try done.
  - rewrite waits_app, Hw, Hp, lg_waits0, app_nil_r. cbn [app]. by rewrite fmap_app.
  - by rewrite later_update.
  - by rewrite later_update, Ec.
  - by rewrite msgs_keep.
  - by destruct (m_serve m').
  - by rewrite El.
  - apply next_b.
  - nb; [|exact HP]. cbn. intros t [= ->]. lia.
  - destruct (m_serve m') eqn:E'; try done. split; [done|]. apply Forall_fmap. destruct (m_serve (tm_m s)) eqn:E; try done.
    + eapply Forall_impl; [exact Hq|]. intros x Hx. cbn in *. rewrite Edue. lia.
    + destruct lg_until0 as (_ & Hu). eapply Forall_impl; [exact Hu|]. intros x Hx. cbn in *. rewrite Edue. lia.
    + eapply Forall_impl; [exact Hq|]. intros x Hx. cbn in *. rewrite Edue. lia.
    + eapply Forall_impl; [exact Hq|]. intros x Hx. cbn in *. rewrite Edue. lia.
  - intros t. unfold next_since. rdy; [|done]. intros [= <-]. apply Forall_fmap. eapply Forall_impl; [exact Hq|]. intros x Hx. cbn in *. rewrite Edue.
    assert (1 <= k -> D + P <= k * (D + P)) as Hk1 by nia.
    destruct (m_serve m'), (m_serve (tm_m s)); try done; lia.
Qed.

Lemma timely_step (quiet : Prop) s b evs l s' ev : 0 <= P -> 0 <= D -> tc_delay c <= D \/ quiet -> timely quiet s b evs ->
  match l with TMStep (LServe e _) => env_ok e | TMStep LCancel => False | TMStep (LRecv _) => ~ quiet | _ => True end ->
  tmstep c s l = Some (s', ev) ->
  (match next_since b s' with Some t => tm_now s' <= t + P | None => True end) ->
  timely quiet s' (next_since b s') (evs ++ ev).
Proof.
  intros HP0 HD Hdel [Hcr|[Hcalm (dn & pd & pc & pq & L)]] Hl H HP.
  { left. destruct l as [dt|l]; cbn [tmstep] in H.
    - destruct (0 <=? dt); [|done]. by injection H as <- <-.
    - destruct (tm_enabled s l); [|done]. unfold mstep in H. by rewrite Hcr in H. }
  destruct l as [dt|l]; cbn [tmstep] in H.
  { destruct (Z.leb_spec 0 dt); [|done]. injection H as <- <-. right. split; [done|]. exists dn, pd, pc, pq. apply (ledger_same s); try done. cbn. lia. }
  destruct (tm_enabled s l) eqn:Een; [|done]. destruct (mstep (tc_cfg c) (tm_m s) l) as [[m' ev']|] eqn:Em; [|done]. injection H as <- <-.
  destruct (m_crashed (tm_m s)) eqn:Hc. { unfold mstep in Em. by rewrite Hc in Em. }
  assert (forall m2 ev2, m' = m2 -> ev' = ev2 -> m_serve m2 = m_serve (tm_m s) -> m_changes m2 = m_changes (tm_m s) -> m_cancelled m2 = m_cancelled (tm_m s) ->
    (quiet -> m_flushes m2 = m_flushes (tm_m s)) -> waits (pair (tm_now s) <$> ev2) = [] -> passes (pair (tm_now s) <$> ev2) = 0 -> update_msgs ev2 = [] ->
    timely quiet (TMState m' (tm_now s) (new_until c (m_serve (tm_m s)) (m_serve m') (tm_now s) (tm_until s)))
      (next_since b (TMState m' (tm_now s) (new_until c (m_serve (tm_m s)) (m_serve m') (tm_now s) (tm_until s)))) (evs ++ (pair (tm_now s) <$> ev'))) as Hsame.
  { intros m2 ev2 -> -> E1 E2 E3 E4 E5 E6 E7. right. split.
    - intros Q. cbn [tm_m]. unfold calm. rewrite E1, (E4 Q). by apply Hcalm.
    - exists dn, pd, pc, pq. apply (ledger_same s); cbn [tm_m tm_now tm_until]; try done.
      + rewrite E1. apply new_until_same.
      + rewrite <- list_fmap_compose, list_fmap_id. done. }
  unfold mstep in Em. rewrite Hc in Em. destruct l; try done.
  - (* publish *)
    destruct (_ <? 256); [|done]. injection Em as <- <-. right. split; [done|]. rewrite new_until_same in *. flags.
    pose proof (idle_empty s evs dn pd pc pq) as Hi.
    exists dn, pd, pc, (pq ++ [Waiting (tm_now s) 0 u]). destruct L. constructor; cbn [tm_m tm_now tm_until fmap list_fmap]; flags; try done.
    + rewrite waits_app. cbn [passes waits]. rewrite later_0, lg_waits0. by rewrite <- !app_assoc.
    + by rewrite fmap_app, lg_pq0.
    + by rewrite msgs_keep.
    + apply next_b.
    + nb; [|exact HP]. cbn. intros t E. specialize (lg_busy0 t E). lia.
    + assert (0 <= B) as HB by (unfold B; lia). destruct (m_serve (tm_m s)) eqn:Ep; try done.
      * destruct lg_until0 as (H1 & H2 & H3 & H4). split; [done|]. split; [done|]. split.
        -- unfold next_since. rdy; [|done]. intros t [= <-]. destruct b as [t|]; [by apply H3|]. unfold ready_since. cbn. rewrite Ep. lia.
        -- rewrite app_assoc. apply Forall_app. split; [done|]. constructor; [|done]. unfold due. cbn. lia.
      * intros t. unfold next_since. rdy; [|done]. intros [= <-]. destruct b as [t|]; [by apply lg_until0|].
        unfold ready in lg_b0. rewrite Ep in lg_b0. by destruct lg_b0.
      * destruct lg_until0 as (H1 & H2). split; [done|]. apply Forall_app. split; [done|]. constructor; [|done]. unfold due. cbn. lia.
    + intros t. unfold next_since. rdy; [|done]. intros [= <-]. apply Forall_app. split.
      * destruct b as [t|]; [by apply lg_since0|]. destruct Hi as [[-> _]|Hd]; [by constructor|done|]. unfold ready_since. cbn [tm_m tm_now tm_until]. flags.
        destruct (m_serve (tm_m s)); try done. destruct lg_until0 as (_ & Hf). eapply Forall_impl; [exact Hf|]. intros x Hx. cbn in Hx. lia.
      * constructor; [|done]. unfold due. cbn [wu_at wu_passes]. destruct b as [t|]; [specialize (lg_busy0 t eq_refl)|unfold ready_since; cbn [tm_m tm_now tm_until]; flags];
          destruct (m_serve (tm_m s)); lia.
  - (* serve *)
    assert (forall z, ready s = true -> z = b -> exists t0, z = Some t0) as Hb.
    { intros z Hr ->. destruct L. rewrite Hr in lg_b0. destruct lg_b0 as [t0 ->]. eauto. }
    unfold serve_step in Em. destruct (m_serve (tm_m s)) as [|buf|mm|n|q tok|mm q tok|] eqn:Ep; destruct a; try discriminate Em.
    + (* take an update *)
      destruct (m_changes (tm_m s)) as [|u q] eqn:Ech; [done|]. destruct (Hb b) as [t0 ->]; [|done|]. { unfold ready. by rewrite Ep, Ech. }
      destruct L. rewrite Ep in *. rewrite Ech in lg_pq0. subst pc. destruct pq as [|x pq]; [done|]. cbn in lg_pq0. injection lg_pq0 as Ex Eq.
      pose proof (lg_busy0 _ eq_refl) as Ht. pose proof (lg_since0 _ eq_refl) as Hq. assert (0 <= B) as HB by (unfold B; lia).
      destruct (mc_buffers (tc_cfg c) && (1 <? mc_batch (tc_cfg c))) eqn:Eb; injection Em as <- <-; cbn [fmap list_fmap]; rewrite app_nil_r.
      * right. split; [intros Q; split; [by apply Hcalm|done]|]. exists dn, pd, [x], pq. apply andb_true_iff in Eb as [Eb _]. cbn in Eb. apply Z.ltb_lt in Eb.
        assert (B = tc_buffer c) as EB by (unfold B; lia).
        constructor; cbn [tm_m tm_now tm_until new_until]; flags; try done.
        -- cbn. by rewrite Ex.
        -- apply next_b.
        -- nb; [|exact HP]. cbn. intros t [= ->]. lia.
        -- split; [lia|]. split; [lia|]. split.
           ++ intros t. unfold next_since. rdy; [|done]. intros [= <-]. lia.
           ++ eapply Forall_impl; [exact Hq|]. intros y Hy. cbn in Hy. lia.
        -- intros t. unfold next_since. rdy; [|done]. intros [= <-]. inversion Hq. done.
      * inversion Hq as [|y l Hx Hq']. subst y l. apply (ledger_finish quiet (set_changes q (tm_m s)) e [u] _ _ t0 evs dn pd [x] pq); flags; try done.
        -- cbn. by rewrite Ex.
        -- constructor; [|done]. lia.
        -- eapply Forall_impl; [exact Hq'|]. intros y Hy. cbn in Hy. lia.
        -- intros Q. by apply Hcalm.
    + (* take a flush *)
      destruct (Z.ltb_spec 0 (m_flushes (tm_m s))); [|done]. destruct (Hb b) as [t0 ->]; [|done|].
      { unfold ready. rewrite Ep. rewrite (proj2 (Z.ltb_lt _ _)) by done. by rewrite orb_true_r. }
      assert (~ quiet) as Hnq by (intros Q; destruct (Hcalm Q) as [E _]; lia). assert (tc_delay c <= D) as Hdd by tauto.
      assert (pc = []) as -> by (destruct L; by rewrite Ep in lg_pc0).
      destruct (mc_delays (tc_cfg c)); injection Em as <- <-; right; (split; [intros Q; by destruct (Hnq Q)|]); exists dn.
      * destruct (ledger_pass s (set_serve (SDrain 0) (set_flushes (m_flushes (tm_m s) - 1) (tm_m s))) 0 (tm_now s + tc_delay c) t0 evs [] dn pd pq) as (pd' & pq' & L'); try done.
        -- by rewrite Ep.
        -- cbn. lia.
        -- by rewrite Ep.
        -- by exists pd', [], pq'.
      * destruct (ledger_pass s (set_serve (SPass (mc_stores (tc_cfg c)) "") (set_flushes (m_flushes (tm_m s) - 1) (tm_m s))) 1 (tm_until s) t0 evs [(tm_now s, MPassStart)] dn pd pq) as (pd' & pq' & L'); try done.
        -- by rewrite Ep.
        -- by rewrite Ep.
        -- by exists pd', [], pq'.
    + destruct L. rewrite lg_live0 in Em. done.
    + (* one more update *)
      destruct (m_changes (tm_m s)) as [|u q] eqn:Ech; [done|]. destruct (Hb b) as [t0 ->]; [|done|]. { unfold ready. by rewrite Ep, Ech. }
      destruct L. rewrite Ep in *. rewrite Ech in lg_pq0. destruct pq as [|x pq]; [done|]. cbn in lg_pq0. injection lg_pq0 as Ex Eq.
      pose proof (lg_busy0 _ eq_refl) as Ht. pose proof (lg_since0 _ eq_refl) as Hq. destruct lg_until0 as (H1 & H2 & H3 & H4). specialize (H3 _ eq_refl).
      inversion Hq as [|y l Hx Hq']. subst y l. assert (pc ++ x :: pq = (pc ++ [x]) ++ pq) as Eap by (by rewrite <- app_assoc). rewrite Eap in *.
      assert (wu_update <$> (pc ++ [x]) = buf ++ [u]) as Ebuf by (rewrite fmap_app, lg_pc0; cbn; by rewrite Ex).
      assert (Forall (fun y => t0 <= due y + D) pq) as Hq2 by (eapply Forall_impl; [exact Hq'|]; intros y Hy; cbn in Hy; lia).
      destruct (_ =? _) eqn:Eb; injection Em as <- <-; cbn [fmap list_fmap]; rewrite app_nil_r.
      * unfold buffered in *. flags. rewrite lg_live0 in *.
        apply (ledger_finish quiet (set_changes q (tm_m s)) e (buf ++ [u]) _ _ t0 evs dn pd (pc ++ [x]) pq); flags; try done.
        -- apply Forall_app in H4 as [H4 _]. eapply Forall_impl; [exact H4|]. intros y Hy. cbn in Hy. lia.
        -- intros Q. by apply Hcalm.
      * right. split; [intros Q; split; [by apply Hcalm|done]|]. exists dn, pd, (pc ++ [x]), pq.
        constructor; cbn [tm_m tm_now tm_until new_until]; flags; try done.
        -- apply next_b.
        -- nb; [|exact HP]. cbn. intros t [= ->]. lia.
        -- split; [done|]. split; [done|]. split; [|done]. intros t. unfold next_since. rdy; [|done]. by intros [= <-].
        -- intros t. unfold next_since. rdy; [|done]. intros [= <-]. exact Hq'.
    + (* the buffer time is over *)
      injection Em as <- <-. cbn [fmap list_fmap]. rewrite app_nil_r.
      destruct (Hb b) as [t0 ->]; [|done|]. { unfold ready. rewrite Ep. destruct L. cbn in Een. rewrite lg_live0 in Een. cbn in Een. rewrite Een. by rewrite orb_true_r. }
      destruct L. rewrite Ep in *. pose proof (lg_busy0 _ eq_refl) as Ht. pose proof (lg_since0 _ eq_refl) as Hq. destruct lg_until0 as (H1 & H2 & H3 & H4). specialize (H3 _ eq_refl).
      unfold buffered in *. rewrite lg_live0 in *. apply (ledger_finish quiet (tm_m s) e buf _ _ t0 evs dn pd pc pq); try done.
      * apply Forall_app in H4 as [H4 _]. eapply Forall_impl; [exact H4|]. intros y Hy. cbn in Hy. lia.
      * eapply Forall_impl; [exact Hq|]. intros y Hy. cbn in Hy. lia.
      * intros Q. by apply Hcalm.
    + destruct L. rewrite lg_live0 in Em. done.
    + (* queue an update message *)
      destruct (_ <? 256); [|done]. injection Em as <- <-. destruct (Hb b) as [t0 ->]; [|done|]. { unfold ready. by rewrite Ep. }
      destruct L. rewrite Ep in *. pose proof (lg_busy0 _ eq_refl) as Ht. pose proof (lg_since0 _ eq_refl) as Hq. destruct lg_pc0 as (e0 & He0 & Eb).
      right. split; [intros Q; split; [by apply Hcalm|done]|]. exists (dn ++ ((fun u => (e0, u)) <$> (wu_update <$> pc))), (pd ++ pc), [], pq.
      constructor; cbn [tm_m tm_now tm_until new_until]; flags; try done.
      * rewrite waits_app. cbn [fmap list_fmap passes waits]. by rewrite later_0, app_nil_r, lg_waits0, <- app_assoc.
      * rewrite !fmap_app, lg_dn0, <- !list_fmap_compose. by f_equal.
      * rewrite fmap_app. unfold update_msgs, handed in *. rewrite !omap_app. cbn [fmap list_fmap omap list_omap snd]. rewrite concat_app, lg_msgs0. f_equal.
        fold (handed ((fun u => (e0, u)) <$> (wu_update <$> pc))). rewrite <- (batch_handed e0 _ mm Eb). cbn. by rewrite app_nil_r.
      * apply Forall_app. split; [done|]. by apply Forall_fmap, Forall_true.
      * apply next_b.
      * nb; [|exact HP]. cbn. intros t [= ->]. lia.
      * intros t. unfold next_since. rdy; [|done]. intros [= <-]. exact Hq.
    + (* one more flush request *)
      destruct (Z.ltb_spec 0 (m_flushes (tm_m s))); [|done]. destruct (Hb b) as [t0 ->]; [|done|].
      { unfold ready. rewrite Ep. by rewrite (proj2 (Z.ltb_lt _ _)). }
      assert (~ quiet) as Hnq by (intros Q; destruct (Hcalm Q) as [E _]; lia).
      assert (pc = []) as -> by (destruct L; by rewrite Ep in lg_pc0). assert (m_cancelled (tm_m s) = false) as El by (by destruct L).
      assert (tm_until s <= tm_now s + D) as Hu by (destruct L; rewrite Ep in *; tauto).
      destruct (n + 1 =? 2048); [|injection Em as <- <-].
      * unfold drained, start_pass in Em. flags. rewrite El in Em. injection Em as <- <-. right. split; [intros Q; by destruct (Hnq Q)|]. exists dn.
        destruct (ledger_pass s (set_serve (SPass (mc_stores (tc_cfg c)) "") (set_flushes (m_flushes (tm_m s) - 1) (tm_m s))) 1 (tm_until s) t0 evs [(tm_now s, MPassStart)] dn pd pq) as (pd' & pq' & L'); try done.
        -- by rewrite Ep.
        -- by rewrite Ep.
        -- by exists pd', [], pq'.
      * right. split; [intros Q; by destruct (Hnq Q)|]. exists dn.
        destruct (ledger_pass s (set_serve (SDrain (n + 1)) (set_flushes (m_flushes (tm_m s) - 1) (tm_m s))) 0 (tm_until s) t0 evs [] dn pd pq) as (pd' & pq' & L'); try done.
        -- by rewrite Ep.
        -- by rewrite Ep.
        -- by exists pd', [], pq'.
    + (* the delay is over *)
      destruct (Hb b) as [t0 ->]; [|done|].
      { unfold ready. rewrite Ep. destruct L. cbn in Een. rewrite lg_live0 in Een. cbn in Een. rewrite Een. by rewrite orb_true_r. }
      assert (pc = []) as -> by (destruct L; by rewrite Ep in lg_pc0). assert (m_cancelled (tm_m s) = false) as El by (by destruct L).
      unfold drained, start_pass in Em. rewrite El in Em. injection Em as <- <-.
      right. split; [intros Q; destruct (Hcalm Q) as [_ HH]; by rewrite Ep in HH|]. exists dn.
      destruct (ledger_pass s (set_serve (SPass (mc_stores (tc_cfg c)) "") (tm_m s)) 1 (tm_until s) t0 evs [(tm_now s, MPassStart)] dn pd pq) as (pd' & pq' & L'); try done.
      * by rewrite Ep.
      * by rewrite Ep.
      * by exists pd', [], pq'.
    + destruct q; done.
    + destruct q; done.
    + destruct q; done.
    + destruct q; done.
    + destruct q; done.
    + (* in a pass *)
      destruct (Hb b) as [t0 ->]; [|done|]. { unfold ready. by rewrite Ep. }
      assert (pc = []) as -> by (destruct L; by rewrite Ep in lg_pc0).
      assert (quiet -> False) as Hnq by (intros Q; destruct (Hcalm Q) as [_ HH]; by rewrite Ep in HH).
      assert (forall m2 ev2, m' = m2 -> ev' = ev2 -> m_changes m2 = m_changes (tm_m s) -> m_cancelled m2 = m_cancelled (tm_m s) ->
        match m_serve m2 with SIdle | SPass _ _ | SPassSend _ _ _ => True | _ => False end -> ev2 = [] \/ ev2 = [MPassEnd] ->
        timely quiet (TMState m' (tm_now s) (new_until c (SPass q tok) (m_serve m') (tm_now s) (tm_until s)))
         (next_since (Some t0) (TMState m' (tm_now s) (new_until c (SPass q tok) (m_serve m') (tm_now s) (tm_until s)))) (evs ++ (pair (tm_now s) <$> ev'))) as Hps.
      { intros m2 ev2 -> -> E1 E2 E3 E4. right. split; [intros Q; by destruct (Hnq Q)|]. exists dn.
        assert (new_until c (SPass q tok) (m_serve m2) (tm_now s) (tm_until s) = tm_until s) as Eu by (by destruct (m_serve m2)). rewrite Eu in *.
        destruct (ledger_pass s m2 0 (tm_until s) t0 evs (pair (tm_now s) <$> ev2) dn pd pq) as (pd' & pq' & L'); try done.
        - by rewrite Ep.
        - by destruct (m_serve m2).
        - by destruct E4 as [->| ->].
        - by destruct E4 as [->| ->].
        - by destruct E4 as [->| ->].
        - by rewrite Ep.
        - by exists pd', [], pq'. }
      destruct q as [|i q]; injection Em as E1 E2.
      * eapply Hps; [symmetry; exact E1|symmetry; exact E2|done|done|done|by right].
      * destruct (m_crashed m') eqn:Ec'; [by left|]. symmetry in E1. pose proof E1 as E1'. unfold list_next in E1.
        destruct ((run_op _ _ _ _).1.2) as [| |l tk [er|]| |]; try (subst m'; discriminate Ec'); try (eapply Hps; [exact E1|symmetry; exact E2|done|done|by rewrite Ep|by left]).
        destruct l; (eapply Hps; [exact E1|symmetry; exact E2|done|done|done|by left]).
    + destruct L. rewrite lg_live0 in Em. done.
    + (* queue a flush message *)
      destruct (_ <? 256); [|done]. injection Em as <- <-. destruct (Hb b) as [t0 ->]; [|done|]. { unfold ready. by rewrite Ep. }
      assert (pc = []) as -> by (destruct L; by rewrite Ep in lg_pc0).
      right. split; [intros Q; destruct (Hcalm Q) as [_ HH]; by rewrite Ep in HH|]. exists dn.
      destruct (ledger_pass s (set_serve (SPass q tok) (set_sends (m_sends (tm_m s) ++ [mm]) (tm_m s))) 0 (tm_until s) t0 evs [(tm_now s, MQueued false mm)] dn pd pq) as (pd' & pq' & L'); try done.
      * by rewrite Ep.
      * by rewrite Ep.
      * by exists pd', [], pq'.
  - (* a flush request *)
    destruct (m_listening (tm_m s)); [|done]. injection Em as E1 E2. unfold recv_step in *.
    eapply Hsame; [symmetry; exact E1|symmetry; exact E2|..]; try (destruct ok; done); by destruct (m_flushes (tm_m s) <? 8).
  - destruct L. rewrite lg_live0, andb_false_r in Em. done.
  - destruct (m_sending (tm_m s)); [|done]. unfold send_step in Em. destruct (m_sends (tm_m s)) as [|m q]; [done|].
    destruct (encode_record_msg _) as [am|er|]; injection Em as <- <-; [| |by left]; by eapply Hsame.
  - destruct L. rewrite lg_live0, andb_false_r in Em. done.
  - destruct (run_op _ _ _ _) as [[? ?] ?]. injection Em as <- <-. by eapply Hsame.
Qed.
End bound.

Lemma timely_run c P D (quiet : Prop) s b evs0 ls s' evs : 0 <= P -> 0 <= D -> tc_delay c <= D \/ quiet -> timely c P D quiet s b evs0 ->
  Forall (fun l => match l with TMStep (LServe e _) => env_ok e | TMStep LCancel => False | TMStep (LRecv _) => ~ quiet | _ => True end) ls ->
  tmrun c s ls = Some (s', evs) -> keeps_up c P b s ls -> exists b', timely c P D quiet s' b' (evs0 ++ evs).
Proof.
  intros HP HD Hd Ht Hl. revert s b evs0 evs Ht. induction Hl as [|l ls Hl1 Hl IH]; intros s b evs0 evs Ht Hr Hk.
  - injection Hr as <- <-. rewrite app_nil_r. eauto.
  - unfold tmrun in Hr. cbn [run keeps_up] in Hr, Hk. destruct (tmstep c s l) as [[s1 ev1]|] eqn:E; [|done].
    destruct (run (tmstep c) s1 ls) as [[s2 ev2]|] eqn:E2; [|done]. injection Hr as <- <-. destruct Hk as [Hk1 Hk]. rewrite app_assoc.
    apply (IH s1 (next_since b s1)); [|done|done]. by eapply timely_step.
Qed.

Lemma timely_init c P D quiet w now : timely c P D quiet (tm_init w now) None [].
Proof.
  right. split; [done|]. exists [], [], [], []. constructor; try done.
Qed.

(** Whatever waits has not waited for longer. *)
Lemma waiting_bound c P D (quiet : Prop) w now ls s evs : 0 <= P -> 0 <= D -> tc_delay c <= D \/ quiet -> labels_ok (untimed ls) -> LCancel ∉ untimed ls ->
  (quiet -> forall ok, LRecv ok ∉ untimed ls) -> tmrun c (tm_init w now) ls = Some (s, evs) -> keeps_up c P None (tm_init w now) ls -> m_crashed (tm_m s) = false ->
  exists dn rest, waits evs = rest.1 ++ rest.2 /\ wu_update <$> rest.1 = dn.*2 /\ concat (update_msgs evs.*2) = handed dn /\ Forall (fun x => env_ok x.1) dn /\
    Forall (fun x => tm_now s <= wu_at x + (wu_passes x + 2) * (D + P) + Z.max 0 (tc_buffer c)) rest.2.
Proof.
  intros HP HD Hd Hok Hc Hq Hr Hk Hcr.
  destruct (timely_run c P D quiet (tm_init w now) None [] ls s evs) as [b Ht]; try done.
  - apply timely_init.
  - apply Forall_forall. intros l Hin.
    assert (forall l', l = TMStep l' -> l' ∈ untimed ls) as Hu by (intros l' ->; apply elem_of_list_omap; by exists (TMStep l')).
    destruct l as [|[]]; try done.
    + unfold labels_ok in Hok. rewrite Forall_forall in Hok. exact (Hok _ (Hu _ eq_refl)).
    + intros Q. apply (Hq Q ok). by apply Hu.
    + apply Hc. by apply Hu.
  - destruct Ht as [?|[_ (dn & pd & pc & pq & L)]]; [congruence|]. pose proof (ledger_bound c P D s b evs dn pd pc pq HP HD L) as Hb. destruct L.
    exists dn, (pd, pc ++ pq). done.
Qed.

(** ** As long as flushes are requested *)

(** No stores, no buffering, a delay of [d]. *)
Definition slow_cfg (d : Z) : tmcfg := TMCfg [] (fun _ => ex_cf) 0 1 d 1.
Definition ex_new : rec_update := RecUpdate None (Some (ex_site "s1")).
Definition ex_now (a : act) : tmlabel := TMStep (LServe (at_time 9) a).
Definition slow_round (d : Z) : list tmlabel := [ex_now ATakeFlush; TMTime d; ex_now ATimeout; ex_now ADo; TMStep (LRecv true)].
Fixpoint slow_rounds (n : nat) (d : Z) : list tmlabel := match n with O => [] | S n => slow_round d ++ slow_rounds n d end.
Definition slow_run (n : nat) (d : Z) : list tmlabel := [TMStep (LRecv true); TMStep (LPublish ex_new)] ++ slow_rounds n d.
Definition slow_state (now until : Z) : tmstate := TMState (MState [ex_new] 1 [] SIdle true true false false ∅) now until.

Lemma keeps_up_cons c P b s l s' ev b' ls : tmstep c s l = Some (s', ev) -> next_since b s' = b' -> match b' with Some t => tm_now s' <= t + P | None => True end ->
  keeps_up c P b' s' ls -> keeps_up c P b s (l :: ls).
Proof. intros H <- Hb Hk. cbn [keeps_up]. by rewrite H. Qed.

Lemma slow_round_run d now until : 0 < d ->
  tmrun (slow_cfg d) (slow_state now until) (slow_round d) =
    Some (slow_state (now + d) (now + d), [(now + d, MPassStart); (now + d, MPassEnd); (now + d, MFlushReq)]) /\
  forall ls, keeps_up (slow_cfg d) 0 (Some (now + d)) (slow_state (now + d) (now + d)) ls -> keeps_up (slow_cfg d) 0 (Some now) (slow_state now until) (slow_round d ++ ls).
Proof.
  intros Hd. assert (0 <? d = true) as E1 by (apply Z.ltb_lt; lia). assert (0 <=? d = true) as E2 by (apply Z.leb_le; lia).
  assert (now + d <=? now + d = true) as E3 by (apply Z.leb_le; lia). assert (now + d <=? now = false) as E4 by (apply Z.leb_gt; lia).
  split.
  - unfold tmrun, slow_round, slow_state, slow_cfg. cbn. rewrite E1. cbn. rewrite E2. cbn. rewrite E3. reflexivity.
  - intros ls Hk. unfold slow_round. cbn [app].
    eapply (keeps_up_cons _ _ _ _ _ (TMState (MState [ex_new] 0 [] (SDrain 0) true true false false ∅) now (now + d)) _ None).
    { cbn. by rewrite E1. } { unfold next_since. cbn. by rewrite E4. } { done. }
    eapply (keeps_up_cons _ _ _ _ _ (TMState (MState [ex_new] 0 [] (SDrain 0) true true false false ∅) (now + d) (now + d)) _ (Some (now + d))).
    { cbn. by rewrite E2. } { unfold next_since. cbn. rewrite E3. f_equal. lia. } { cbn. lia. }
    eapply (keeps_up_cons _ _ _ _ _ (TMState (MState [ex_new] 0 [] (SPass [] "") true true false false ∅) (now + d) (now + d)) _ (Some (now + d))).
    { cbn. by rewrite E3. } { done. } { cbn. lia. }
    eapply (keeps_up_cons _ _ _ _ _ (TMState (MState [ex_new] 0 [] SIdle true true false false ∅) (now + d) (now + d)) _ (Some (now + d))).
    { done. } { done. } { cbn. lia. }
    eapply (keeps_up_cons _ _ _ _ _ (slow_state (now + d) (now + d)) _ (Some (now + d))).
    { done. } { done. } { cbn. lia. } exact Hk.
Qed.

Lemma slow_rounds_run n d now until : 0 < d -> exists until' evs, tmrun (slow_cfg d) (slow_state now until) (slow_rounds n d) = Some (slow_state (now + Z.of_nat n * d) until', evs) /\
  keeps_up (slow_cfg d) 0 (Some now) (slow_state now until) (slow_rounds n d) /\ passes evs = Z.of_nat n /\ waits evs = [] /\ update_msgs evs.*2 = [].
Proof.
  intros Hd. revert now until. induction n as [|n IH]; intros now until.
  - exists until, []. split; [|done]. cbn. by rewrite Z.add_0_r.
  - destruct (slow_round_run d now until Hd) as [Hr Hk]. destruct (IH (now + d) (now + d)) as (u & evs & Hr' & Hk' & Hp & Hw & Hm).
    exists u, ([(now + d, MPassStart); (now + d, MPassEnd); (now + d, MFlushReq)] ++ evs). cbn [slow_rounds]. split; [|split; [by apply Hk|split; [|split]]].
    + unfold tmrun in *. rewrite run_app, Hr, Hr'. do 2 f_equal. unfold slow_state. f_equal. lia.
    + rewrite passes_app, Hp. cbn [passes]. lia.
    + exact Hw.
    + exact Hm.
Qed.

Lemma slow_untimed n d l : l ∈ untimed (slow_run n d) -> l <> LCancel.
Proof.
  assert (forall l, l ∈ untimed (slow_rounds n d) -> l <> LCancel) as H.
  { clear l. induction n as [|n IH]; intros l; [by intros ?%elem_of_nil|]. cbn [slow_rounds]. unfold untimed. rewrite omap_app. intros [H|H]%elem_of_app; [|by apply IH].
    cbn in H. repeat (apply elem_of_cons in H as [->|H]; [done|]). by apply elem_of_nil in H. }
  unfold slow_run, untimed. rewrite omap_app. intros [H'|H']%elem_of_app; [|by apply H].
  cbn in H'. repeat (apply elem_of_cons in H' as [->|H']; [done|]). by apply elem_of_nil in H'.
Qed.

Lemma starved n d : 0 < d -> exists ls s evs, tmrun (slow_cfg d) (tm_init ∅ 0) ls = Some (s, evs) /\ keeps_up (slow_cfg d) 0 None (tm_init ∅ 0) ls /\ LCancel ∉ untimed ls /\
  m_crashed (tm_m s) = false /\ waits evs = [Waiting 0 (Z.of_nat n) ex_new] /\ update_msgs evs.*2 = [] /\ tm_now s = Z.of_nat n * d.
Proof.
  intros Hd. destruct (slow_rounds_run n d 0 0 Hd) as (u & evs & Hr & Hk & Hp & Hw & Hm).
  exists (slow_run n d), (slow_state (Z.of_nat n * d) u), ([(0, MFlushReq); (0, MPublished ex_new)] ++ evs). split; [|split; [|split; [|split; [|split; [|split]]]]]; try done.
  - unfold slow_run, tmrun in *. rewrite run_app.
    assert (run (tmstep (slow_cfg d)) (tm_init ∅ 0) [TMStep (LRecv true); TMStep (LPublish ex_new)] = Some (slow_state 0 0, [(0, MFlushReq); (0, MPublished ex_new)])) as -> by reflexivity.
    rewrite Hr. reflexivity.
  - intros H. by apply slow_untimed in H.
  - cbn [app waits]. by rewrite Hw, Hp.
Qed.
