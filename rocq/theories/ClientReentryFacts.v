(** Facts about handlers that call their client (ClientReentry.v). *)
From Coq Require Import ZArith NArith Ascii String Lia.
From stdpp Require Import base gmap strings list fin_maps.
From Verif Require Import GoBase Encoding Records Messages Run Keepalive Client ClientFacts ClientClose ClientReentry.

Local Open Scope list_scope.
Local Opaque decode_msg encode_flush.

(** ** Specification *)

(** What the client did. *)
Definition base (evs : list rcev) : list cev := omap (fun e => match e with RE x => Some x | _ => None end) evs.

(** The call that the handler running on listener [i] has made and that has not
    come back. *)
Definition awaiting (i : nat) (evs : list rcev) : option rcall :=
  foldl (fun a e => match e with
                    | RAsk j q => if bool_decide (j = i) then Some q else a
                    | RBack j _ => if bool_decide (j = i) then None else a
                    | RE _ => a
                    end) None evs.

(** Close has been called and has not returned. *)
Definition closing_now (evs : list cev) : bool :=
  foldl (fun a e => match e with CCloseCall => true | CClosed => false | _ => a end) false evs.

(** What only happens while the lock is free, or when it is freed. *)
Definition needs_lock (e : rcev) : bool :=
  match e with
  | RE (CClosed | CReg _ _ | CListening _ _ _ | CRead _ _ | CCloseCall) => true
  | RBack _ (RReg _ _ | RListen _ | RClose) => true
  | _ => false
  end.

(** ** Bookkeeping *)

Lemma base_app a b : base (a ++ b) = base a ++ base b.
Proof. apply omap_app. Qed.
Lemma base_re ev : base (RE <$> ev) = ev.
Proof. induction ev as [|e ev IH]; [done|]. unfold base in *. cbn. by rewrite IH. Qed.
Lemma base_back (l : list nat) : base ((fun i => RBack i RClose) <$> l) = [].
Proof. induction l as [|i l IH]; [done|]. unfold base in *. cbn. exact IH. Qed.

Lemma awaiting_app i a b : awaiting i (a ++ b) =
  foldl (fun a e => match e with RAsk j q => if bool_decide (j = i) then Some q else a | RBack j _ => if bool_decide (j = i) then None else a | RE _ => a end) (awaiting i a) b.
Proof. unfold awaiting. by rewrite foldl_app. Qed.
Lemma awaiting_re i evs ev : awaiting i (evs ++ (RE <$> ev)) = awaiting i evs.
Proof. rewrite awaiting_app. generalize (awaiting i evs). induction ev as [|e ev IH]; intros o; [done|]. cbn. apply IH. Qed.

Lemma closing_app a b : closing_now (a ++ b) = foldl (fun a e => match e with CCloseCall => true | CClosed => false | _ => a end) (closing_now a) b.
Proof. unfold closing_now. by rewrite foldl_app. Qed.
Lemma closing_same a b : ~ CClosed ∈ b -> ~ CCloseCall ∈ b -> closing_now (a ++ b) = closing_now a.
Proof.
  rewrite closing_app. generalize (closing_now a). induction b as [|e b IH]; intros o H1 H2; [done|]. cbn.
  rewrite IH; [|set_solver|set_solver]. destruct e; try done; set_solver.
Qed.

Definition is_added (h : hst) : bool := match h with HAdded _ => true | _ => false end.
Definition added (m : gmap nat hst) : nat := size (filter (fun kv => is_added (snd kv) = true) m).

Lemma added_insert m i h : m !! i = None -> added (<[i := h]> m) = (if is_added h then 1 else 0) + added m.
Proof.
  intros Hn. unfold added. destruct (is_added h) eqn:E.
  - rewrite map_filter_insert_True by done. rewrite map_size_insert_None; [done|]. apply map_filter_lookup_None. by left.
  - rewrite map_filter_insert_False by (cbn; congruence). by rewrite delete_notin.
Qed.
Lemma added_lookup m i h : m !! i = Some h -> added m = (if is_added h then 1 else 0) + added (delete i m).
Proof. intros Hl. rewrite <- (insert_delete m i h Hl) at 1. apply added_insert. apply lookup_delete. Qed.
Lemma added_set m i h h' : m !! i = Some h -> added (<[i := h']> m) + (if is_added h then 1 else 0) = added m + (if is_added h' then 1 else 0).
Proof.
  intros Hl. rewrite (added_lookup m i h Hl), <- insert_delete_insert, added_insert by apply lookup_delete. lia.
Qed.
Lemma added_body m i : match m !! i with None | Some HBody => True | _ => False end ->
  added (<[i := HBody]> m) = added m /\ added (delete i m) = added m.
Proof.
  intros H. destruct (m !! i) as [h|] eqn:E.
  - destruct h; try done. pose proof (added_set m i HBody HBody E). pose proof (added_lookup m i HBody E). cbn in *. lia.
  - rewrite (added_insert m i HBody E), (delete_notin m i E). done.
Qed.
Lemma added_release m : added (release m) = added m.
Proof.
  unfold added, release. rewrite map_filter_fmap, map_size_fmap. f_equal. apply map_filter_ext. intros i h _. cbn. by destruct h.
Qed.

(** ** Steps of the client *)

Lemma move_run s i x hs q ev : moves s i (LRun x hs) q ev ->
  (hs = [] /\ q = LNext /\ ev = []) \/ (exists h hs', hs = h :: hs' /\ q = LRun x hs' /\ ev = [CCall i h x]).
Proof. intros H. inversion H; subst; [by left|right; eauto]. Qed.

Definition at_run (s : cstate) (i : nat) : Prop := exists x hs, pc_of s i = Some (LRun x hs).

(** A handler that runs is left alone by every step but its listener's. *)
Lemma at_run_step c s lb s' ev i : at_run s i -> lb <> LLRun i -> cstep c s lb = Some (s', ev) -> at_run s' i.
Proof.
  intros (x & hs & Hp) Hlb Hs. pose proof Hs as Hs0.
  destruct (step_cases _ _ _ _ _ Hs) as [Hq|[(ad & _ & El)|(j & l & q & Hl & Hst & Hm & Hpc)]].
  - destruct (Hq i) as [E _]. exists x, hs. by rewrite E.
  - exists x, hs. unfold pc_of in *. rewrite El. destruct (c_listeners s !! i) as [l|] eqn:E; [|done].
    by rewrite lookup_app_l by (by eapply lookup_lt_Some); rewrite E.
  - destruct (decide (i = j)) as [->|Hne].
    + exfalso. unfold pc_of in Hp. rewrite Hl in Hp. injection Hp as Hp. unfold listener_step in Hst. rewrite Hp in Hst.
      unfold cstep in Hs0. rewrite (crashed_false _ _ _ _ _ Hs) in Hs0.
      destruct lb as [| | | |k [m|y]|k [|y]|k|k|k| | | | | | | | | |]; try done.
      destruct (decide (k = j)) as [->|Hk]; [done|].
      destruct (c_listeners s !! k) as [l'|] eqn:Ek; [|done]. 
      destruct (listener_moves _ _ _ _ _ _ Ek Hs0) as (p & Hm' & Hpc').
      pose proof (Hpc j) as E1. rewrite bool_decide_eq_true_2 in E1 by done. pose proof (Hpc' j) as E2. rewrite bool_decide_eq_false_2 in E2 by done.
      unfold pc_of in E2 at 2. rewrite Hl in E2. cbn in E2. rewrite Hp in E2. rewrite Hp in Hm.
      destruct (move_run _ _ _ _ _ _ Hm) as [(-> & -> & _)|(h & hs' & -> & -> & _)].
      * rewrite E1 in E2. discriminate E2.
      * rewrite E1 in E2. injection E2 as E2. clear -E2. assert (length hs' = length (h :: hs')) as E by congruence. cbn in E. lia.
    + exists x, hs. rewrite Hpc. by rewrite bool_decide_eq_false_2.
Qed.

(** The step with which a handler is called, or the last one returned. *)
Lemma run_call c s i s' ev : cstep c s (LLRun i) = Some (s', ev) ->
  at_run s i /\ (called ev = true -> at_run s' i) /\ returned ev = false /\ closing_now ev = false /\
  c_close s' = c_close s /\ c_adding s' = c_adding s /\ (~ CClosed ∈ ev /\ ~ CCloseCall ∈ ev) /\
  Forall (fun e => needs_lock (RE e) = false) ev.
Proof.
  intros Hs. pose proof (crashed_false _ _ _ _ _ Hs) as Hc. unfold cstep in Hs. rewrite Hc in Hs.
  destruct (c_listeners s !! i) as [l|] eqn:El; [|done]. pose proof (listener_moves _ _ _ _ _ _ El Hs) as (p & Hm & Hpc).
  unfold listener_step in Hs. destruct (l_pc l) as [| | |x hs| |] eqn:Ep; try done.
  assert (pc_of s i = Some (LRun x hs)) as Hp. { unfold pc_of. rewrite El. cbn. by rewrite Ep. }
  pose proof (Hpc i) as Hi. rewrite bool_decide_eq_true_2 in Hi by done.
  split; [by exists x, hs|]. destruct hs as [|h hs]; injection Hs as <- <-.
  - repeat (split; [done|]). split; [split; apply not_elem_of_nil|constructor].
  - split. { intros _. destruct (move_run _ _ _ _ _ _ Hm) as [(H & _)|(h' & hs' & E & -> & _)]; [discriminate H|]. by exists x, hs'. }
    destruct (invoke_same h (set_pc i (LRun x hs) s)) as (_ & _ & _ & Ea & _ & _ & Ecl & _).
    split; [done|]. split; [done|]. split; [exact Ecl|]. split; [exact Ea|].
    split; [split; intros H; not_in H|]. by repeat constructor.
Qed.

Lemma running_wg s i : wg_inv s -> at_run s i -> (0 < c_wg s)%Z.
Proof.
  intros (Hw & _) (x & hs & Hp). unfold pc_of in Hp. destruct (c_listeners s !! i) as [l|] eqn:El; [|done]. injection Hp as Hp.
  assert (running l = true) as Hr by (unfold running; by rewrite Hp). pose proof (live_pos _ _ _ El Hr). lia.
Qed.

Lemma returned_in ev : returned ev = true <-> CClosed ∈ ev.
Proof.
  unfold returned. rewrite existsb_exists. split.
  - intros (e & Hin & He). destruct e; try done. by apply elem_of_list_In.
  - intros H. exists CClosed. split; [by apply elem_of_list_In|done].
Qed.

(** Close returns at most when no listener is left. *)
Lemma closed_wg c s lb s' ev : cstep c s lb = Some (s', ev) -> CClosed ∈ ev -> c_wg s = 0%Z.
Proof.
  intros Hs Hin. destruct (close_cases _ _ _ _ _ Hs) as [? -> | ? -> | Hlb -> Hz -> | ? -> | ? -> | ? -> | ? ? ? ? ? HF | j l Hl Hst | ? ? ? ? ? HF]; try done;
    try (by not_in Hin).
  - pose proof (proj1 (Forall_forall _ _) HF _ Hin) as Hno. done.
  - destruct (listener_moves _ _ _ _ _ _ Hl Hst) as (p & Hm & _). by destruct (moves_no_close _ _ _ _ _ Hm) as [Hno _].
  - pose proof (proj1 (Forall_forall _ _) HF _ Hin) as Hno. done.
Qed.

(** While a handler runs Close goes on, and whatever needs the lock waits. *)
Lemma held_step c s lb s' ev i : wg_inv s -> closing s -> at_run s i -> cstep c s lb = Some (s', ev) ->
  closing s' /\ Forall (fun e => needs_lock (RE e) = false) ev.
Proof.
  intros Hw Hcl Hr Hs. pose proof (running_wg _ _ Hw Hr) as Hpos. unfold closing in *.
  assert (unlocked s = false) as Hu by (unfold unlocked; by destruct (c_close s)).
  pose proof (crashed_false _ _ _ _ _ Hs) as Hc. unfold cstep in Hs. rewrite Hc, Hu in Hs.
  assert (forall j, match c_listeners s !! j with Some l => listener_step s j l lb | None => None end = Some (s', ev) ->
    c_close s' <> ClNone /\ Forall (fun e => needs_lock (RE e) = false) ev) as Hlis.
  { intros j H. destruct (c_listeners s !! j) as [l|]; [|done]. unfold listener_step in H. rewrite Hu in H.
    destruct lb as [| | | |? [m|y]|? [|y]| | | | | | | | | | | | |]; try done; destruct (l_pc l) as [|m'|x'|x' [|h hs]| |]; try done.
    all: try (destruct (decode_msg (Some m')) as [[y|] [e|]|]).
    all: try (destruct (ends l y)).
    all: injection H as <- <-; (split; [|by repeat constructor]).
    all: try exact Hcl.
    - by destruct (invoke_same h (set_pc j (LRun x' hs) s)) as (_ & _ & _ & _ & _ & _ & -> & _).
    - destruct (c_close s) eqn:E; try done; cbn; try (by rewrite E). destruct (_ =? _)%Z; cbn; [done|by rewrite E]. }
  assert (forall f, match c_flushes s !! f with Some x => flush_step c s f x lb | None => None end = Some (s', ev) ->
    c_close s' <> ClNone /\ Forall (fun e => needs_lock (RE e) = false) ev) as Hfl.
  { intros f H. destruct (c_flushes s !! f) as [x|]; [|done]. unfold flush_step in H. rewrite Hu in H.
    destruct lb; try done; destruct (f_pc x); try done.
    all: try (destruct (f_closed x); [|done]).
    all: try (destruct (f_cancelled x); [|done]).
    all: injection H as <- <-; (split; [exact Hcl|by repeat constructor]). }
  destruct lb; try discriminate Hs; try (eapply Hlis; exact Hs); try (eapply Hfl; exact Hs).
  - injection Hs as <- <-. split; [exact Hcl|constructor].
  - destruct (c_adding s); discriminate Hs.
  - injection Hs as <- <-. split; [exact Hcl|constructor].
  - destruct (c_close s) eqn:E; try done. destruct (_ =? _)%Z eqn:Ez; [apply Z.eqb_eq in Ez; lia|]. injection Hs as <- <-. by split; [|constructor].
  - destruct (c_close s) eqn:E; try done. destruct (_ =? _)%Z eqn:Ez; [apply Z.eqb_eq in Ez; lia|]. injection Hs as <- <-. split; [cbn; by rewrite E|by repeat constructor].
  - injection Hs as <- <-. split; [exact Hcl|by repeat constructor].
  - injection Hs as <- <-. split; [exact Hcl|by repeat constructor].
Qed.

(** What the events say about Close. *)
Lemma closing_step c s lb s' ev evs : cstep c s lb = Some (s', ev) -> closing_now evs = negb (unlocked s) -> c_crashed s' = false ->
  closing_now (evs ++ ev) = negb (unlocked s').
Proof.
  intros Hs He Hc'. destruct (close_cases _ _ _ _ _ Hs) as [? -> Hn ? Hb | ? -> ? ? -> | Hlb -> Hz -> | ? -> Hb ? -> | ? -> ? ? -> | ? -> Hb | Hn Hn' ? ? ? HF | j l Hl Hst | Hb ? ? ? ? HF].
  - rewrite closing_app. cbn. unfold unlocked. by rewrite Hb.
  - discriminate Hc'.
  - rewrite closing_app. done.
  - rewrite app_nil_r, He. unfold unlocked. by rewrite Hb.
  - discriminate Hc'.
  - rewrite app_nil_r, He. unfold unlocked. by rewrite Hb.
  - rewrite closing_same, He; [unfold unlocked; by rewrite Hn, Hn'| |]; intros Hin; pose proof (proj1 (Forall_forall _ _) HF _ Hin) as Hin'; done.
  - destruct (listener_moves _ _ _ _ _ _ Hl Hst) as (p & Hm & _). destruct (moves_no_close _ _ _ _ _ Hm) as [H1 H2].
    rewrite closing_same, He by done. f_equal. clear -Hst. unfold listener_step in Hst.
    destruct lb as [| | | |? [m|y]|? [|y]| | | | | | | | | | | | |]; try done; destruct (l_pc l) as [|m'|x'|x' [|h hs]| |]; try done.
    all: try (destruct (decode_msg (Some m')) as [[y|] [e|]|]).
    all: try (destruct (ends l y)).
    all: try (destruct (unlocked s) eqn:Eu; [|done]).
    all: injection Hst as <- <-; try done.
    + unfold unlocked. by destruct (invoke_same h (set_pc j (LRun x' hs) s)) as (_ & _ & _ & _ & _ & _ & -> & _).
    + unfold unlocked. destruct (c_close s) eqn:E; cbn; try (by rewrite E). destruct (_ =? _)%Z; cbn; [done|by rewrite E].
  - rewrite closing_same, He; [unfold unlocked; by rewrite Hb| |]; intros Hin; pose proof (proj1 (Forall_forall _ _) HF _ Hin) as Hin'; done.
Qed.

Lemma adding_step c s lb s' ev : cstep c s lb = Some (s', ev) ->
  match lb with LListenAdd => c_adding s' = S (c_adding s) | LListen _ => c_adding s = S (c_adding s') | _ => c_adding s' = c_adding s end.
Proof.
  intros Hs. pose proof Hs as Hs0. destruct (close_cases _ _ _ _ _ Hs) as [-> ? ? ? ? ? E | -> ? ? ? -> | Hlb ? ? -> | -> ? ? ? -> | -> ? ? ? -> | -> | ? ? ? E [p ->] | j l Hl Hst | ? ? E ? Hlb]; try done.
  - destruct Hlb as [[-> _]|[-> _]]; done.
  - destruct (listener_same _ _ _ _ _ _ Hst) as (_ & _ & E & _). destruct lb; done.
  - destruct lb; done.
Qed.

(** ** The invariant *)

Definition waits_for (h : option hst) : option rcall :=
  match h with Some (HWant q) => Some q | Some (HAdded p) => Some (RListen p) | Some HInClose => Some RClose | _ => None end.

Record rinv (c : info) (s : rstate) (evs : list rcev) : Prop := {
  ri_run : exists ls, crun c c_init ls = Some (r_s s, base evs);
  ri_at : forall i h, r_in s !! i = Some h -> at_run (r_s s) i;
  ri_closing : forall i, r_in s !! i = Some HInClose -> closing (r_s s) \/ c_crashed (r_s s) = true;
  ri_adding : added (r_in s) + r_out s = c_adding (r_s s);
  ri_waits : forall i, awaiting i evs = waits_for (r_in s !! i);
  ri_never : forall i, ~ RBack i RClose ∈ evs;
  ri_now : c_crashed (r_s s) = false -> closing_now (base evs) = negb (unlocked (r_s s));
}.

Lemma extend c s lb s' ev evs : (exists ls, crun c c_init ls = Some (s, evs)) -> cstep c s lb = Some (s', ev) ->
  exists ls, crun c c_init ls = Some (s', evs ++ ev).
Proof. intros (ls & Hr) Hs. exists (ls ++ [lb]). rewrite run_app, Hr. cbn. by rewrite Hs, app_nil_r. Qed.

Lemma in_re x (ev : list cev) : RE x ∈ RE <$> ev -> x ∈ ev.
Proof. intros H. apply elem_of_list_fmap in H as (y & E & Hin). injection E as ->. done. Qed.
Lemma back_re i q (ev : list cev) : ~ RBack i q ∈ RE <$> ev.
Proof. intros H. apply elem_of_list_fmap in H as (y & E & Hin). discriminate E. Qed.

Lemma is_run lb : {i | lb = LLRun i} + {~ exists i, lb = LLRun i}.
Proof. destruct lb; try (right; intros [? H]; discriminate H). left. by eexists. Qed.

(** A handler's own call. *)
Lemma via_step c s evs i h lb s' ev h' back : rinv c s evs -> r_in s !! i = Some h -> cstep c (r_s s) lb = Some (s', ev) ->
  (forall j, lb <> LLRun j) -> (h' = HInClose -> closing s' \/ c_crashed s' = true) ->
  ((if is_added h' then 1 else 0) + c_adding (r_s s) = (if is_added h then 1 else 0) + c_adding s') ->
  (forall k, awaiting k (evs ++ (RE <$> ev) ++ back) = if bool_decide (k = i) then waits_for (Some h') else awaiting k evs) ->
  (forall k, ~ RBack k RClose ∈ back) -> base back = [] ->
  rinv c (R s' (<[i := h']> (r_in s)) (r_out s)) (evs ++ (RE <$> ev) ++ back).
Proof.
  intros [Hrun Hat Hcl Hadd Hw Hnv Hnow] Hi Hs Hlb Hin Ha Haw Hb Hbase.
  assert (exists ls, crun c c_init ls = Some (s', base (evs ++ (RE <$> ev) ++ back))) as Hrun'.
  { rewrite !base_app, base_re, Hbase, app_nil_r. by eapply extend. }
  split; cbn [r_s r_in r_out].
  - exact Hrun'.
  - intros k hk Hk. destruct (decide (k = i)) as [->|Hne].
    + eapply at_run_step; [by eapply Hat| |exact Hs]. apply Hlb.
    + rewrite lookup_insert_ne in Hk by done. eapply at_run_step; [by eapply Hat| |exact Hs]. apply Hlb.
  - intros k Hk. destruct (decide (k = i)) as [->|Hne].
    + rewrite lookup_insert in Hk. injection Hk as Hk. by apply Hin.
    + rewrite lookup_insert_ne in Hk by done. destruct (Hcl k Hk) as [H|H]; [|by rewrite (crashed_false _ _ _ _ _ Hs) in H].
      left. destruct Hrun as (ls & Hr). eapply (held_step c (r_s s) lb s' ev k); [by eapply wg_run|done|by eapply Hat|done].
  - pose proof (added_set (r_in s) i h h' Hi). lia.
  - intros k. rewrite Haw. case_bool_decide as E; [subst k; by rewrite lookup_insert|]. by rewrite lookup_insert_ne, Hw.
  - intros k H. apply elem_of_app in H as [H|H]; [by eapply Hnv|]. apply elem_of_app in H as [H|H]; [by apply back_re in H|by eapply Hb].
  - intros Hc. rewrite !base_app, base_re, Hbase, app_nil_r. eapply closing_step; [exact Hs| |done]. apply Hnow. by eapply crashed_false.
Qed.

Lemma awaiting_one i e evs : awaiting i (evs ++ [e]) =
  match e with RAsk j q => if bool_decide (j = i) then Some q else awaiting i evs | RBack j _ => if bool_decide (j = i) then None else awaiting i evs | RE _ => awaiting i evs end.
Proof. by rewrite awaiting_app. Qed.

(** When Close returns no handler is running. *)
Lemma none_left c s evs lb s' ev : rinv c s evs -> cstep c (r_s s) lb = Some (s', ev) -> returned ev = true -> r_in s = ∅.
Proof.
  intros Hi Hs Hr. apply returned_in in Hr. pose proof (closed_wg _ _ _ _ _ Hs Hr) as Hz. apply map_eq. intros i. rewrite lookup_empty.
  destruct (r_in s !! i) as [h|] eqn:E; [|done]. exfalso. destruct (ri_run _ _ _ Hi) as (ls & Hrun).
  pose proof (running_wg _ _ (wg_run _ _ _ _ Hrun) (ri_at _ _ _ Hi _ _ E)). lia.
Qed.

Lemma rinv_step c s evs l s' ev : rinv c s evs -> rstep c s l = Some (s', ev) -> rinv c s' (evs ++ ev).
Proof.
  intros Hinv Hs. pose proof Hinv as [Hrun Hat Hcl Hadd Hw Hnv Hnow]. destruct l as [lb|i q|i]; cbn [rstep] in Hs.
  - destruct (match lb with LLRun i => _ | LListen _ => _ | _ => true end) eqn:Eg; [|done].
    destruct (cstep c (r_s s) lb) as [[s1 e1]|] eqn:Ec; [|done]. injection Hs as <- <-.
    assert ((if returned e1 then (fun i => RBack i RClose) <$> closers (r_in s) else []) = []) as ->.
    { destruct (returned e1) eqn:Er; [|done]. by rewrite (none_left _ _ _ _ _ _ Hinv Ec Er). }
    rewrite app_nil_r.
    destruct (is_run lb) as [[i ->]|Hno].
    + destruct (run_call _ _ _ _ _ Ec) as (_ & Hcall & _ & _ & Eclose & Eadd & [Hn1 Hn2] & _).
      assert (match r_in s !! i with None | Some HBody => True | _ => False end) as Hm by (destruct (r_in s !! i) as [[]|]; done).
      destruct (added_body _ _ Hm) as [Hb1 Hb2].
      split; cbn [r_s r_in r_out].
      * rewrite base_app, base_re. by eapply extend.
      * intros k hk Hk. destruct (decide (k = i)) as [->|Hne].
        -- destruct (called e1) eqn:Eca; [by apply Hcall|]. by rewrite lookup_delete in Hk.
        -- refine (at_run_step _ _ _ _ _ _ _ _ Ec); [|intros E; injection E as E; by apply Hne]. destruct (called e1); [rewrite lookup_insert_ne in Hk by done|rewrite lookup_delete_ne in Hk by done]; by eapply Hat.
      * intros k Hk. assert (r_in s !! k = Some HInClose) as Hk'.
        { destruct (decide (k = i)) as [->|Hne].
          - destruct (called e1); [by rewrite lookup_insert in Hk|by rewrite lookup_delete in Hk].
          - destruct (called e1); [by rewrite lookup_insert_ne in Hk by done|by rewrite lookup_delete_ne in Hk by done]. }
        destruct (Hcl k Hk') as [H|H]; [|by rewrite (crashed_false _ _ _ _ _ Ec) in H]. left. unfold closing in *. by rewrite Eclose.
      * rewrite Eadd, <- Hadd. destruct (called e1); lia.
      * intros k. rewrite awaiting_re, Hw. destruct (decide (k = i)) as [->|Hne].
        -- destruct (called e1); [rewrite lookup_insert|rewrite lookup_delete]; destruct (r_in s !! i) as [[]|]; done.
        -- destruct (called e1); [by rewrite lookup_insert_ne by done|by rewrite lookup_delete_ne by done].
      * intros k H. apply elem_of_app in H as [H|H]; [by eapply Hnv|by apply back_re in H].
      * intros Hc. rewrite base_app, base_re. eapply closing_step; [exact Ec| |done]. apply Hnow. by eapply crashed_false.
    + assert (forall j, lb <> LLRun j) as Hlb by (intros j ->; apply Hno; by exists j).
      assert ((match lb with LLRun i => if called e1 then <[i := HBody]> (r_in s) else delete i (r_in s) | _ => if returned e1 then release (r_in s) else r_in s end) = r_in s) as ->.
      { assert ((if returned e1 then release (r_in s) else r_in s) = r_in s) as Hsame.
        { destruct (returned e1) eqn:Er; [|done]. rewrite (none_left _ _ _ _ _ _ Hinv Ec Er). apply fmap_empty. }
        destruct lb; try exact Hsame. by destruct (Hlb i). }
      split; cbn [r_s r_in r_out].
      * rewrite base_app, base_re. by eapply extend.
      * intros k hk Hk. eapply at_run_step; [by eapply Hat|apply Hlb|exact Ec].
      * intros k Hk. destruct (Hcl k Hk) as [H|H]; [|by rewrite (crashed_false _ _ _ _ _ Ec) in H].
        left. destruct Hrun as (ls & Hr). eapply (held_step c (r_s s) lb s1 e1 k); [by eapply wg_run|done|by eapply Hat|done].
      * pose proof (adding_step _ _ _ _ _ Ec) as Ea. destruct lb; try lia. destruct (r_out s); [discriminate Eg|]. cbn [pred]. lia.
      * intros k. by rewrite awaiting_re.
      * intros k H. apply elem_of_app in H as [H|H]; [by eapply Hnv|by apply back_re in H].
      * intros Hc. rewrite base_app, base_re. eapply closing_step; [exact Ec| |done]. apply Hnow. by eapply crashed_false.
  - destruct (c_crashed (r_s s)) eqn:Ecr; [done|]. destruct (r_in s !! i) as [[]|] eqn:Ei; try done. injection Hs as <- <-.
    split; cbn [r_s r_in r_out].
    + rewrite base_app. cbn. by rewrite app_nil_r.
    + intros k hk Hk. destruct (decide (k = i)) as [->|Hne]; [by eapply Hat|]. rewrite lookup_insert_ne in Hk by done. by eapply Hat.
    + intros k Hk. destruct (decide (k = i)) as [->|Hne]; [by rewrite lookup_insert in Hk|]. rewrite lookup_insert_ne in Hk by done. rewrite Ecr. by eapply Hcl.
    + pose proof (added_set (r_in s) i HBody (HWant q) Ei) as E. cbn in E. lia.
    + intros k. rewrite awaiting_one. case_bool_decide as E; [subst k; by rewrite lookup_insert|]. by rewrite lookup_insert_ne, Hw.
    + intros k H. apply elem_of_app in H as [H|H]; [by eapply Hnv|]. not_in H.
    + intros _. rewrite base_app. cbn. rewrite app_nil_r. by apply Hnow.
  - assert (forall q e1, waits_for (r_in s !! i) = Some q -> forall k, awaiting k (evs ++ (RE <$> e1) ++ [RBack i q]) = if bool_decide (k = i) then None else awaiting k evs) as Hback.
    { intros q e1 _ k. rewrite app_assoc, awaiting_one, awaiting_re. case_bool_decide as E; case_bool_decide as E'; congruence. }
    assert (forall h q e1, r_in s !! i = Some h -> waits_for (Some h) = Some q -> forall k, awaiting k (evs ++ (RE <$> e1) ++ []) = if bool_decide (k = i) then Some q else awaiting k evs) as Hon.
    { intros h q e1 Ei Eq k. rewrite app_nil_r, awaiting_re. case_bool_decide as E; [|done]. subst k. by rewrite Hw, Ei. }
    destruct (r_in s !! i) as [[|[k n|p| |]|p|]|] eqn:Ei; try done.
    + destruct (cstep c (r_s s) (LReg k n)) as [[s1 e1]|] eqn:Ec; [|done]. injection Hs as <- <-. pose proof (adding_step _ _ _ _ _ Ec) as Ea. cbn in Ea.
      apply (via_step c s evs i (HWant (RReg k n)) (LReg k n) s1 e1 (HBody) [RBack i (RReg k n)] Hinv Ei Ec); first [done|cbn; lia|by apply Hback|intros ? H; not_in H].
    + destruct (cstep c (r_s s) LListenAdd) as [[s1 e1]|] eqn:Ec; [|done]. injection Hs as <- <-. pose proof (adding_step _ _ _ _ _ Ec) as Ea. cbn in Ea.
      apply (via_step c s evs i (HWant (RListen p)) (LListenAdd) s1 e1 (HAdded p) [] Hinv Ei Ec); first [done|cbn; lia|by eapply Hon|intros ? H; by apply elem_of_nil in H].
    + destruct (cstep c (r_s s) LSendFlush) as [[s1 e1]|] eqn:Ec; [|done]. injection Hs as <- <-. pose proof (adding_step _ _ _ _ _ Ec) as Ea. cbn in Ea.
      apply (via_step c s evs i (HWant RSendFlush) (LSendFlush) s1 e1 (HBody) [RBack i RSendFlush] Hinv Ei Ec); first [done|cbn; lia|by apply Hback|intros ? H; not_in H].
    + destruct (cstep c (r_s s) LCloseBegin) as [[s1 e1]|] eqn:Ec; [|done]. injection Hs as <- <-. pose proof (adding_step _ _ _ _ _ Ec) as Ea. cbn in Ea.
      apply (via_step c s evs i (HWant RClose) (LCloseBegin) s1 e1 (HInClose) [] Hinv Ei Ec); first [discriminate|cbn; lia|by eapply Hon|intros ? H; by apply elem_of_nil in H|reflexivity|idtac].
      intros _. unfold cstep in Ec. destruct (c_crashed (r_s s)); [done|]. destruct (unlocked (r_s s)); [|done]. destruct (c_done (r_s s)); injection Ec as <- <-; [by right|by left].
    + destruct (cstep c (r_s s) (LListen p)) as [[s1 e1]|] eqn:Ec; [|done]. injection Hs as <- <-. pose proof (adding_step _ _ _ _ _ Ec) as Ea. cbn in Ea.
      apply (via_step c s evs i (HAdded p) (LListen p) s1 e1 (HBody) [RBack i (RListen p)] Hinv Ei Ec); first [done|cbn; lia|by apply Hback|intros ? H; not_in H].
Qed.

Lemma rinv_run c ls s evs : rrun c r_init ls = Some (s, evs) -> rinv c s evs.
Proof.
  revert s evs. induction ls as [|l ls IH] using rev_ind; intros s evs Hr.
  - injection Hr as <- <-. split; try done.
    + by exists [].
    + intros i. apply not_elem_of_nil.
  - apply run_snoc in Hr as (s1 & e1 & e2 & Hr & Hs & ->). eapply rinv_step; [by apply IH|exact Hs].
Qed.

(** ** While Close waits for a handler that waits for Close *)

(** The handler on listener [i] wants the lock. *)
Definition stuck (i : nat) (s : rstate) : Prop :=
  match r_in s !! i with Some (HWant (RReg _ _ | RListen _ | RClose)) | Some (HAdded _) | Some HInClose => True | _ => False end.

Lemma stuck_step c s evs l s' ev i : rinv c s evs -> closing (r_s s) -> stuck i s -> rstep c s l = Some (s', ev) ->
  closing (r_s s') /\ stuck i s' /\ Forall (fun e => needs_lock e = false) ev.
Proof.
  intros Hinv Hcl Hst Hs. destruct (ri_run _ _ _ Hinv) as (lsr & Hrun). pose proof (wg_run _ _ _ _ Hrun) as Hwg.
  assert (at_run (r_s s) i) as Hat.
  { unfold stuck in Hst. destruct (r_in s !! i) as [h|] eqn:E; [|done]. by eapply (ri_at _ _ _ Hinv). }
  assert (unlocked (r_s s) = false) as Hu by (unfold unlocked, closing in *; by destruct (c_close (r_s s))).
  assert (forall ev, Forall (fun e => needs_lock (RE e) = false) ev -> Forall (fun e => needs_lock e = false) (RE <$> ev)) as Hfm by (intros e0 H; by apply Forall_fmap).
  destruct l as [lb|j q|j]; cbn [rstep] in Hs.
  - destruct (match lb with LLRun i => _ | LListen _ => _ | _ => true end) eqn:Eg; [|done].
    destruct (cstep c (r_s s) lb) as [[s1 e1]|] eqn:Ec; [|done]. injection Hs as <- <-.
    destruct (held_step _ _ _ _ _ _ Hwg Hcl Hat Ec) as [Hcl' HF].
    assert (returned e1 = false) as Er.
    { destruct (returned e1) eqn:E; [|done]. apply returned_in in E. pose proof (proj1 (Forall_forall _ _) HF _ E) as H. done. }
    rewrite Er, app_nil_r. split; [exact Hcl'|]. split; [|by apply Hfm].
    unfold stuck in *. cbn [r_in]. destruct lb; try done.
    destruct (decide (i0 = i)) as [->|Hne]; [by destruct (r_in s !! i) as [[]|]|]. destruct (called e1); [by rewrite lookup_insert_ne|by rewrite lookup_delete_ne].
  - destruct (c_crashed (r_s s)); [done|]. destruct (r_in s !! j) as [[]|] eqn:Ej; try done. injection Hs as <- <-. split; [exact Hcl|]. split; [|by repeat constructor].
    unfold stuck in *. cbn [r_in]. destruct (decide (j = i)) as [->|Hne]; [by rewrite Ej in Hst|by rewrite lookup_insert_ne].
  - assert (forall h, stuck i s -> (j = i -> match h with HAdded _ => True | _ => False end) -> stuck i (R (r_s s') (<[j := h]> (r_in s)) (r_out s))) as Hgo.
    { intros h H Hh. unfold stuck in *. cbn [r_in]. destruct (decide (j = i)) as [->|Hne]; [rewrite lookup_insert; specialize (Hh eq_refl); by destruct h|by rewrite lookup_insert_ne]. }
    destruct (r_in s !! j) as [[|[k n|p| |]|p|]|] eqn:Ej; try done.
    + unfold cstep in Hs. rewrite Hu in Hs. by destruct (c_crashed (r_s s)).
    + destruct (cstep c (r_s s) LListenAdd) as [[s1 e1]|] eqn:Ec; [|done]. injection Hs as <- <-. destruct (held_step _ _ _ _ _ _ Hwg Hcl Hat Ec) as [Hcl' HF].
      split; [exact Hcl'|]. split; [by apply (Hgo (HAdded p))|]. rewrite app_nil_r. by apply Hfm.
    + destruct (cstep c (r_s s) LSendFlush) as [[s1 e1]|] eqn:Ec; [|done]. injection Hs as <- <-. destruct (held_step _ _ _ _ _ _ Hwg Hcl Hat Ec) as [Hcl' HF].
      split; [exact Hcl'|]. split; [|apply Forall_app; split; [by apply Hfm|by repeat constructor]]. apply (Hgo HBody Hst). intros ->. unfold stuck in Hst. by rewrite Ej in Hst.
    + unfold cstep in Hs. rewrite Hu in Hs. by destruct (c_crashed (r_s s)).
    + unfold cstep in Hs. rewrite Hu in Hs. destruct (c_crashed (r_s s)); [done|]. by destruct (c_adding (r_s s)).
Qed.

Lemma stuck_run c ls0 s ev0 ls s' evs i : rrun c r_init ls0 = Some (s, ev0) -> closing (r_s s) -> stuck i s -> rrun c s ls = Some (s', evs) ->
  closing (r_s s') /\ stuck i s' /\ Forall (fun e => needs_lock e = false) evs.
Proof.
  intros H0 Hcl Hst. revert s' evs. induction ls as [|l ls IH] using rev_ind; intros s' evs Hr.
  - injection Hr as <- <-. by split; [|split; [|constructor]].
  - apply run_snoc in Hr as (s1 & e1 & e2 & Hr & Hs & ->). destruct (IH _ _ Hr) as (H1 & H2 & H3).
    assert (rinv c s1 (ev0 ++ e1)) as Hinv. { apply (rinv_run c (ls0 ++ ls)). rewrite run_app, H0. by rewrite Hr. }
    destruct (stuck_step _ _ _ _ _ _ _ Hinv H1 H2 Hs) as (? & ? & ?). split; [done|]. split; [done|]. by apply Forall_app.
Qed.

Lemma now_closing c ls s evs : rrun c r_init ls = Some (s, evs) -> c_crashed (r_s s) = false -> closing_now (base evs) = true <-> closing (r_s s).
Proof.
  intros Hr Hc. pose proof (ri_now _ _ _ (rinv_run _ _ _ _ Hr) Hc) as ->. unfold closing, unlocked. by destruct (c_close (r_s s)).
Qed.

Lemma await_stuck c ls s evs i q : rrun c r_init ls = Some (s, evs) -> awaiting i evs = Some q -> q <> RSendFlush -> stuck i s.
Proof.
  intros Hr Ha Hq. rewrite (ri_waits _ _ _ (rinv_run _ _ _ _ Hr)) in Ha. unfold stuck. destruct (r_in s !! i) as [[|q'|p|]|]; try done.
  cbn in Ha. injection Ha as ->. by destruct q.
Qed.

(** ** Otherwise calls come back *)

Lemma go_on c ls s evs i q : rrun c r_init ls = Some (s, evs) -> c_crashed (r_s s) = false -> awaiting i evs = Some q ->
  q = RSendFlush \/ (q <> RClose /\ ~ closing (r_s s)) ->
  exists n s' ev', n <= 2 /\ rrun c s (replicate n (RGo i)) = Some (s', ev') /\ awaiting i (evs ++ ev') = None /\ RBack i q ∈ ev' /\ c_crashed (r_s s') = false /\
    match q with
    | RReg k m => base ev' = [CReg k (User m)]
    | RListen p => base ev' = [CListening (length (c_listeners (r_s s))) (listen_address c p) listen_credit]
    | RSendFlush => base ev' = [CFlush None (i_direct c) (flush_message c)]
    | RClose => False
    end.
Proof.
  intros Hr Hc Ha Hq. pose proof (rinv_run _ _ _ _ Hr) as Hinv. pose proof (ri_waits _ _ _ Hinv i) as Hw. rewrite Ha in Hw.
  assert (q <> RSendFlush -> unlocked (r_s s) = true) as Hu.
  { intros Hne. destruct Hq as [?|[_ H]]; [done|]. unfold unlocked, closing in *. destruct (c_close (r_s s)); [done|exfalso; by apply H ..]. }
  destruct (r_in s !! i) as [[|q'|p|]|] eqn:Ei; try done; cbn in Hw.
  - injection Hw as ->. destruct q' as [k n|p| |].
    + exists 1. do 2 eexists. split; [lia|]. split. { cbn [replicate run rstep]. rewrite Ei. unfold cstep. rewrite Hc, (Hu ltac:(done)). cbn. reflexivity. }
      cbn [fmap list_fmap app]. split; [|split; [set_solver|split; [by destruct k|done]]].
      rewrite awaiting_app. cbn. rewrite bool_decide_eq_true_2 by done. done.
    + exists 2. do 2 eexists. split; [lia|]. split.
      { cbn [replicate run rstep]. rewrite Ei. unfold cstep at 1. rewrite Hc. cbn [r_s r_in r_out]. rewrite lookup_insert. unfold cstep. cbn [c_crashed cs_adding c_adding unlocked c_close].
        rewrite Hc. specialize (Hu ltac:(done)). unfold unlocked in Hu. destruct (c_close (r_s s)) eqn:Ecl; try done. unfold unlocked. cbn. rewrite Ecl. reflexivity. }
      cbn [fmap list_fmap app]. split; [|split; [set_solver|split; [done|done]]].
      rewrite awaiting_app. cbn. rewrite bool_decide_eq_true_2 by done. done.
    + exists 1. do 2 eexists. split; [lia|]. split. { cbn [replicate run rstep]. rewrite Ei. unfold cstep. rewrite Hc. cbn. reflexivity. }
      cbn [fmap list_fmap app]. split; [|split; [set_solver|split; [done|done]]].
      rewrite awaiting_app. cbn. rewrite bool_decide_eq_true_2 by done. done.
    + by destruct Hq as [?|[? _]].
  - injection Hw as ->. exists 1.
    assert (exists n, c_adding (r_s s) = S n) as [n En].
    { pose proof (ri_adding _ _ _ Hinv) as E. rewrite (added_lookup _ _ _ Ei) in E. cbn in E. destruct (c_adding (r_s s)); [lia|eauto]. }
    do 2 eexists. split; [lia|]. split. { cbn [replicate run rstep]. rewrite Ei. unfold cstep. rewrite Hc, En, (Hu ltac:(done)). cbn. reflexivity. }
    cbn [fmap list_fmap app]. split; [|split; [set_solver|split; [done|done]]].
    rewrite awaiting_app. cbn. rewrite bool_decide_eq_true_2 by done. done.
  - injection Hw as ->. by destruct Hq as [?|[? _]].
Qed.

(** A handler that runs may make a call, or return. *)
Definition wind (l : rlabel) : bool :=
  match l with RBase lb => winds_down lb | RGo _ => true | RCall _ _ => false end.

Lemma flush_go c s i : c_crashed (r_s s) = false -> r_in s !! i = Some (HWant RSendFlush) ->
  rstep c s (RGo i) = Some (R (r_s s) (<[i := HBody]> (r_in s)) (r_out s), [RE (CFlush None (i_direct c) (flush_message c)); RBack i RSendFlush]).
Proof. intros Hc Hi. cbn [rstep]. rewrite Hi. unfold cstep. by rewrite Hc. Qed.

(** Handlers that want no lock do not keep Close from returning. *)
Lemma close_returns c : forall n s evs, crank (r_s s) <= n -> quiet_close (r_s s) evs ->
  (forall i h, r_in s !! i = Some h -> h = HBody \/ h = HWant RSendFlush) ->
  exists ls s' evs', rrun c s ls = Some (s', evs') /\ Forall (fun l => wind l = true) ls /\ CClosed ∈ evs ++ base evs' /\ c_crashed (r_s s') = false.
Proof.
  intros n. induction n as [n IH] using (well_founded_induction lt_wf). intros s evs Hn Hq Hin.
  destruct (quiet_progress c _ _ Hq) as [H|(lb & Hlb & [[s1 e1] Hs])].
  { exists [], s, []. split; [done|]. split; [constructor|]. cbn. rewrite app_nil_r. split; [done|]. by destruct Hq as (_ & Hc & _). }
  assert (behaved lb) as Hbh by (destruct lb as [| | | |? [m|[]]|? [|y]| | | | | | | | | | | | |]; done).
  destruct (quiet_step _ _ _ _ _ _ Hq Hbh Hs) as [Hq' Hrank]. rewrite Hlb in Hrank.
  assert (c_crashed (r_s s) = false) as Hc by (by destruct Hq as (_ & Hc & _)).
  (* first let the handler of that listener have its flush sent *)
  assert (exists pre s0 e0, rrun c s pre = Some (s0, e0) /\ Forall (fun l => wind l = true) pre /\ r_s s0 = r_s s /\
    (forall i h, r_in s0 !! i = Some h -> h = HBody \/ h = HWant RSendFlush) /\
    (match lb with LLRun i => match r_in s0 !! i with None | Some HBody => true | _ => false end | LListen _ => 0 <? r_out s0 | _ => true end) = true) as (pre & s0 & e0 & Hr0 & HF0 & E0 & Hin0 & Hg).
  { destruct (is_run lb) as [[i ->]|Hno].
    - destruct (r_in s !! i) as [h|] eqn:Ei.
      + destruct (Hin i h Ei) as [->| ->].
        * exists [], s, []. split; [done|]. split; [constructor|]. split; [done|]. split; [done|]. by rewrite Ei.
        * exists [RGo i]. do 2 eexists. split. { cbn [run]. rewrite (flush_go c s i Hc Ei). reflexivity. }
          split; [by repeat constructor|]. split; [done|]. cbn [r_in]. split.
          -- intros k h Hk. destruct (decide (k = i)) as [->|Hne]; [rewrite lookup_insert in Hk; injection Hk as <-; by left|]. rewrite lookup_insert_ne in Hk by done. by eapply Hin.
          -- by rewrite lookup_insert.
      + exists [], s, []. split; [done|]. split; [constructor|]. split; [done|]. split; [done|]. by rewrite Ei.
    - exists [], s, []. split; [done|]. split; [constructor|]. split; [done|]. split; [done|]. destruct lb; try done. exfalso. apply Hno. by eexists. }
  rewrite <- E0 in Hs.
  assert (exists s2 e2, rstep c s0 (RBase lb) = Some (s2, e2) /\ r_s s2 = s1 /\ (exists bk, e2 = (RE <$> e1) ++ bk) /\
    (forall i h, r_in s2 !! i = Some h -> h = HBody \/ h = HWant RSendFlush)) as (s2 & e2 & Hs2 & E2 & [bk Eb] & Hin2).
  { cbn [rstep]. rewrite Hg, Hs. do 2 eexists. split; [reflexivity|]. cbn [r_s r_in]. split; [done|]. split; [by eexists|].
    assert (forall i h, (if returned e1 then release (r_in s0) else r_in s0) !! i = Some h -> h = HBody \/ h = HWant RSendFlush) as Hrel.
    { intros i h. destruct (returned e1); [|apply Hin0]. unfold release. rewrite lookup_fmap. destruct (r_in s0 !! i) as [h'|] eqn:E; [|done]. intros H. injection H as <-.
      destruct (Hin0 i h' E) as [->| ->]; [by left|by right]. }
    destruct lb; try exact Hrel. intros k h. destruct (called e1).
    - destruct (decide (k = i)) as [->|Hne]; [rewrite lookup_insert; intros H; injection H as <-; by left|]. rewrite lookup_insert_ne by done. apply Hin0.
    - destruct (decide (k = i)) as [->|Hne]; [by rewrite lookup_delete|]. rewrite lookup_delete_ne by done. apply Hin0. }
  destruct (IH (crank s1) ltac:(lia) s2 (evs ++ e1)) as (ls' & s' & evs' & Hr' & HF' & Hcl' & Hc'); [by rewrite E2|by rewrite E2|done|].
  exists (pre ++ RBase lb :: ls'), s', (e0 ++ e2 ++ evs'). split; [|split; [|split; [|done]]].
  - rewrite run_app, Hr0. cbn [run]. rewrite Hs2, Hr'. done.
  - apply Forall_app. split; [done|]. by constructor.
  - subst e2. rewrite !base_app, base_re. set_solver.
Qed.

(** ** The theorems *)

Lemma hangs c ls0 s ev0 i q ls s' evs : rrun c r_init ls0 = Some (s, ev0) -> c_crashed (r_s s) = false -> closing_now (base ev0) = true ->
  awaiting i ev0 = Some q -> q <> RSendFlush -> rrun c s ls = Some (s', evs) ->
  forall e, e ∈ evs -> needs_lock e = false.
Proof.
  intros Hr0 Hc Hcl Ha Hq Hr. apply (now_closing _ _ _ _ Hr0 Hc) in Hcl. pose proof (await_stuck _ _ _ _ _ _ Hr0 Ha Hq) as Hst.
  destruct (stuck_run _ _ _ _ _ _ _ _ Hr0 Hcl Hst Hr) as (_ & _ & HF). intros e He. by apply (proj1 (Forall_forall _ _) HF).
Qed.

Lemma never_done c ls s evs : crun c c_init ls = Some (s, evs) -> ~ CCloseCall ∈ evs -> c_done s = false.
Proof.
  revert s evs. induction ls as [|l ls IH] using rev_ind; intros s evs Hr Hn; [by injection Hr as <- <-|].
  apply run_snoc in Hr as (s1 & e1 & e2 & Hr & Hs & ->). assert (c_done s1 = false) as Hd by (eapply IH; [exact Hr|set_solver]).
  destruct (close_cases _ _ _ _ _ Hs) as [? -> | ? -> | Hlb -> Hz -> | ? -> ? ? -> | ? -> ? ? -> | ? ? ? E | ? ? E | j l' Hl Hst | ? E]; try done; try congruence; try set_solver.
  destruct (listener_same _ _ _ _ _ _ Hst) as (_ & _ & _ & E & _). congruence.
Qed.

Lemma close_begins c ls s evs i : rrun c r_init ls = Some (s, evs) -> c_crashed (r_s s) = false -> ~ CCloseCall ∈ base evs -> awaiting i evs = Some RClose ->
  exists s1, rrun c s [RGo i] = Some (s1, [RE CCloseCall]) /\ c_crashed (r_s s1) = false /\
    closing_now (base (evs ++ [RE CCloseCall])) = true /\ awaiting i (evs ++ [RE CCloseCall]) = Some RClose.
Proof.
  intros Hr Hc Hn Ha. pose proof (rinv_run _ _ _ _ Hr) as Hinv. destruct (ri_run _ _ _ Hinv) as (ls' & Hrun).
  pose proof (never_done _ _ _ _ Hrun Hn) as Hd.
  assert (c_close (r_s s) = ClNone) as Hu.
  { destruct (wg_run _ _ _ _ Hrun) as (_ & Hw & _). unfold closing in Hw. destruct (c_close (r_s s)) eqn:E; [done|..]; (destruct (Hw ltac:(done)) as [E' _]; congruence). }
  pose proof (ri_waits _ _ _ Hinv i) as Hwt. rewrite Ha in Hwt.
  assert (r_in s !! i = Some (HWant RClose)) as Hi.
  { destruct (r_in s !! i) as [[|q|p|]|] eqn:E; try done; cbn in Hwt; [by injection Hwt as <-|].
    destruct (ri_closing _ _ _ Hinv i E) as [H|H]; [by destruct H|congruence]. }
  eexists. split. { cbn [run rstep]. rewrite Hi. unfold cstep, unlocked. rewrite Hc, Hu, Hd. reflexivity. }
  split; [done|]. split; [by rewrite base_app, closing_app|]. by rewrite awaiting_app.
Qed.

Lemma may_call c ls i n x q s evs s' evs' : rrun c r_init ls = Some (s, evs) -> rstep c s (RBase (LLRun i)) = Some (s', evs') ->
  RE (CCall i (User n) x) ∈ evs' -> exists s2, rstep c s' (RCall i q) = Some (s2, [RAsk i q]).
Proof.
  intros Hr Hs Hin. cbn [rstep] in Hs. destruct (match r_in s !! i with None | Some HBody => true | _ => false end); [|done].
  destruct (cstep c (r_s s) (LLRun i)) as [[s1 e1]|] eqn:Ec; [|done]. injection Hs as <- <-.
  assert (CCall i (User n) x ∈ e1) as Hin'.
  { apply elem_of_app in Hin as [H|H]; [by apply in_re in H|]. destruct (returned e1); [|by apply elem_of_nil in H].
    apply elem_of_list_fmap in H as (? & E & _). discriminate E. }
  assert (called e1 = true) as Hca. { unfold called. apply existsb_exists. exists (CCall i (User n) x). split; [by apply elem_of_list_In|done]. }
  assert (c_crashed s1 = false) as Hc.
  { pose proof (crashed_false _ _ _ _ _ Ec) as Hc0. unfold cstep in Ec. rewrite Hc0 in Ec. destruct (c_listeners (r_s s) !! i) as [l|]; [|done].
    unfold listener_step in Ec. destruct (l_pc l) as [| | |y [|h hs]| |]; try done; injection Ec as <- <-; [by apply elem_of_nil in Hin'|].
    apply elem_of_list_singleton in Hin'. injection Hin' as <- <-. exact Hc0. }
  rewrite Hca. cbn [rstep r_s r_in]. rewrite Hc, lookup_insert. by eexists.
Qed.

Lemma close_can_return c ls0 s ev0 : rrun c r_init ls0 = Some (s, ev0) -> c_crashed (r_s s) = false -> closing_now (base ev0) = true -> c_adding (r_s s) = 0 ->
  (forall i p, pc_of (r_s s) i = Some p -> calm p) -> (forall i, awaiting i ev0 = None \/ awaiting i ev0 = Some RSendFlush) ->
  exists ls s' evs, rrun c s ls = Some (s', evs) /\ Forall (fun l => wind l = true) ls /\ RE CClosed ∈ evs /\ c_crashed (r_s s') = false.
Proof.
  intros Hr Hc Hcl Ha Hcalm Hw. apply (now_closing _ _ _ _ Hr Hc) in Hcl. pose proof (rinv_run _ _ _ _ Hr) as Hinv. destruct (ri_run _ _ _ Hinv) as (ls' & Hrun).
  assert (quiet_close (r_s s) []) as Hq.
  { pose proof (wg_run _ _ _ _ Hrun) as Hwg. split; [split; [done|by eapply once_run]|]. split; [done|]. split; [done|]. split; [done|]. split; [|by left]. by apply Hwg. }
  destruct (close_returns c _ s [] (le_n _) Hq) as (ls & s' & evs & Hr' & HF & Hin & Hc').
  { intros i h Hi. specialize (Hw i). rewrite (ri_waits _ _ _ Hinv i), Hi in Hw. destruct h as [|q|p|]; [by left| | |]; cbn in Hw; destruct Hw as [E|E]; try done. injection E as ->. by right. }
  exists ls, s', evs. split; [done|]. split; [done|]. split; [|done]. cbn [app] in Hin. unfold base in Hin. apply elem_of_list_omap in Hin as (e & He & E). destruct e; try done. injection E as ->. done.
Qed.
