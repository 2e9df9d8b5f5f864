(** Facts about the keepalives. *)
From Coq Require Import ZArith NArith Ascii String Lia.
From stdpp Require Import base gmap strings list.
From Verif Require Import GoBase Encoding SpecEncoding Records Messages SpecMessages MessageFacts Run Keepalive.

Local Open Scope list_scope.

(** ** Specification *)

(** The messages of a kind that were sent or tried. *)
Definition starts (k : kind) (evs : list kev) : Z :=
  Z.of_nat (length (List.filter (fun x => match x with KStart _ k' _ _ => bool_decide (k' = k) | _ => false end) evs)).

Definition is_loop (x : kev) : bool := match x with KLoop _ => true | _ => false end.

(** Ticks that wait to be taken, 0 or 1. *)
Definition pending (k : kind) (s : kstate) : Z :=
  match k_tickers s with Some t => if t_full (ticker_of k t) then 1 else 0 | None => 0 end.

(** Nothing to do and nothing in progress. *)
Definition idle (s : kstate) : Prop := k_pc s = KSelect /\ pending Bcn s = 0%Z /\ pending Hbt s = 0%Z.

(** Once the loop started, sends take no time, and ticks are taken at once. *)
Definition prompt (c : kcfg) (s0 : kstate) (ls : list klabel) : Prop :=
  forall s1 d s2, transition (kstep c) s0 ls s1 (LTime d) s2 -> k_tickers s1 <> None -> idle s1.

(** The steps of the goroutine itself. *)
Definition own (l : klabel) : bool := match l with LCall | LTake _ | LDone | LReturn _ => true | _ => false end.
Definition fires (l : klabel) : bool := match l with LFire _ => true | _ => false end.
Definition count_labels (P : klabel -> bool) (ls : list klabel) : Z := Z.of_nat (length (List.filter P ls)).

(** The context a call was given is done. *)
Definition ctx_done (s : kstate) (cx : kctx) : Prop :=
  k_cancelled s = true \/ match cx with CtxRun => False | CtxTimeout d => (d <= k_now s)%Z end.

(** A polite sender returns at once when its context is done; an error
    context.DeadlineExceeded comes only from a context whose deadline passed. *)
Definition polite (c : kcfg) (s0 : kstate) (ls : list klabel) : Prop :=
  forall s1 l s2, transition (kstep c) s0 ls s1 l s2 -> forall i k d cx, k_pc s1 = KSend i k d cx ->
    match l with
    | LTime _ => ~ ctx_done s1 cx
    | LReturn SendDeadline => match cx with CtxTimeout d' => (d' <= k_now s1)%Z | CtxRun => False end
    | _ => True
    end.

(** ** Basics *)

Lemma starts_app k a b : starts k (a ++ b) = (starts k a + starts k b)%Z.
Proof. unfold starts. rewrite List.filter_app, app_length. lia. Qed.

Lemma interval_pos c k : (0 < interval c k)%Z.
Proof. destruct k; cbn [interval]; unfold beacon_interval, heartbeat_interval; case_match eqn:E; lia. Qed.

Lemma count_labels_cons P l ls : count_labels P (l :: ls) = ((if P l then 1 else 0) + count_labels P ls)%Z.
Proof. unfold count_labels. cbn [List.filter]. destruct (P l); cbn [length]; lia. Qed.

(** ** Beacon first, contents *)

(** What is sent to where. *)
Definition proper (c : kcfg) (x : kev) : Prop :=
  match x with
  | KStart now Bcn addr m => addr = beacon_address /\ m = encode_beacon (beacon_message c)
  | KStart now Hbt addr m => addr = heartbeat_address c /\ m = encode_heartbeat (heartbeat_message c now)
  | _ => True
  end.

Definition first_inv (c : kcfg) (s : kstate) (evs : list kev) : Prop :=
  match k_pc s with
  | KInitial => k_tickers s = None
  | KSend true k _ _ => k_tickers s = None /\ k = Bcn
  | KSend false _ _ _ | KSelect | KStopped => k_tickers s <> None
  end /\
  (k_tickers s <> None -> KReturn Bcn Sent ∈ evs) /\
  (forall a t ad m b, evs = a ++ KStart t Hbt ad m :: b -> KReturn Bcn Sent ∈ a) /\
  Forall (proper c) evs.

Lemma first_quiet c s s' evs : k_pc s' = k_pc s -> k_tickers s' = None <-> k_tickers s = None -> first_inv c s evs -> first_inv c s' evs.
Proof.
  intros E1 E2 (H1 & H2 & H3 & H4). unfold first_inv. rewrite E1, E2. split; [|split; [|split; done]].
  - destruct (k_pc s) as [|[] ? ? ?| |]; try (by rewrite E2); tauto.
  - tauto.
Qed.

Lemma first_snoc (evs ev : list kev) : (forall a t ad m b, evs = a ++ KStart t Hbt ad m :: b -> KReturn Bcn Sent ∈ a) ->
  (forall a t ad m b, ev = a ++ KStart t Hbt ad m :: b -> KReturn Bcn Sent ∈ evs) ->
  forall a t ad m b, evs ++ ev = a ++ KStart t Hbt ad m :: b -> KReturn Bcn Sent ∈ a.
Proof.
  intros H1 H2 a t ad m b E. apply app_eq_app in E as [l [[-> E]|[-> E]]].
  - destruct l as [|x l].
    + simpl in E. rewrite app_nil_r in H2. by apply (H2 [] t ad m b).
    + injection E as <- ->. by apply (H1 a t ad m l).
  - apply elem_of_app. left. by apply (H2 l t ad m b).
Qed.

Lemma first_step c s evs l s' ev : first_inv c s evs -> kstep c s l = Some (s', ev) -> first_inv c s' (evs ++ ev).
Proof.
  intros Hi Hs. destruct l as [d|k| | |k| |o]; cbn [kstep] in Hs.
  - destruct (_ && _); [|done]. injection Hs as <- <-. rewrite app_nil_r. by eapply first_quiet; [| |exact Hi].
  - destruct (k_tickers s) as [t|] eqn:Et; [|done]. destruct (_ =? _)%Z; [|done]. injection Hs as <- <-. rewrite app_nil_r.
    eapply first_quiet; [| |exact Hi]; [done|]. cbn [k_set_ticker k_tickers]. rewrite Et. done.
  - injection Hs as <- <-. rewrite app_nil_r. by eapply first_quiet; [| |exact Hi].
  - destruct (k_pc s) eqn:Ep; try done. injection Hs as <- <-. destruct Hi as (H1 & H2 & H3 & H4). rewrite Ep in H1.
    split; [by cbn|]. split; [cbn; by rewrite H1|]. split.
    + apply first_snoc; [done|]. intros [|x a] ? ? ? ? [=]. by destruct a.
    + apply Forall_app. split; [done|]. constructor; [|constructor]. done.
  - destruct (k_pc s) eqn:Ep; try done. destruct (k_tickers s) as [t|] eqn:Et; [|done].
    destruct (t_full _); [|done]. injection Hs as <- <-. destruct Hi as (H1 & H2 & H3 & H4). rewrite Ep in H1.
    split; [cbn; by rewrite Et|]. split; [intros _; apply elem_of_app; left; apply H2; by rewrite Et|]. split.
    + apply first_snoc; [done|]. intros. apply H2. by rewrite Et.
    + apply Forall_app. split; [done|]. constructor; [|constructor]. by destruct k.
  - destruct (k_pc s) eqn:Ep; try done. destruct (k_cancelled s); [|done]. injection Hs as <- <-.
    destruct Hi as (H1 & H2 & H3 & H4). rewrite Ep in H1. split; [done|].
    split; [intros _; apply elem_of_app; left; by apply H2|]. split.
    + apply first_snoc; [done|]. intros [|x a] ? ? ? ? [=]. by destruct a.
    + apply Forall_app. split; [done|]. constructor; [|constructor]. done.
  - destruct (k_pc s) as [|i k d cx| |] eqn:Ep; try done. destruct Hi as (H1 & H2 & H3 & H4). rewrite Ep in H1.
    destruct i.
    + destruct H1 as [H1 ->]. destruct o; injection Hs as <- <-.
      * split; [done|]. split; [intros _; apply elem_of_app; right; left|]. split.
        -- apply first_snoc; [done|]. intros [|x [|y [|z a]]] ? ? ? ?; discriminate.
        -- apply Forall_app. split; [done|]. by repeat constructor.
      * split; [done|]. split; [by cbn; rewrite H1|]. split.
        -- apply first_snoc; [done|]. intros [|x [|y a]] ? ? ? ?; discriminate.
        -- apply Forall_app. split; [done|]. by repeat constructor.
      * split; [done|]. split; [by cbn; rewrite H1|]. split.
        -- apply first_snoc; [done|]. intros [|x [|y a]] ? ? ? ?; discriminate.
        -- apply Forall_app. split; [done|]. by repeat constructor.
      * split; [done|]. split; [by cbn; rewrite H1|]. split.
        -- apply first_snoc; [done|]. intros [|x [|y a]] ? ? ? ?; discriminate.
        -- apply Forall_app. split; [done|]. by repeat constructor.
    + assert (k_pc s' = KSelect /\ k_tickers s' = k_tickers s /\ ev = [KReturn k o]) as (E1 & E2 & ->).
      { cbn [returned] in Hs. destruct k; [by injection Hs as <- <-|]. by destruct (_ && _ && _); injection Hs as <- <-. }
      unfold first_inv. rewrite E1, E2. split; [done|].
      split; [intros _; apply elem_of_app; left; by apply H2|]. split.
      * apply first_snoc; [done|]. intros [|x [|y a]] ? ? ? ?; discriminate.
      * apply Forall_app. split; [done|]. by repeat constructor.
Qed.

Lemma first_run c now ls s evs : krun c (k_init now) ls = Some (s, evs) -> first_inv c s evs.
Proof.
  intros Hr. change evs with ([] ++ evs).
  apply (run_inv (kstep c) (first_inv c) (fun _ => True) (k_init now) [] ls s evs) with (4 := Hr).
  - split; [done|]. split; [done|]. split; [by intros [|]|constructor].
  - intros s1 evs1 l s2 ev Hi _ Hs. by eapply first_step.
  - by apply Forall_true.
Qed.

Lemma beacon_first c now ls s evs a t ad m b : krun c (k_init now) ls = Some (s, evs) ->
  evs = a ++ KStart t Hbt ad m :: b -> KReturn Bcn Sent ∈ a.
Proof. intros Hr. by apply (first_run _ _ _ _ _ Hr). Qed.

Lemma contents_of c now ls s evs t k ad m : krun c (k_init now) ls = Some (s, evs) -> KStart t k ad m ∈ evs ->
  let i := kc_info c in
  match k with
  | Bcn => ad = "mc/sfe.all"%string /\ decode_msg (Some m) =
      RDone (Some (MsgBeacon (Beacon (MsgProps "mc/sfe.all" "BEACON" "") (to_u32 (i_version i)) (i_type i)
        (i_address i) (i_direct i) (i_id i)))) None
  | Hbt => ad = (if kc_alternate c then String.append (i_address i) ".heartbeats" else i_address i) /\ decode_msg (Some m) =
      RDone (Some (MsgHeartbeat (Heartbeat (MsgProps (String.append "mc/sfe." (i_id i)) "HEARTBEAT" "")
        (i_id i) (to_u32 (i_version i)) (to_u64 (t / 1000))))) None
  end.
Proof.
  intros Hr Hin. destruct (first_run _ _ _ _ _ Hr) as (_ & _ & _ & HF). apply (proj1 (Forall_forall _ _) HF) in Hin.
  destruct k; destruct Hin as [-> ->].
  - split; [reflexivity|]. exact (beacon_round_trip (beacon_message c)).
  - split; [reflexivity|]. exact (heartbeat_round_trip (heartbeat_message c t)).
Qed.

(** ** Pace *)

Lemma forall_filter_loop x (l : list kev) : forallb (fun y => negb (is_loop y)) (l ++ [x]) =
  forallb (fun y => negb (is_loop y)) l && negb (is_loop x).
Proof. rewrite forallb_app. cbn [forallb]. by rewrite andb_true_r. Qed.

(** [n] ticks so far. *)
Definition pace_of (c : kcfg) (strict : Prop) (k : kind) (s : kstate) (t : ticker * ticker) (t0 : Z) (b : list kev) : Prop :=
  exists n, t_next (ticker_of k t) = (t0 + (n + 1) * interval c k)%Z /\
    (t0 + n * interval c k <= k_now s <= t_next (ticker_of k t))%Z /\
    (starts k b + (if t_full (ticker_of k t) then 1 else 0) <= n)%Z /\
    (strict -> starts k b + (if t_full (ticker_of k t) then 1 else 0) = n /\
               (t_full (ticker_of k t) = true -> k_now s = t0 + n * interval c k))%Z.

Definition no_loop (l : list kev) : Prop := Forall (fun x => is_loop x = false) l.

Definition pace_inv (c : kcfg) (strict : Prop) (s : kstate) (evs : list kev) : Prop :=
  match k_tickers s with
  | None => match k_pc s with KInitial | KSend true _ _ _ => True | _ => False end /\ no_loop evs
  | Some t => match k_pc s with KInitial | KSend true _ _ _ => False | _ => True end /\
     exists a b t0, evs = a ++ KLoop t0 :: b /\ no_loop a /\ no_loop b /\ forall k, pace_of c strict k s t t0 b
  end.

Lemma no_loop_snoc l x : no_loop l -> is_loop x = false -> no_loop (l ++ [x]).
Proof. intros H1 H2. apply Forall_app. split; [done|]. by constructor. Qed.

Lemma starts_snoc k b x : starts k (b ++ [x]) =
  (starts k b + match x with KStart _ k' _ _ => if bool_decide (k' = k) then 1 else 0 | _ => 0 end)%Z.
Proof.
  rewrite starts_app. f_equal. unfold starts. cbn [List.filter]. destruct x as [? k' ? ?|? ?|?|]; try reflexivity.
  by destruct (bool_decide (k' = k)).
Qed.

Lemma pace_quiet c strict s s' evs x : k_now s' = k_now s -> k_tickers s' = k_tickers s ->
  (match k_pc s with KInitial | KSend true _ _ _ => True | _ => False end <->
   match k_pc s' with KInitial | KSend true _ _ _ => True | _ => False end) ->
  is_loop x = false -> (forall t k a m, x = KStart t k a m -> k_tickers s = None) ->
  pace_inv c strict s evs -> pace_inv c strict s' (evs ++ [x]).
Proof.
  intros E1 E2 E3 Hx Hst Hi. unfold pace_inv in *. rewrite E2. destruct (k_tickers s) as [t|].
  - destruct Hi as [H1 (a & b & t0 & -> & Ha & Hb & Hp)]. split.
    + destruct (k_pc s) as [|[] ? ? ?| |]; destruct (k_pc s') as [|[] ? ? ?| |]; tauto.
    + exists a, (b ++ [x]), t0. split; [by rewrite <- app_assoc|]. split; [done|]. split; [by apply no_loop_snoc|].
      intros k. destruct (Hp k) as (n & Hn). exists n. rewrite E1, starts_snoc.
      assert (match x with KStart _ k' _ _ => if bool_decide (k' = k) then 1 else 0 | _ => 0 end = 0)%Z as ->.
      { destruct x as [? ? ? ?|? ?|?|]; try reflexivity. by specialize (Hst _ _ _ _ eq_refl). }
      by rewrite Z.add_0_r.
  - destruct Hi as [H1 H2]. split; [tauto|]. by apply no_loop_snoc.
Qed.

Lemma pace_silent c strict s s' evs : k_now s' = k_now s -> k_tickers s' = k_tickers s -> k_pc s' = k_pc s ->
  pace_inv c strict s evs -> pace_inv c strict s' evs.
Proof.
  intros E1 E2 E3 Hi. unfold pace_inv in *. rewrite E2, E3. destruct (k_tickers s) as [t|]; [|done].
  destruct Hi as [H1 (a & b & t0 & -> & Ha & Hb & Hp)]. split; [done|]. exists a, b, t0. do 3 (split; [done|]).
  intros k. destruct (Hp k) as (n & Hn). exists n. by rewrite E1.
Qed.

Lemma ticker_of_set k k' x t : ticker_of k (set_ticker k' x t) = if bool_decide (k' = k) then x else ticker_of k t.
Proof. by destruct k, k'. Qed.

Lemma pace_step c (strict : Prop) s evs l s' ev : pace_inv c strict s evs ->
  (strict -> forall d, l = LTime d -> k_tickers s <> None -> idle s) ->
  kstep c s l = Some (s', ev) -> pace_inv c strict s' (evs ++ ev).
Proof.
  intros Hi Hpr Hs. destruct l as [d|k| | |k| |o]; cbn [kstep] in Hs.
  - destruct (0 <? d)%Z eqn:Ed; [|done]. apply Z.ltb_lt in Ed. unfold pace_inv in Hi.
    destruct (k_tickers s) as [t|] eqn:Et.
    + destruct (_ && _) eqn:Eb in Hs; [|done]. rewrite !andb_true_iff, !Z.leb_le in Eb. destruct Eb as [_ [Eb1 Eb2]]. injection Hs as <- <-.
      rewrite app_nil_r. unfold pace_inv. cbn [k_tickers k_pc]. destruct Hi as [H1 (a & b & t0 & -> & Ha & Hb & Hp)].
      split; [done|]. exists a, b, t0. do 3 (split; [done|]). intros k. destruct (Hp k) as (n & Hn1 & Hn2 & Hn3 & Hn4). exists n. cbn [k_now].
      split; [done|]. split; [destruct k; cbn [ticker_of] in *; lia|]. split; [done|].
      intros Hst. destruct (Hn4 Hst) as [Hn5 Hn6]. split; [done|]. intros Hfull. exfalso.
      destruct (Hpr Hst d eq_refl) as (_ & Hp1 & Hp2); [done|]. unfold pending in *. rewrite Et in Hp1, Hp2. destruct k; cbn [ticker_of] in *; by rewrite Hfull in *.
    + injection Hs as <- <-. by rewrite app_nil_r.
  - destruct (k_tickers s) as [t|] eqn:Et; [|done]. destruct (_ =? _)%Z eqn:En; [|done]. apply Z.eqb_eq in En. injection Hs as <- <-.
    rewrite app_nil_r. unfold pace_inv in *. cbn [k_set_ticker k_tickers k_pc]. rewrite Et in *. cbn [fmap option_fmap option_map].
    destruct Hi as [H1 (a & b & t0 & -> & Ha & Hb & Hp)]. split; [done|]. exists a, b, t0. do 3 (split; [done|]). intros k'.
    destruct (Hp k') as (n & Hn1 & Hn2 & Hn3 & Hn4). rewrite <- (ticker_of_set k' k _ t) || idtac. unfold pace_of. rewrite ticker_of_set. pose proof (interval_pos c k) as Hpos.
    case_bool_decide as Ek.
    + subst k'. exists (n + 1)%Z. cbn [t_next t_full k_set_ticker k_now]. rewrite En in *. split; [lia|]. split; [lia|].
      destruct (t_full (ticker_of k t)) eqn:Ef.
      * split; [lia|]. intros Hst. destruct (Hn4 Hst) as [_ Hn6]. specialize (Hn6 eq_refl). lia.
      * split; [lia|]. intros Hst. destruct (Hn4 Hst) as [Hn5 _]. split; [lia|]. intros _. lia.
    + exists n. done.
  - injection Hs as <- <-. rewrite app_nil_r. by apply (pace_silent c strict s).
  - destruct (k_pc s) eqn:Ep; try done. unfold send_with_timeout in Hs. injection Hs as <- <-.
    apply (pace_quiet c strict s); [done|done| |done| |done].
    + rewrite Ep. done.
    + intros. unfold pace_inv in Hi. rewrite Ep in Hi. destruct (k_tickers s); [by destruct Hi as [[] _]|done].
  - destruct (k_pc s) eqn:Ep; try done. destruct (k_tickers s) as [t|] eqn:Et; [|done].
    destruct (t_full (ticker_of k t)) eqn:Ef; [|done]. unfold send_with_timeout in Hs. injection Hs as <- <-.
    unfold pace_inv in *. rewrite Et in Hi. cbn [k_set_pc k_set_ticker k_tickers k_pc k_now]. rewrite Et. cbn [fmap option_fmap option_map].
    destruct Hi as [H1 (a & b & t0 & -> & Ha & Hb & Hp)]. split; [done|].
    set (x := match k with Bcn => _ | Hbt => _ end). exists a, (b ++ [x]), t0.
    split; [by rewrite <- app_assoc|]. split; [done|]. split; [apply no_loop_snoc; [done|by destruct k]|]. intros k'.
    destruct (Hp k') as (n & Hn1 & Hn2 & Hn3 & Hn4). exists n. rewrite ticker_of_set, starts_snoc. cbn [k_now k_set_pc k_set_ticker].
    assert (match x with KStart _ k' _ _ => if bool_decide (k' = k) then 1 else 0 | _ => 0 end = 1)%Z as Hx by (by destruct k).
    assert (match x with KStart _ k0 _ _ => if bool_decide (k0 = k') then 1 else 0 | _ => 0 end = if bool_decide (k = k') then 1 else 0)%Z as ->
      by (by destruct k, k').
    case_bool_decide as Ek.
    + subst k'. cbn [t_next t_full]. rewrite Ef in *. split; [done|]. split; [done|]. split; [lia|]. intros Hst.
      destruct (Hn4 Hst) as [Hn5 Hn6]. split; [lia|done].
    + split; [done|]. split; [done|]. split; [lia|]. intros Hst. destruct (Hn4 Hst) as [Hn5 Hn6]. split; [lia|done].
  - destruct (k_pc s) eqn:Ep; try done. destruct (k_cancelled s); [|done]. injection Hs as <- <-.
    apply (pace_quiet c strict s); [done|done| |done|done|done]. by rewrite Ep.
  - destruct (k_pc s) as [|i k d cx| |] eqn:Ep; try done. destruct i.
    + assert (k_tickers s = None /\ no_loop evs) as [Et Hno].
      { unfold pace_inv in Hi. rewrite Ep in Hi. destruct (k_tickers s); [by destruct Hi as [[] _]|]. split; [done|apply Hi]. }
      destruct (decide (o = Sent)) as [->|Ho].
      * injection Hs as <- <-. unfold pace_inv. cbn [k_tickers k_pc]. split; [done|]. exists (evs ++ [KReturn k Sent]), [], (k_now s).
        split; [by rewrite <- app_assoc|]. split; [by apply no_loop_snoc|]. split; [constructor|]. intros k'. exists 0%Z.
        pose proof (interval_pos c k') as Hpos. destruct k'; cbn [interval ticker_of fst snd t_next t_full k_now] in *; unfold starts; cbn; lia.
      * assert (s' = k_set_pc KInitial s /\ ev = [KReturn k o]) as [-> ->] by (by destruct o; injection Hs as <- <-).
        apply (pace_quiet c strict s); [done|done| |done|done|done]. by rewrite Ep.
    + assert (k_pc s' = KSelect /\ k_tickers s' = k_tickers s /\ k_now s' = k_now s /\ ev = [KReturn k o]) as (E1 & E2 & E3 & ->).
      { cbn [returned] in Hs. destruct k; [by injection Hs as <- <-|]. by destruct (_ && _ && _); injection Hs as <- <-. }
      apply (pace_quiet c strict s); [done|done| |done|done|done]. by rewrite Ep, E1.
Qed.

Lemma pace_run c now ls s evs : krun c (k_init now) ls = Some (s, evs) -> pace_inv c (prompt c (k_init now) ls) s evs.
Proof.
  intros Hr. change evs with ([] ++ evs).
  apply (run_inv_rel (kstep c) (pace_inv c (prompt c (k_init now) ls)) (k_init now) [] ls s evs) with (3 := Hr).
  - split; [done|constructor].
  - intros s1 evs1 l s2 ev Hi _ Ht Hs. eapply pace_step; [exact Hi| |exact Hs]. intros Hpr d -> Hn. by eapply Hpr.
Qed.

Lemma pace c now ls s evs t0 k : krun c (k_init now) ls = Some (s, evs) -> KLoop t0 ∈ evs ->
  exists a b, evs = a ++ KLoop t0 :: b /\ no_loop a /\ no_loop b /\
    ((starts k b + pending k s) * interval c k <= k_now s - t0)%Z /\
    (prompt c (k_init now) ls -> k_now s - t0 <= (starts k b + pending k s + 1) * interval c k)%Z.
Proof.
  intros Hr Hin. pose proof (pace_run _ _ _ _ _ Hr) as Hi. unfold pace_inv in Hi. unfold pending. destruct (k_tickers s) as [t|].
  - destruct Hi as [_ (a & b & t1 & -> & Ha & Hb & Hp)]. assert (t1 = t0) as ->.
    { apply elem_of_app in Hin as [Hin|Hin]; [by apply (proj1 (Forall_forall _ _) Ha) in Hin|].
      apply elem_of_cons in Hin as [[= ->]|Hin]; [done|]. by apply (proj1 (Forall_forall _ _) Hb) in Hin. }
    exists a, b. do 3 (split; [done|]). destruct (Hp k) as (n & Hn1 & Hn2 & Hn3 & Hn4). pose proof (interval_pos c k) as Hpos. split.
    + nia.
    + intros Hpr. destruct (Hn4 Hpr) as [Hn5 _]. rewrite Hn5. lia.
  - destruct Hi as [_ Hno]. by apply (proj1 (Forall_forall _ _) Hno) in Hin.
Qed.

(** ** Cancellation *)

(** Before the loop. *)
Definition starting (s : kstate) : Prop := match k_pc s with KInitial | KSend true _ _ _ => True | _ => False end.

Lemma spins c s ls s' evs : starting s -> Forall (fun l => l <> LReturn Sent) ls -> krun c s ls = Some (s', evs) ->
  starting s' /\ ~ KEnd ∈ evs /\ exists l s2 ev, own l = true /\ l <> LReturn Sent /\ kstep c s' l = Some (s2, ev).
Proof.
  intros H0 HF Hr. assert (starting s' /\ ~ KEnd ∈ [] ++ evs) as [H1 H2].
  { apply (run_inv (kstep c) (fun s evs => starting s /\ ~ KEnd ∈ evs) (fun l => l <> LReturn Sent) s [] ls s' evs) with (4 := Hr);
      [split; [done|apply not_elem_of_nil]| |done].
    intros s1 evs1 l s2 ev [Hi Hn] Hl Hs. rewrite not_elem_of_app. destruct l as [d|k| | |k| |o]; cbn [kstep] in Hs.
    - destruct (_ && _); [|done]. injection Hs as <- <-. repeat split; try done. apply not_elem_of_nil.
    - destruct (k_tickers s1) as [t|]; [|done]. destruct (_ =? _)%Z; [|done]. injection Hs as <- <-. repeat split; try done. apply not_elem_of_nil.
    - injection Hs as <- <-. repeat split; try done. apply not_elem_of_nil.
    - destruct (k_pc s1); try done. injection Hs as <- <-. repeat split; try done. by rewrite elem_of_list_singleton.
    - unfold starting in Hi. by destruct (k_pc s1).
    - unfold starting in Hi. by destruct (k_pc s1).
    - unfold starting in Hi. destruct (k_pc s1) as [|[] k d cx| |]; try done.
      destruct o; [done|..]; injection Hs as <- <-; (repeat split; try done); by rewrite elem_of_list_singleton. }
  split; [done|]. split; [done|]. unfold starting in H1. destruct (k_pc s') as [|[] k d cx| |] eqn:Ep; try done.
  - exists LCall. eexists _, _. split; [done|]. split; [done|]. cbn [kstep]. rewrite Ep. reflexivity.
  - exists (LReturn SendCanceled). eexists _, _. split; [done|]. split; [done|]. cbn [kstep]. rewrite Ep. reflexivity.
Qed.

(** One round of the initial loop under a cancelled context. *)
Definition spin (n : nat) : list klabel := concat (replicate n [LCall; LReturn SendCanceled]).

Lemma spin_run c s n : k_pc s = KInitial -> exists s' evs, krun c s (spin n) = Some (s', evs) /\ k_pc s' = KInitial /\
  k_now s' = k_now s /\ k_cancelled s' = k_cancelled s /\ starts Bcn evs = Z.of_nat n.
Proof.
  revert s. induction n as [|n IH]; intros s Hp; [by eexists _, _|]. unfold spin. cbn [replicate concat app].
  change (concat (replicate n [LCall; LReturn SendCanceled])) with (spin n). cbn [run kstep]. rewrite Hp. cbn [send_with_timeout k_set_pc k_pc returned fst snd].
  destruct (IH (k_set_pc KInitial (k_set_pc (KSend true Bcn (k_now s + beacon_interval c) CtxRun) s)) eq_refl) as (s' & evs & -> & H1 & H2 & H3 & H4).
  eexists _, _. split; [reflexivity|]. split; [done|]. split; [done|]. split; [done|].
  rewrite !starts_app, H4. change (starts Bcn [KStart (k_now s) Bcn beacon_address (encode_beacon (beacon_message c))]) with 1%Z.
  change (starts Bcn [KReturn Bcn SendCanceled]) with 0%Z. lia.
Qed.

(** Steps to go, under a cancelled context. *)
Definition togo (s : kstate) : Z :=
  (2 * pending Bcn s + 2 * pending Hbt s +
   match k_pc s with KStopped => 0 | KSelect => 1 | _ => 2 end)%Z.

Lemma pending_range k s : (0 <= pending k s <= 1)%Z.
Proof. unfold pending. destruct (k_tickers s); [|lia]. destruct (t_full _); lia. Qed.

Lemma togo_step c s l s' ev : ~ starting s -> k_cancelled s = true -> kstep c s l = Some (s', ev) ->
  ~ starting s' /\ k_cancelled s' = true /\
  (togo s' + (if own l then 1 else 0) <= togo s + (if fires l then 2 else 0))%Z.
Proof.
  intros Hst Hc Hs. unfold starting, togo in *. destruct l as [d|k| | |k| |o]; cbn [kstep own fires] in *.
  - destruct (_ && _); [|done]. injection Hs as <- <-. cbn [k_pc k_cancelled]. split; [done|]. split; [done|]. unfold pending; cbn [k_tickers]. lia.
  - destruct (k_tickers s) as [t|] eqn:Et; [|done]. destruct (_ =? _)%Z; [|done]. injection Hs as <- <-. cbn [k_pc k_cancelled k_set_ticker].
    split; [done|]. split; [done|]. unfold pending; cbn [k_set_ticker k_tickers]. rewrite Et. cbn [fmap option_fmap option_map]. rewrite !ticker_of_set.
    destruct k; cbn [t_full]; repeat (case_bool_decide; try done); cbn [t_full]; destruct (t_full (ticker_of Bcn t)), (t_full (ticker_of Hbt t)); lia.
  - injection Hs as <- <-. cbn [k_pc k_cancelled]. split; [done|]. split; [done|]. unfold pending; cbn [k_tickers]. lia.
  - destruct (k_pc s); try done.
  - destruct (k_pc s) eqn:Ep; try done. destruct (k_tickers s) as [t|] eqn:Et; [|done].
    destruct (t_full (ticker_of k t)) eqn:Ef; [|done]. injection Hs as <- <-. cbn [k_pc k_cancelled k_set_ticker k_set_pc].
    split; [by intros []|]. split; [done|]. unfold pending; cbn [k_set_ticker k_set_pc k_tickers]. rewrite Et. cbn [fmap option_fmap option_map]. rewrite !ticker_of_set.
    destruct k; repeat (case_bool_decide; try done); cbn [t_full]; rewrite Ef; [destruct (t_full (ticker_of Hbt t))|destruct (t_full (ticker_of Bcn t))]; lia.
  - destruct (k_pc s) eqn:Ep; try done. rewrite Hc in Hs. injection Hs as <- <-. cbn [k_pc k_cancelled k_set_pc].
    split; [by intros []|]. split; [done|]. unfold pending; cbn [k_tickers k_set_pc]. lia.
  - destruct (k_pc s) as [|i k d cx| |] eqn:Ep; try done. destruct i; [by destruct Hst|].
    assert (k_pc s' = KSelect /\ k_tickers s' = k_tickers s /\ k_cancelled s' = true) as (E1 & E2 & E3).
    { cbn [returned] in Hs. destruct k; [by injection Hs as <- <-|]. by destruct (_ && _ && _); injection Hs as <- <-. }
    rewrite E1, E3. split; [by intros []|]. split; [done|]. unfold pending. rewrite E2. lia.
Qed.

Lemma stops_aux c s ls s' evs : ~ starting s -> k_cancelled s = true -> krun c s ls = Some (s', evs) ->
  ~ starting s' /\ k_cancelled s' = true /\ (togo s' + count_labels own ls <= togo s + 2 * count_labels fires ls)%Z.
Proof.
  revert s evs. induction ls as [|l ls IH]; intros s evs H1 H2 Hr.
  - injection Hr as <- <-. split; [done|]. split; [done|]. unfold count_labels. cbn. lia.
  - cbn [run] in Hr. destruct (kstep c s l) as [[s1 ev1]|] eqn:Es; [|done].
    destruct (run (kstep c) s1 ls) as [[s2 ev2]|] eqn:E2; [|done]. injection Hr as <- <-.
    destruct (togo_step _ _ _ _ _ H1 H2 Es) as (H3 & H4 & H5). destruct (IH s1 ev2 H3 H4 E2) as (H6 & H7 & H8).
    split; [done|]. split; [done|]. rewrite !count_labels_cons. destruct (own l), (fires l); lia.
Qed.

Lemma stops c s ls s' evs : ~ starting s -> k_cancelled s = true -> krun c s ls = Some (s', evs) ->
  (count_labels own ls <= 6 + 2 * count_labels fires ls)%Z /\
  (k_pc s' = KStopped \/ is_Some (kstep c s' LDone) \/ forall o, is_Some (kstep c s' (LReturn o))).
Proof.
  intros H1 H2 Hr. destruct (stops_aux _ _ _ _ _ H1 H2 Hr) as (H3 & H4 & H5). split.
  - assert (0 <= togo s')%Z. { unfold togo. pose proof (pending_range Bcn s'). pose proof (pending_range Hbt s'). destruct (k_pc s'); lia. }
    assert (togo s <= 6)%Z. { unfold togo. pose proof (pending_range Bcn s). pose proof (pending_range Hbt s). destruct (k_pc s); lia. }
    lia.
  - unfold starting in H3. destruct (k_pc s') as [|i k d cx| |] eqn:Ep; [by destruct H3| | |by left].
    + right. right. intros o. cbn [kstep]. rewrite Ep. eauto.
    + right. left. cbn [kstep]. rewrite Ep, H4. eauto.
Qed.

Lemma loop_not_starting c now ls s evs t0 : krun c (k_init now) ls = Some (s, evs) -> KLoop t0 ∈ evs -> ~ starting s.
Proof.
  intros Hr Hin Hst. pose proof (pace_run _ _ _ _ _ Hr) as Hi. unfold pace_inv, starting in *. destruct (k_tickers s) as [t|].
  - destruct Hi as [H1 _]. by destruct (k_pc s) as [|[] ? ? ?| |].
  - destruct Hi as [_ Hno]. by apply (proj1 (Forall_forall _ _) Hno) in Hin.
Qed.

(** ** The delivery timeout *)

Lemma given c now ls s evs i k d cx : krun c (k_init now) ls = Some (s, evs) -> k_pc s = KSend i k d cx -> cx = CtxRun.
Proof.
  intros Hr. apply (run_inv (kstep c) (fun s _ => forall i k d cx, k_pc s = KSend i k d cx -> cx = CtxRun) (fun _ => True) (k_init now) [] ls s evs) with (4 := Hr);
    [done| |by apply Forall_true].
  clear. intros s1 evs1 l s2 ev Hi _ Hs i k d cx. destruct l as [d'|k'| | |k'| |o]; cbn [kstep] in Hs.
  - destruct (_ && _); [|done]. injection Hs as <- <-. apply Hi.
  - destruct (k_tickers s1) as [t|]; [|done]. destruct (_ =? _)%Z; [|done]. injection Hs as <- <-. apply Hi.
  - injection Hs as <- <-. apply Hi.
  - destruct (k_pc s1); try done. injection Hs as <- <-. cbn. by intros [= _ _ _ ->].
  - destruct (k_pc s1); try done. destruct (k_tickers s1) as [t|]; [|done]. destruct (t_full _); [|done]. injection Hs as <- <-.
    cbn. by intros [= _ _ _ ->].
  - destruct (k_pc s1); try done. destruct (k_cancelled s1); [|done]. by injection Hs as <- <-.
  - destruct (k_pc s1) as [|i' k' d' cx'| |]; try done. unfold returned in Hs.
    destruct i'; [by destruct o; injection Hs as <- <-|]. destruct k'; [by injection Hs as <- <-|].
    by destruct (_ && _ && _); injection Hs as <- <-.
Qed.

(** A polite sender never sees the timeout. *)
Lemma never_times_out c now ls s evs : polite c (k_init now) ls -> krun c (k_init now) ls = Some (s, evs) ->
  forall k, ~ KReturn k SendDeadline ∈ evs.
Proof.
  intros Hp Hr. assert (forall k, ~ KReturn k SendDeadline ∈ [] ++ evs) as H; [|exact H].
  apply (run_inv_rel (kstep c) (fun _ evs => forall k, ~ KReturn k SendDeadline ∈ evs) (k_init now) [] ls s evs) with (3 := Hr);
    [intros k; apply not_elem_of_nil|].
  intros s1 evs1 l s2 ev Hi _ Ht Hs k. rewrite not_elem_of_app. split; [done|].
  assert (forall i k d cx, k_pc s1 = KSend i k d cx -> cx = CtxRun) as Hcx.
  { intros i' k' d' cx' E. destruct Ht as (ls1 & ls2 & ev1 & ev2 & _ & Hr1 & _). by eapply given. }
  destruct l as [d'|k'| | |k'| |o]; cbn [kstep] in Hs.
  - destruct (_ && _); [|done]. injection Hs as <- <-. apply not_elem_of_nil.
  - destruct (k_tickers s1) as [t|]; [|done]. destruct (_ =? _)%Z; [|done]. injection Hs as <- <-. apply not_elem_of_nil.
  - injection Hs as <- <-. apply not_elem_of_nil.
  - destruct (k_pc s1); try done. injection Hs as <- <-. by rewrite elem_of_list_singleton.
  - destruct (k_pc s1); try done. destruct (k_tickers s1) as [t|]; [|done]. destruct (t_full _); [|done]. injection Hs as <- <-.
    by rewrite elem_of_list_singleton; destruct k'.
  - destruct (k_pc s1); try done. destruct (k_cancelled s1); [|done]. injection Hs as <- <-. by rewrite elem_of_list_singleton.
  - destruct (k_pc s1) as [|i' k' d' cx'| |] eqn:Ep; try done. specialize (Hp _ _ _ Ht _ _ _ _ Ep). rewrite (Hcx _ _ _ _ eq_refl) in Hp. clear Ht.
    assert (o <> SendDeadline) as Ho by (by intros ->).
    assert (ev = [KReturn k' o] \/ ev = [KReturn k' o; KLoop (k_now s1)]) as [-> | ->].
    { unfold returned in Hs. destruct i'; [destruct o; injection Hs as <- <-; auto|]. destruct k'; [injection Hs as <- <-; auto|].
      destruct (_ && _ && _); injection Hs as <- <-; auto. }
    + rewrite elem_of_list_singleton. congruence.
    + rewrite elem_of_cons, elem_of_list_singleton. intros [H|H]; congruence.
Qed.

(** The first send can stay in progress for any time. *)
Lemma hangs c now D : (0 < D)%Z -> exists s evs, krun c (k_init now) [LCall; LTime D] = Some (s, evs) /\
  polite c (k_init now) [LCall; LTime D] /\ k_cancelled s = false /\
  exists m, KStart now Bcn "mc/sfe.all" m ∈ evs /\ k_now s = (now + D)%Z /\ k_pc s = KSend true Bcn (now + beacon_interval c) CtxRun.
Proof.
  intros HD. cbn [run kstep k_init k_pc send_with_timeout k_set_pc k_now k_tickers k_cancelled k_timeouts k_first fst snd].
  rewrite (proj2 (Z.ltb_lt 0 D) HD). cbn [andb]. eexists _, _. split; [reflexivity|]. split.
  - intros s1 l s2 (ls1 & ls2 & ev1 & ev2 & E & Hr & Hs) i k d cx Ep.
    destruct ls1 as [|x [|y [|z ls1]]]; [| | |]; cbn [app] in E.
    + injection E as <- _. by injection Hr as <- <-.
    + injection E as <- <- _. rewrite run_one in Hr. cbn in Hr. injection Hr as <- <-. cbn in Ep. injection Ep as <- <- <- <-.
      intros [H|[]]. by cbn in H.
    + discriminate E.
    + discriminate E.
  - split; [done|]. eexists. split; [left|]. done.
Qed.
