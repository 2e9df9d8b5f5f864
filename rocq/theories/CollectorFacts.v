(** Facts about the tool's collector. *)
From Coq Require Import ZArith NArith Ascii String Lia.
From stdpp Require Import base gmap strings list.
From Verif Require Import GoBase Encoding Records Messages Run Keepalive Discovery DiscoveryFacts DiscoveryLive DiscoveryProgress Collector.

Local Open Scope list_scope.

(** ** Specification *)

(** A watch that has not ended and has not forgotten its source. *)
Definition live (p : wpc) : bool := match p with WBlocked | WClosing | WEnded => false | _ => true end.
Definition guards (id : string) (y : watch) : bool := bool_decide (w_id (wt_cfg y) = id) && live (wt_pc y).
Definition lives (id : string) (ws : list watch) : nat := length (List.filter (guards id) ws).

Definition is_known (s : vstate) (id : string) : Prop := is_Some (d_map (v_d s) !! id).
Definition is_listed (s : vstate) (id : string) : Prop := is_Some (v_src s !! id).
(** A notification that waits to be handled. *)
Definition waits (k : note) (s : vstate) (id : string) : Prop := count_id id (waiting k (v_d s)) <> 0.
(** One whose handler has not yet had its effect: Watch and Store, or Delete. *)
Definition handled_now (k : note) (s : vstate) (id : string) : Prop :=
  match d_hand (v_d s) with HRunning j x => j = k /\ i_id (ds_info x) = id /\ v_at s <> HFin | _ => False end.
(** A handler that has not yet called NewWatchClient. *)
Definition unwatched (s : vstate) (id : string) : nat :=
  match d_hand (v_d s), v_at s with
  | HRunning Disc x, HFresh => if bool_decide (i_id (ds_info x) = id) then 1 else 0
  | _, _ => 0
  end.
(** A watch is stopped by the end of its context. *)
Definition stops (l : vlabel) : Prop := match l with VIn (LWCtx _) => True | _ => False end.

(** ** Counting watches *)

Lemma lives_app id a b : lives id (a ++ b) = lives id a + lives id b.
Proof. unfold lives. by rewrite List.filter_app, app_length. Qed.
Definition one (b : bool) : nat := if b then 1 else 0.
Lemma lives_alter id f w ws y : ws !! w = Some y -> lives id (alter f w ws) + one (guards id y) = lives id ws + one (guards id (f y)).
Proof.
  revert w. induction ws as [|z ws IH]; intros [|w] Hy; try done.
  - injection Hy as ->. unfold lives. cbn. destruct (guards id y), (guards id (f y)); cbn; lia.
  - cbn in Hy. specialize (IH _ Hy). unfold lives in *. change (alter f (S w) (z :: ws)) with (z :: alter f w ws). cbn [List.filter].
    destruct (guards id z); cbn [length]; lia.
Qed.
Lemma lives_alter_none f w (ws : list watch) : ws !! w = None -> alter f w ws = ws.
Proof. revert w. induction ws as [|z ws IH]; intros [|w] Hy; try done. cbn in *. f_equal. by apply IH. Qed.
Lemma lives_same id f w ws : (forall y, ws !! w = Some y -> guards id (f y) = guards id y) -> lives id (alter f w ws) = lives id ws.
Proof.
  intros H. destruct (ws !! w) as [y|] eqn:E; [|by rewrite lives_alter_none].
  pose proof (lives_alter id f w ws y E) as Hl. rewrite (H _ eq_refl) in Hl. lia.
Qed.
Lemma lives_one id w ws y : ws !! w = Some y -> guards id y = true -> lives id ws <> 0.
Proof.
  intros Hy Hg. pose proof (lives_alter id (fun _ => w_goto WEnded y) w ws y Hy) as H. rewrite Hg in H.
  assert (guards id (w_goto WEnded y) = false) as E by (unfold guards; cbn; by rewrite andb_false_r). rewrite E in H. cbn in H. lia.
Qed.
Lemma lives_exists id ws : lives id ws <> 0 -> exists w y, ws !! w = Some y /\ guards id y = true.
Proof.
  induction ws as [|z ws IH]; [done|]. unfold lives. cbn [List.filter]. destruct (guards id z) eqn:E; [by exists 0, z|].
  intros H. destruct (IH H) as (w & y & H1 & H2). by exists (S w), y.
Qed.

Lemma own_guards now w x y lb ev id : own now w x y lb ev -> lb <> LWCtx w -> guards id y = guards id x.
Proof.
  intros Ho Hn. unfold guards. destruct Ho as [E1 E2 E3|E1 E2 E3|E1 E3|k ts E1 E2 E3|t E1 E2 E4 E3|b E3|t n E1 E2 E4 E3|E1 E2 E4 E5 E3|t n E1 E2 E4 E5 E3|n E1 E2 E4 E3|n E1 E2 E4 E5 E6 E3|E1|E1 E2 E3].
  all: try (by subst lb).
  all: rewrite E3; cbn [wt_cfg wt_pc w_goto]; rewrite ?E1, ?E2; done.
Qed.

(** ** Steps that are not the handler's *)

Inductive ishape (s s' : dstate) (ev : list dev) : Prop :=
  | i_idle : d_map s' = d_map s \/ (exists id n, d_map s' = <[id := n]> (d_map s) /\ is_Some (d_map s !! id) /\ i_id (ds_info n) = id /\
      forall z, d_map s !! id = Some z -> ds_info n = ds_info z) ->
      (forall k, waiting k s' = waiting k s) -> (forall id, lives id (d_watches s') = lives id (d_watches s)) ->
      Forall (fun e => match e with DOp _ (OForget _) _ => False | _ => True end) ev -> ishape s s' ev
  | i_disc b x : x = of_beacon b (d_now s) -> d_map s !! i_id (ds_info x) = None -> d_map s' = <[i_id (ds_info x) := x]> (d_map s) ->
      waiting Disc s' = waiting Disc s ++ [ds_info x] -> waiting Forg s' = waiting Forg s -> d_watches s' = d_watches s ->
      Forall (fun e => match e with DOp _ (OForget _) _ => False | _ => True end) ev -> ishape s s' ev
  | i_forg w y x : d_watches s !! w = Some y -> wt_pc y = WForget -> d_map s !! w_id (wt_cfg y) = Some x -> d_map s' = delete (w_id (wt_cfg y)) (d_map s) ->
      waiting Forg s' = waiting Forg s ++ [ds_info x] -> waiting Disc s' = waiting Disc s ->
      (forall id, lives id (d_watches s') + one (guards id y) = lives id (d_watches s)) ->
      DOp (ByWatch w) (OForget (w_id (wt_cfg y))) (RBool true) ∈ ev -> ishape s s' ev
  | i_none w y : d_watches s !! w = Some y -> wt_pc y = WForget -> d_map s !! w_id (wt_cfg y) = None -> d_map s' = d_map s ->
      (forall k, waiting k s' = waiting k s) ->
      (forall id, lives id (d_watches s') + one (guards id y) = lives id (d_watches s)) -> ishape s s' ev.

Definition hand_calm (s : dstate) : Prop :=
  (match d_hand s with HWants _ _ _ | HBlocked _ _ => False | _ => True end /\ match d_held s with Some (ByHandler, _, _) => False | _ => True end) /\
  (d_run s = RIdle -> d_hand s = HNone).
Definition still (s s' : dstate) : Prop :=
  d_hand s' = d_hand s \/
  (match d_hand s with HRunning _ _ => False | _ => True end /\ match d_hand s' with HRunning _ _ => False | _ => True end).

Lemma waiting_called s s' c o ev m r n : effect (d_now s) o (d_map s) = Some (m, r, n) -> called s s' c o ev -> d_map s' = m /\
  forall k, waiting k s' = waiting k s ++ match n with Some (j, x) => if bool_decide (j = k) then [ds_info x] else [] | None => [] end.
Proof.
  intros He [m' r' n' Hh He' Em Hn]. rewrite He in He'. injection He' as <- <- <-. split; [done|]. intros k. unfold waiting. rewrite Hh, app_nil_r.
  destruct n as [[j x]|].
  - destruct Hn as [(_ & Hc & -> & _)|(_ & -> & -> & _)]; [|done]. rewrite Hc, app_nil_r. rewrite (bool_decide_ext (j = k) (k = j)) by done.
    case_bool_decide; [by rewrite fmap_app|by rewrite app_nil_r].
  - destruct Hn as (-> & -> & _). done.
Qed.

Lemma inside_hand s lb s' ev : hand_calm s -> inside lb = true -> dstep s lb = Some (s', ev) -> still s s' /\ hand_calm s'.
Proof.
  intros [[H1 H2] H3] Hin Hs. unfold still, hand_calm.
  assert (match d_held s' with Some (ByHandler, _, _) => False | _ => True end) as Hheld.
  { destruct (step_call _ _ _ _ Hs) as [(c & o & Hc & Hl)|[_ HF0]].
    - destruct (call_watches _ _ _ _ _ Hc) as (_ & _ & _ & Hcw). destruct (d_held s') as [[[c' k] x]|]; [|done].
      destruct (Hcw _ _ _ eq_refl) as [-> _]. destruct c; try done. destruct Hl as [-> _]. done.
    - destruct (core_cases _ _ _ _ Hs) as [c o Hc|c k x -> Hh Hr Em Hch Eh ->|k x q -> _ _ Eq Em Hch Eh ->|Hc HF].
      + exfalso. destruct (call_called _ _ _ _ _ Hc) as [m r n Hh He Em Hn].
        destruct n as [[k' x']|]; [destruct Hn as [(_ & _ & _ & ->)|(_ & _ & _ & ->)]|destruct Hn as (_ & _ & ->)]; by inversion_clear HF0.
      + by rewrite Eh.
      + by rewrite Eh.
      + by rewrite (sc_held _ _ Hc). }
  destruct (ctl_cases _ _ _ _ Hs) as [c o ev' Hc|c k x -> Hh Hr Es| -> E0 E1 E2 E3| -> E1| -> E1 E2|k x -> E0 E1 E2 E3|k x -> E0 E1 E2 E3|k x o -> _ _ _ _| -> E0 E1 E2 E3 E4|b E0 E1 E2 E3|E1 E2 E3]; try done.
  - destruct (call_hand _ _ _ _ _ Hc) as (Eh & _ & _). pose proof (call_run _ _ _ _ _ Hc) as Er.
    assert (d_hand s' = d_hand s) as E by (rewrite Eh; destruct c; try done; by destruct (d_hand s)). rewrite E. split; [by left|]. split; [done|].
    rewrite Er. destruct c; try done. by destruct (d_held s').
  - destruct (unblock_ctl c k x s) as (Eh & Er & _). rewrite <- Es in Eh, Er. rewrite Hh in H2.
    assert (d_hand s' = d_hand s) as E by (rewrite Eh; by destruct c). rewrite E. split; [by left|]. split; [done|]. rewrite Er. by destruct c.
  - rewrite E1. split; [right|]; [|split; [done|by rewrite E2]]. by rewrite (H3 E0).
  - rewrite E1. split; [by left|]. split; [done|]. unfold dstep in Hs. destruct (d_crashed s); [done|]. destruct (d_run s) eqn:E; try done. by injection Hs as <- <-.
  - rewrite E1, E2. split; [by left|done].
  - rewrite E2, E0. split; [by right|]. split; [done|]. rewrite E3. intros E. rewrite (H3 E) in E0. done.
  - rewrite E1, E2. split; [by left|done].
  - rewrite E1, E2. split; [by left|done].
Qed.

Lemma inside_shape s lb s' ev : hand_calm s -> inside lb = true -> (forall w, lb <> LWCtx w) -> blocked_inv s -> keyed (d_map s) -> dstep s lb = Some (s', ev) ->
  ishape s s' ev.
Proof.
  intros [[H1 H2] H3] Hin Hx Hb Hk Hs. destruct (step_call _ _ _ _ Hs) as [(c & o & Hc & Hl)|[Em HF]].
  - destruct (call_watches _ _ _ _ _ Hc) as (Ew & _ & _ & Hcw). pose proof (call_called _ _ _ _ _ Hc) as Hd. destruct c as [| | |w].
    + by destruct Hl as [-> _].
    + by destruct Hl as [-> _].
    + destruct Hl as (-> & b & -> & Er). destruct Hd as [m r n Hh He Em Hn] eqn:Ed. clear Ed.
      destruct (waiting_called _ _ _ _ _ _ _ _ He (Called _ _ _ _ _ _ _ _ Hh He Em Hn)) as [_ Hw]. cbn [effect] in He.
      assert (Forall (fun e => match e with DOp _ (OForget _) _ => False | _ => True end) ev) as HFo.
      { destruct n as [[k x]|]; [destruct Hn as [(_ & _ & _ & ->)|(_ & _ & _ & ->)]|destruct Hn as (_ & _ & ->)]; repeat constructor. }
      destruct (d_map s !! bc_identity b) as [x|] eqn:E; injection He as Em' <- <-.
      * apply i_idle; [right; exists (bc_identity b), (DSource (ds_info x) (d_now s)); rewrite Em, <- Em'; split; [done|]; split; [by rewrite E|]; split; [by apply Hk in E|intros z Hz; rewrite E in Hz; by injection Hz as <-]|
          intros k; by rewrite Hw, app_nil_r|by rewrite Ew|done].
      * apply (i_disc _ _ _ b (of_beacon b (d_now s))); [done|exact E|by rewrite Em, <- Em'|apply Hw|by rewrite Hw, app_nil_r|done|done].
    + destruct Hl as (y & Ey & [(-> & t & n & Ep & ->)|(-> & Ep & ->)]).
      * destruct Hd as [m r nn Hh He Em Hn] eqn:Ed. clear Ed.
        destruct (waiting_called _ _ _ _ _ _ _ _ He (Called _ _ _ _ _ _ _ _ Hh He Em Hn)) as [_ Hw]. cbn [effect] in He.
        assert (nn = None) as -> by (destruct (d_map s !! _); by injection He as _ _ <-).
        destruct Hn as (_ & Eh & ->). apply i_idle.
        -- rewrite Em. destruct (d_map s !! w_id (wt_cfg y)) as [x|] eqn:E; [|left; by injection He as <- _]. destruct (ds_seen x <? n)%Z; [|left; by injection He as <- _].
           right. exists (w_id (wt_cfg y)), (DSource (ds_info x) n). injection He as <- _. split; [done|]. rewrite E. split; [done|]. split; [by apply Hk in E|]. intros z Hz. by injection Hz as <-.
        -- intros k. by rewrite Hw, app_nil_r.
        -- intros id. rewrite Ew, Eh. apply lives_same. intros z Ez. rewrite Ey in Ez. injection Ez as <-. rewrite Ep. unfold guards. cbn. by rewrite Ep.
        -- repeat constructor.
      * destruct Hd as [m r nn Hh He Em Hn] eqn:Ed. clear Ed.
        destruct (waiting_called _ _ _ _ _ _ _ _ He (Called _ _ _ _ _ _ _ _ Hh He Em Hn)) as [_ Hw]. cbn [effect] in He.
        assert (forall id, lives id (d_watches s') + one (guards id y) = lives id (d_watches s)) as Hlv.
        { intros id. rewrite Ew, (lives_alter id _ w (d_watches s) y Ey), Ep. unfold guards.
          destruct (d_held s'); cbn; rewrite andb_false_r; cbn; lia. }
        destruct (d_map s !! w_id (wt_cfg y)) as [x|] eqn:E; injection He as <- <- <-.
        -- apply (i_forg _ _ _ w y x); try done; [apply (Hw Forg)|by rewrite (Hw Disc), app_nil_r|].
           destruct Hn as [(_ & _ & _ & ->)|(_ & _ & _ & ->)]; left.
        -- apply (i_none _ _ _ w y); try done. intros k. by rewrite Hw, app_nil_r.
  - assert (Forall (fun e => match e with DOp _ (OForget _) _ => False | _ => True end) ev) as HFo.
    { eapply Forall_impl; [exact HF|]. by intros []. }
    assert (forall k, waiting k s' = waiting k s) as Hw.
    { intros j. unfold waiting. destruct (core_cases _ _ _ _ Hs) as [c o Hc|c k x -> Hh Hr _ Hch Eh ->|k x q -> _ _ _ _ _ _ _|Hc HF']; [| |done|].
      - exfalso. destruct (call_called _ _ _ _ _ Hc) as [m r n Hh He _ Hn].
        destruct n as [[k' x']|]; [destruct Hn as [(_ & _ & _ & ->)|(_ & _ & _ & ->)]|destruct Hn as (_ & _ & ->)]; by inversion_clear HF.
      - rewrite Hh, Hch, Eh. rewrite (bool_decide_ext (k = j) (j = k)) by done. rewrite app_nil_r. case_bool_decide; [by rewrite fmap_app|by rewrite app_nil_r].
      - rewrite (core_chan _ _ _ Hc), (sc_held _ _ Hc). done. }
    apply i_idle; [by left|done| |done]. intros id.
    pose proof Hs as Hs0. unfold dstep in Hs. destruct (d_crashed s); [done|].
    assert (forall w, label_of lb = Some w -> match d_watches s !! w with Some x => watch_step s w x lb | None => None end = Some (s', ev) ->
      lives id (d_watches s') = lives id (d_watches s)) as Hwt.
    { intros w Hl Hy. destruct (d_watches s !! w) as [y|] eqn:Ey; [|done].
      assert (forall c o, call c o s = Some (s', ev) -> False) as Hnc.
      { intros c o Hc. destruct (call_called _ _ _ _ _ Hc) as [m r n Hh He _ Hn].
        destruct n as [[k' x']|]; [destruct Hn as [(_ & _ & _ & ->)|(_ & _ & _ & ->)]|destruct Hn as (_ & _ & ->)]; by inversion_clear HF. }
      destruct (watch_own _ _ _ _ _ _ Hy Hl) as [(z & Ho & ->)|[(t & n & -> & Ep & Hc)|(-> & Ep & Hc)]]; [|by apply Hnc in Hc|by apply Hnc in Hc].
      cbn. apply lives_same. intros z' Ez. rewrite Ey in Ez. injection Ez as <-. eapply own_guards; [exact Ho|]. intros ->. by eapply Hx. }
    assert (forall c o, call c o s = Some (s', ev) -> False) as Hnc.
    { intros c o Hc. destruct (call_called _ _ _ _ _ Hc) as [m r n Hh He _ Hn].
      destruct n as [[k' x']|]; [destruct Hn as [(_ & _ & _ & ->)|(_ & _ & _ & ->)]|destruct Hn as (_ & _ & ->)]; by inversion_clear HF. }
    destruct lb; try done; try (eapply Hwt; [reflexivity|exact Hs]); clear Hwt.
    + destruct (0 <=? dt)%Z; [|done]. by injection Hs as <- <-.
    + destruct (d_held s) as [[[c k] x]|] eqn:Eh; [|done]. destruct (roomy s k); [|done]. injection Hs as <- <-. rewrite returns_watches.
      destruct c as [| | |w]; try (by destruct k). assert (d_watches (ds_held None (set_chan k (chan_of s k ++ [x]) s)) = d_watches s) as E0 by (by destruct k).
      rewrite E0. apply lives_same. intros y Ey. destruct (Hb _ _ _ Eh) as (y' & Ey' & Ep). rewrite Ey in Ey'. injection Ey' as <-. rewrite Ep. unfold guards. cbn. by rewrite Ep.
    + destruct (d_run s); try done. by injection Hs as <- <-.
    + destruct (d_run s); try done. injection Hs as Hs. unfold run_msg in Hs. destruct (am_props m) as [p|]; [|by injection Hs as <- <-].
      destruct (ap_subject p); [|by injection Hs as <- <-]. case_bool_decide; [|by injection Hs as <- <-]. destruct (decode_beacon m); by injection Hs as <- <-.
    + destruct (d_run s); try done. by injection Hs as <- <-.
    + destruct (d_run s); try done. by apply Hnc in Hs.
    + by injection Hs as <- <-.
    + destruct (d_hand s); try done. destruct (d_run s); try (by injection Hs as <- <-); destruct (d_cancelled s); try done; by injection Hs as <- <-.
Qed.

(** ** What the tool does, in terms of discovery *)

Definition base (s : vstate) (evs : list vev) : list dev := omap (fun e => match e with VD d => Some d | _ => None end) evs.

Lemma step_base s l s' ev : vstep s l = Some (s', ev) ->
  v_d s' = v_d s \/ exists lb dv, dstep (v_d s) lb = Some (v_d s', dv) /\ ev = VD <$> dv.
Proof.
  unfold vstep, body. destruct l as [lb|k|].
  - destruct (inside lb); [|done]. destruct (dstep (v_d s) lb) as [[d dv]|] eqn:E; [|done]. intros [= <- <-]. right. eauto.
  - destruct (dstep (v_d s) _) as [[d dv]|] eqn:E; [|done]. intros [= <- <-]. right. eauto.
  - destruct (d_hand (v_d s)) as [| |[] x| | |]; try done; destruct (v_at s); try done.
    + destruct (dstep (v_d s) _) as [[d dv]|] eqn:E; [|done]. intros [= <- <-]. right. eauto.
    + intros [= <- <-]. by left.
    + destruct (dstep (v_d s) _) as [[d dv]|] eqn:E; [|done]. intros [= <- <-]. right. eauto.
    + intros [= <- <-]. by left.
    + destruct (dstep (v_d s) _) as [[d dv]|] eqn:E; [|done]. intros [= <- <-]. right. eauto.
Qed.

Record ground (s : vstate) : Prop := Ground {
  g_hand : hand_calm (v_d s);
  g_blocked : blocked_inv (v_d s);
  g_keyed : keyed (d_map (v_d s));
  g_cap : cap_inv (v_d s);
  g_got : match d_hand (v_d s) with HRunning Forg _ => v_at s <> HGot | _ => True end;
}.

Lemma keyed_step s lb s' ev : keyed (d_map s) -> dstep s lb = Some (s', ev) -> keyed (d_map s').
Proof.
  intros Hk Hs. destruct (step_call _ _ _ _ Hs) as [(c & o & Hc & _)|[-> _]]; [|done].
  destruct (call_called _ _ _ _ _ Hc) as [m r n Hh He -> _]. clear Hc Hs.
  intros id x Hx. destruct o as [y|j|j|l|b|j t]; cbn [effect] in He.
  - destruct (d_map s !! _); injection He as <- _ _; [by apply Hk|]. apply lookup_insert_Some in Hx as [[<- <-]|[_ Hx]]; [done|by apply Hk].
  - destruct (d_map s !! j); injection He as <- _ _; [|by apply Hk]. apply lookup_delete_Some in Hx as [_ Hx]. by apply Hk.
  - injection He as <- _ _. by apply Hk.
  - case_bool_decide; [|done]. injection He as <- _ _. by apply Hk.
  - destruct (d_map s !! bc_identity b) as [z|] eqn:E; injection He as <- _ _.
    + apply lookup_insert_Some in Hx as [[<- <-]|[_ Hx]]; [by apply (Hk _ _ E)|by apply Hk].
    + apply lookup_insert_Some in Hx as [[<- <-]|[_ Hx]]; [done|by apply Hk].
  - destruct (d_map s !! j) as [z|] eqn:E; [destruct (ds_seen z <? t)%Z|]; injection He as <- _ _; try by apply Hk.
    apply lookup_insert_Some in Hx as [[<- <-]|[_ Hx]]; [by apply (Hk _ _ E)|by apply Hk].
Qed.

Lemma ground_init now : ground (v_init now).
Proof.
  split; [by split|by intros w k x [=]|intros id x Hx; cbn in Hx; by rewrite lookup_empty in Hx|split; cbn; lia|done].
Qed.

Lemma ground_step s l s' ev : ground s -> vstep s l = Some (s', ev) -> ground s'.
Proof.
  intros [Hh Hb Hk Hc Hg] Hs.
  assert (match d_hand (v_d s') with HRunning Forg _ => v_at s' <> HGot | _ => True end) as Hg'.
  { destruct l as [lb|k|].
    - unfold vstep in Hs. destruct (inside lb) eqn:Ei; [|done]. destruct (dstep (v_d s) lb) as [[d dv]|] eqn:E; [|done]. injection Hs as <- <-. cbn [v_d v_at].
      destruct (inside_hand _ _ _ _ Hh Ei E) as [[->|[_ Hx]] _]; [done|]. by destruct (d_hand d).
    - unfold vstep in Hs. destruct (dstep _ _) as [[d dv]|]; [|done]. injection Hs as <- <-. cbn. by destruct (d_hand d) as [| |[] x| | |].
    - unfold vstep, body, dstep in Hs. destruct (d_hand (v_d s)) as [| |[] x| | |] eqn:Eh; try done; destruct (v_at s); try done; destruct (d_crashed (v_d s)); try done.
      + destruct (d_held (v_d s)); [done|]. destruct (d_map (v_d s) !! _); injection Hs as <- <-; cbn; by rewrite Eh.
      + injection Hs as <- <-. cbn. by rewrite Eh.
      + injection Hs as <- <-. cbn. by rewrite Eh.
      + injection Hs as <- <-. done.
      + injection Hs as <- <-. cbn. by rewrite Eh.
      + injection Hs as <- <-. cbn. by rewrite Eh.
      + injection Hs as <- <-. done. }
  assert (hand_calm (v_d s')) as Hh'.
  { destruct l as [lb|k|].
    - unfold vstep in Hs. destruct (inside lb) eqn:Ei; [|done]. destruct (dstep (v_d s) lb) as [[d dv]|] eqn:E; [|done]. injection Hs as <- <-.
      apply (inside_hand _ _ _ _ Hh Ei E).
    - unfold vstep, dstep in Hs. destruct (d_crashed (v_d s)); [done|]. destruct (d_hand (v_d s)) eqn:Eh; try done. destruct (chan_of (v_d s) k); [done|]. injection Hs as <- <-.
      destruct Hh as [[_ H2] H3]. rewrite Eh in H3. destruct k; (split; [by split|]); cbn; intros Er; by specialize (H3 Er).
    - unfold vstep, body, dstep in Hs. destruct Hh as [[H1 H2] H3].
      destruct (d_hand (v_d s)) as [| |[] x| | |] eqn:Eh; try done; destruct (v_at s); try done; destruct (d_crashed (v_d s)); try done.
      + destruct (d_held (v_d s)) eqn:Ed; [done|]. destruct (d_map (v_d s) !! _); injection Hs as <- <-; (split; [split|]); cbn; by rewrite ?Eh, ?Ed.
      + injection Hs as <- <-. (split; [split|]); cbn; by rewrite ?Eh.
      + injection Hs as <- <-. (split; [split|]); cbn; by rewrite ?Eh.
      + injection Hs as <- <-. (split; [split|]); cbn; [done|done|]. intros Er. by specialize (H3 Er).
      + injection Hs as <- <-. (split; [split|]); cbn; by rewrite ?Eh.
      + injection Hs as <- <-. (split; [split|]); cbn; by rewrite ?Eh.
      + injection Hs as <- <-. (split; [split|]); cbn; [done|done|]. intros Er. by specialize (H3 Er). }
  destruct (step_base _ _ _ _ Hs) as [E|(lb & dv & E & _)].
  - rewrite <- E in Hb, Hk, Hc. by split.
  - split; [done| | | |].
    + by apply (step_moves _ _ _ _ Hb E).
    + by eapply keyed_step.
    + by eapply cap_step.
    + done.
Qed.

Lemma ground_run now ls s evs : vrun (v_init now) ls = Some (s, evs) -> ground s.
Proof.
  intros Hr. apply (run_inv vstep (fun s _ => ground s) (fun _ => True) (v_init now) [] ls s evs) with (4 := Hr); [apply ground_init| |by apply Forall_true].
  intros s1 evs1 l s2 ev Hi _ Hs. by eapply ground_step.
Qed.

(** ** The steps of the tool *)

Inductive vshape (s s' : vstate) (ev : list vev) : Prop :=
  | s_inner dv : ishape (v_d s) (v_d s') dv -> still (v_d s) (v_d s') -> v_at s' = v_at s -> v_src s' = v_src s -> ev = VD <$> dv -> vshape s s' ev
  | s_take k x : d_hand (v_d s) = HSelect -> d_hand (v_d s') = HRunning k x -> v_at s' = HFresh -> v_src s' = v_src s -> d_map (v_d s') = d_map (v_d s) ->
      d_watches (v_d s') = d_watches (v_d s) -> waiting k (v_d s) = ds_info x :: waiting k (v_d s') -> (forall j, j <> k -> waiting j (v_d s') = waiting j (v_d s)) ->
      ev = [VD (DHandle k x)] -> vshape s s' ev
  | s_watch x : d_hand (v_d s) = HRunning Disc x -> v_at s = HFresh -> is_Some (d_map (v_d s) !! i_id (ds_info x)) -> v_at s' = HGot -> v_src s' = v_src s ->
      v_d s' = ds_watches (d_watches (v_d s) ++ [new_watch (tool_watch (i_id (ds_info x)))]) (v_d s) -> d_held (v_d s) = None ->
      ev = [VD (DWatch (length (d_watches (v_d s))) (i_id (ds_info x)))] -> vshape s s' ev
  | s_nowatch x : d_hand (v_d s) = HRunning Disc x -> v_at s = HFresh -> d_map (v_d s) !! i_id (ds_info x) = None -> v_at s' = HFin -> v_src s' = v_src s ->
      v_d s' = v_d s -> ev = [VD (DNoWatch (i_id (ds_info x)))] -> vshape s s' ev
  | s_list x : d_hand (v_d s) = HRunning Disc x -> v_at s = HGot -> v_at s' = HFin -> v_src s' = <[i_id (ds_info x) := ds_info x]> (v_src s) ->
      v_d s' = v_d s -> ev = [VListed (i_id (ds_info x))] -> vshape s s' ev
  | s_unlist x : d_hand (v_d s) = HRunning Forg x -> v_at s = HFresh -> v_at s' = HFin -> v_src s' = delete (i_id (ds_info x)) (v_src s) ->
      v_d s' = v_d s -> ev = [VUnlisted (i_id (ds_info x))] -> vshape s s' ev
  | s_ret k x : d_hand (v_d s) = HRunning k x -> v_at s = HFin -> v_src s' = v_src s -> v_d s' = ds_hand HSelect (v_d s) -> ev = [VD DHandled] -> vshape s s' ev.

Lemma vstep_shape s l s' ev : ground s -> (stops l -> False) -> vstep s l = Some (s', ev) -> vshape s s' ev.
Proof.
  intros [Hh Hb Hk Hc _] Hst Hs. destruct l as [lb|k|].
  - unfold vstep in Hs. destruct (inside lb) eqn:Ei; [|done]. destruct (dstep (v_d s) lb) as [[d dv]|] eqn:E; [|done]. injection Hs as <- <-.
    apply (s_inner _ _ _ dv); try done; [|by apply (inside_hand _ _ _ _ Hh Ei E)]. cbn. eapply inside_shape; try done. intros w ->. by apply Hst.
  - unfold vstep, dstep in Hs. destruct (d_crashed (v_d s)); [done|]. destruct (d_hand (v_d s)) eqn:Eh; try done. destruct (chan_of (v_d s) k) as [|x q] eqn:Ec; [done|].
    injection Hs as <- <-. apply (s_take _ _ _ k x); try done; try (by destruct k).
    + unfold waiting. rewrite Ec. by destruct k.
    + intros j Hj. unfold waiting. by destruct j, k.
  - unfold vstep, body, dstep in Hs.
    destruct (d_hand (v_d s)) as [| |[] x| | |] eqn:Eh; try done; destruct (v_at s) eqn:Ea; try done; destruct (d_crashed (v_d s)); try done.
    + destruct (d_held (v_d s)) eqn:Ed; [done|]. cbn [tool_watch w_id] in Hs. destruct (d_map (v_d s) !! _) eqn:Em; injection Hs as <- <-.
      * apply (s_watch _ _ _ x); try done; by rewrite ?Em.
      * by apply (s_nowatch _ _ _ x).
    + injection Hs as <- <-. by apply (s_list _ _ _ x).
    + injection Hs as <- <-. by apply (s_list _ _ _ x).
    + injection Hs as <- <-. by apply (s_ret _ _ _ Disc x).
    + injection Hs as <- <-. by apply (s_unlist _ _ _ x).
    + injection Hs as <- <-. by apply (s_unlist _ _ _ x).
    + injection Hs as <- <-. by apply (s_ret _ _ _ Forg x).
Qed.

(** ** One watch for each source *)

Definition one_inv (s : vstate) : Prop := forall id,
  count_id id (waiting Disc (v_d s)) + unwatched s id + lives id (d_watches (v_d s)) = match d_map (v_d s) !! id with Some _ => 1 | None => 0 end.

Lemma count_cons id i l : count_id id (i :: l) = (if bool_decide (i_id i = id) then 1 else 0) + count_id id l.
Proof. unfold count_id. cbn. by destruct (bool_decide _). Qed.

Lemma still_unwatched s s' id : still (v_d s) (v_d s') -> v_at s' = v_at s -> unwatched s' id = unwatched s id.
Proof.
  unfold still, unwatched. intros [->|[H1 H2]] ->; [done|]. destruct (d_hand (v_d s)), (d_hand (v_d s')); done.
Qed.

Lemma one_step s l s' ev : ground s -> (stops l -> False) -> one_inv s -> vstep s l = Some (s', ev) -> one_inv s' /\ forall id, VD (DNoWatch id) ∉ ev.
Proof.
  intros Hg Hst Hi Hs. split.
  - intros id. specialize (Hi id) as Hid.
    destruct (vstep_shape _ _ _ _ Hg Hst Hs) as [dv Hsh Hstill Ea Es ->|k x E1 E2 E3 E4 E5 E6 E7 E8 ->|x E1 E2 E3 E4 E5 E6 _ ->|x E1 E2 E3 E4 E5 E6 ->|x E1 E2 E3 E4 E5 ->|x E1 E2 E3 E4 E5 ->|k x E1 E2 E3 E4 ->].
    + rewrite (still_unwatched _ _ _ Hstill Ea).
      destruct Hsh as [[Em|(j & n & Em & [z Ez] & _)] Hw Hl _|b x Ex En Em Ew1 Ew2 Ewt _|w y x Ey Ep Ex Em Ew1 Ew2 Hl _|w y Ey Ep Ex Em Hw Hl].
      * by rewrite Hw, Hl, Em.
      * rewrite Hw, Hl, Em. destruct (decide (j = id)) as [->|Hne]; [|by rewrite lookup_insert_ne]. rewrite lookup_insert. by rewrite Ez in Hid.
      * rewrite Ew1, Ewt, count_app, count_cons, Em. change (count_id id []) with 0. case_bool_decide as E; [|rewrite lookup_insert_ne by done; lia].
        subst id. rewrite lookup_insert. rewrite En in Hid. lia.
      * rewrite Ew2, Em. specialize (Hl id). unfold guards in Hl. rewrite Ep in Hl. cbn [live] in Hl. rewrite andb_true_r in Hl. case_bool_decide as E.
        -- subst id. rewrite lookup_delete. rewrite Ex in Hid. cbn in Hl. lia.
        -- rewrite lookup_delete_ne by done. cbn in Hl. lia.
      * exfalso. specialize (Hi (w_id (wt_cfg y))). rewrite Ex in Hi. assert (lives (w_id (wt_cfg y)) (d_watches (v_d s)) <> 0) as Hn; [|lia].
        eapply lives_one; [exact Ey|]. unfold guards. rewrite Ep. by rewrite bool_decide_true.
    + rewrite E5, E6. assert (unwatched s id = 0) as Eu by (unfold unwatched; by rewrite E1). unfold unwatched at 1. rewrite E2, E3. destruct k.
      * rewrite E7, count_cons in Hid. lia.
      * rewrite (E8 Disc) by done. lia.
    + rewrite E6. assert (unwatched s' id = 0) as Eu by (unfold unwatched; rewrite E6; cbn; by rewrite E1, E4). rewrite Eu.
      assert (waiting Disc (ds_watches (d_watches (v_d s) ++ [new_watch (tool_watch (i_id (ds_info x)))]) (v_d s)) = waiting Disc (v_d s)) as -> by done.
      cbn [d_map d_watches ds_watches]. rewrite lives_app. unfold unwatched in Hid. rewrite E1, E2 in Hid.
      assert (lives id [new_watch (tool_watch (i_id (ds_info x)))] = if bool_decide (i_id (ds_info x) = id) then 1 else 0) as ->.
      { unfold lives, guards. cbn [List.filter new_watch wt_cfg wt_pc tool_watch w_id live]. by destruct (bool_decide _). }
      lia.
    + exfalso. specialize (Hi (i_id (ds_info x))). unfold unwatched in Hi. rewrite E1, E2, E3, bool_decide_true in Hi by done. lia.
    + assert (unwatched s' id = 0) as -> by (unfold unwatched; by rewrite E5, E1, E3). assert (unwatched s id = 0) as Eu by (unfold unwatched; by rewrite E1, E2).
      rewrite E5. lia.
    + assert (unwatched s' id = 0) as -> by (unfold unwatched; by rewrite E5, E1). assert (unwatched s id = 0) as Eu by (unfold unwatched; by rewrite E1).
      rewrite E5. lia.
    + assert (unwatched s' id = 0) as -> by (unfold unwatched; by rewrite E4). assert (unwatched s id = 0) as Eu by (unfold unwatched; rewrite E1, E2; by destruct k).
      rewrite E4. cbn [d_map d_watches ds_hand]. assert (waiting Disc (ds_hand HSelect (v_d s)) = waiting Disc (v_d s)) as -> by done. lia.
  - intros id Hin.
    destruct (vstep_shape _ _ _ _ Hg Hst Hs) as [dv Hsh Hstill Ea Es ->|k x E1 E2 E3 E4 E5 E6 E7 E8 ->|x E1 E2 E3 E4 E5 E6 _ ->|x E1 E2 E3 E4 E5 E6 ->|x E1 E2 E3 E4 E5 ->|x E1 E2 E3 E4 E5 ->|k x E1 E2 E3 E4 ->].
    2,3,5,6,7: apply elem_of_list_singleton in Hin; discriminate Hin.
    + destruct l as [lb|k|].
      * unfold vstep in Hs. destruct (inside lb) eqn:Ein; [|done]. destruct (dstep (v_d s) lb) as [[d dv']|] eqn:Ed; [|done]. injection Hs as _ Edv.
        rewrite <- Edv in Hin. apply elem_of_list_fmap in Hin as (e & [= <-] & Hin).
        assert (match lb with LWatch _ => False | _ => True end) as Hlb by (by destruct lb).
        assert (Forall (fun e => match e with DNoWatch _ => False | _ => True end) dv') as HF; [|rewrite Forall_forall in HF; by apply (HF _ Hin)].
        clear -Ed Hlb. unfold dstep in Ed. destruct (d_crashed (v_d s)); [done|].
        assert (forall c o, call c o (v_d s) = Some (d, dv') -> Forall (fun e => match e with DNoWatch _ => False | _ => True end) dv') as Hcall.
        { intros c o Hc. destruct (call_called _ _ _ _ _ Hc) as [m r n Hh He _ Hn].
          destruct n as [[k' x']|]; [destruct Hn as [(_ & _ & _ & ->)|(_ & _ & _ & ->)]|destruct Hn as (_ & _ & ->)]; repeat constructor. }
        assert (forall w, label_of lb = Some w -> match d_watches (v_d s) !! w with Some x => watch_step (v_d s) w x lb | None => None end = Some (d, dv') ->
          Forall (fun e => match e with DNoWatch _ => False | _ => True end) dv') as Hwt.
        { intros w Hl Hy. destruct (d_watches (v_d s) !! w) as [y|] eqn:Ey; [|done].
          destruct (watch_own _ _ _ _ _ _ Hy Hl) as [(z & Ho & ->)|[(t & n & -> & Ep & Hc)|(-> & Ep & Hc)]]; [|by eapply Hcall|by eapply Hcall].
          destruct Ho; subst dv'; repeat constructor. }
        destruct lb; try done; try (eapply Hwt; [reflexivity|exact Ed]); clear Hwt.
        -- destruct (0 <=? dt)%Z; [|done]. injection Ed as <- <-. constructor.
        -- destruct o; try done; by eapply Hcall.
        -- destruct (d_held (v_d s)) as [[[c k] x]|] eqn:Eh; [|done]. destruct (roomy (v_d s) k); [|done]. injection Ed as <- <-. repeat constructor.
        -- destruct (d_run (v_d s)); try done. injection Ed as <- <-. constructor.
        -- destruct (d_run (v_d s)); try done. injection Ed as Hm. unfold run_msg in Hm. destruct (am_props m) as [p|]; [|injection Hm as <- <-; repeat constructor].
           destruct (ap_subject p); [|injection Hm as <- <-; repeat constructor]. case_bool_decide; [|injection Hm as <- <-; repeat constructor].
           destruct (decode_beacon m); injection Hm as <- <-; repeat constructor.
        -- destruct (d_run (v_d s)); try done. injection Ed as <- <-. repeat constructor.
        -- destruct (d_run (v_d s)); try done. by eapply Hcall.
        -- injection Ed as <- <-. constructor.
        -- destruct (d_hand (v_d s)), (chan_of (v_d s) k); try done. injection Ed as <- <-. repeat constructor.
        -- destruct (d_hand (v_d s)); try done. injection Ed as <- <-. repeat constructor.
        -- destruct (d_hand (v_d s)), o; try done; injection Ed as <- <-; repeat constructor.
        -- destruct (d_hand (v_d s)); try done. by eapply Hcall.
        -- destruct (d_hand (v_d s)); try done. destruct (d_run (v_d s)); try (injection Ed as <- <-; constructor); destruct (d_cancelled (v_d s)); try done; injection Ed as <- <-; constructor.
      * unfold vstep, dstep in Hs. destruct (d_crashed (v_d s)); [done|]. destruct (d_hand (v_d s)); try done. destruct (chan_of (v_d s) k); [done|]. injection Hs as <- E.
        rewrite <- E in Hin. apply elem_of_list_singleton in Hin. discriminate Hin.
      * unfold vstep, body, dstep in Hs.
        destruct (d_hand (v_d s)) as [| |[] x| | |] eqn:Eh; try done; destruct (v_at s) eqn:Eat; try done; destruct (d_crashed (v_d s)); try done.
        -- destruct (d_held (v_d s)) eqn:Ed; [done|]. cbn [tool_watch w_id] in Hs. destruct (d_map (v_d s) !! _) eqn:Em; injection Hs as Es' E; [rewrite <- E in Hin; apply elem_of_list_singleton in Hin; discriminate Hin|].
           specialize (Hi (i_id (ds_info x))). unfold unwatched in Hi. rewrite Eh, Eat, Em, bool_decide_true in Hi by done. lia.
        -- injection Hs as <- E. rewrite <- E in Hin. apply elem_of_list_singleton in Hin. discriminate Hin.
        -- injection Hs as <- E. rewrite <- E in Hin. apply elem_of_list_singleton in Hin. discriminate Hin.
        -- injection Hs as <- E. rewrite <- E in Hin. apply elem_of_list_singleton in Hin. discriminate Hin.
        -- injection Hs as <- E. rewrite <- E in Hin. apply elem_of_list_singleton in Hin. discriminate Hin.
        -- injection Hs as <- E. rewrite <- E in Hin. apply elem_of_list_singleton in Hin. discriminate Hin.
        -- injection Hs as <- E. rewrite <- E in Hin. apply elem_of_list_singleton in Hin. discriminate Hin.
    + specialize (Hi (i_id (ds_info x))). unfold unwatched in Hi. rewrite E1, E2, E3, bool_decide_true in Hi by done. lia.
Qed.

Lemma one_run now ls s evs : vrun (v_init now) ls = Some (s, evs) -> Forall (fun l => ~ stops l) ls -> one_inv s /\ forall id, VD (DNoWatch id) ∉ evs.
Proof.
  intros Hr HF.
  assert (ground s /\ one_inv s /\ forall id, VD (DNoWatch id) ∉ [] ++ evs) as (_ & H); [|done].
  apply (run_inv vstep (fun s evs => ground s /\ one_inv s /\ forall id, VD (DNoWatch id) ∉ evs) (fun l => ~ stops l) (v_init now) [] ls s evs) with (4 := Hr); [| |done].
  - split; [apply ground_init|]. split; [|intros id H; by apply elem_of_nil in H]. intros id. cbn. by rewrite lookup_empty.
  - intros s1 evs1 l s2 ev (Hg & Hi & Hn) Hl Hs. split; [by eapply ground_step|]. destruct (one_step _ _ _ _ Hg Hl Hi Hs) as [Hi' Hn']. split; [done|].
    intros id [Hx|Hx]%elem_of_app; [by eapply Hn|by eapply Hn'].
Qed.
