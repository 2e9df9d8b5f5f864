(** Watches: what resets the timer, when a seen source is forgotten, and what can
    be watched. *)
From Coq Require Import ZArith NArith Ascii String Lia.
From stdpp Require Import base gmap strings list sorting.
From Verif Require Import GoBase Encoding Records Messages Run Keepalive Discovery DiscoveryFacts DiscoveryLive DiscoveryProgress WatchFacts WatchLive.

Local Open Scope list_scope.

(** ** Resets *)

(** Each reset has its own activity: [seen] lists the activity the resets at [rs]
    were made for, each recorded, from before its reset and later than those
    before it. *)
Definition each_reset (seen rs as_ : list Z) : Prop :=
  Forall2 Z.le seen rs /\ StronglySorted Z.lt seen /\ Forall (fun n => n ∈ as_) seen.

Lemma sorted_snoc (l : list Z) n : StronglySorted Z.lt l -> Forall (fun z => (z < n)%Z) l -> StronglySorted Z.lt (l ++ [n]).
Proof.
  induction 1 as [|z l Hs IH HF]; cbn; intros H; [repeat constructor|]. apply Forall_cons_1 in H as [H1 H2]. constructor; [by apply IH|].
  apply Forall_app. split; [done|]. by constructor.
Qed.

Definition rinv (w : nat) (y : watch) (evs : list dev) : Prop :=
  (exists seen, each_reset seen (resets w evs) (acts w evs) /\ Forall (fun z => exists p, wt_prev y = Some p /\ (z <= p)%Z) seen) /\
  match wt_pc y with WSeen _ n | WReset _ n => n ∈ acts w evs /\ (forall p, wt_prev y = Some p -> (p < n)%Z) | WLook => wt_prev y = None | _ => True end.

Lemma newer_newer x n : newer x = Some n -> forall p, wt_prev x = Some p -> (p < n)%Z.
Proof. unfold newer. destruct (wt_last x) as [t|]; [|done]. intros H p Hp. rewrite Hp in H. destruct (p <? t)%Z eqn:E; [|done]. injection H as <-. lia. Qed.

Lemma rinv_step s evs lb s' ev : watch_inv s evs -> (forall w y, d_watches s !! w = Some y -> rinv w y evs) -> dstep s lb = Some (s', ev) ->
  forall w y, d_watches s' !! w = Some y -> rinv w y (evs ++ ev).
Proof.
  intros (Hp & Hl & Hw) Hq Hs w y Hy. destruct Hp as [Hb Hpast].
  destruct (step_moves _ _ _ _ Hb Hs) as (_ & _ & Hm).
  assert (forall x, rinv w x evs -> about w ev = [] -> rinv w x (evs ++ ev)) as Hkeep.
  { intros x H Hab. destruct (quiet_events _ _ Hab) as [E1 E2]. unfold rinv. by rewrite acts_app, resets_app, E1, E2, !app_nil_r. }
  destruct (Hm _ _ Hy) as [Hx Hab|c _ -> -> _ ->|x Hx Ho E|x t n Hx Ep -> _ Hab|x p Hx Hpc -> Hab Hlb].
  - by apply Hkeep; [apply Hq|].
  - assert (acts (length (d_watches s)) evs = [] /\ resets (length (d_watches s)) evs = []) as [E1 E2] by (apply quiet_events, Hl; lia).
    split; [|done]. exists []. rewrite resets_app, E2. cbn. repeat constructor.
  - destruct (Hq _ _ Hx) as [(seen & (G1 & G2 & G3) & G4) G5]. pose proof (wi_last _ _ _ _ (Hw _ _ Hx)) as Hla. pose proof (Hpast _ _ Hx) as Hpa.
    destruct (self_events w (d_now s)) as (_ & _ & S3 & _ & _).
    assert (forall n, n ∈ acts w evs -> n ∈ acts w (evs ++ ev)) as Hmono by (intros n Hn; rewrite acts_app; apply elem_of_app; by left).
    assert (Forall (fun n => n ∈ acts w (evs ++ ev)) seen) as G3' by (eapply Forall_impl; [exact G3|exact Hmono]).
    destruct Ho as [-> Ep -> ->| -> Ep -> ->| -> -> ->|k ts -> Ek -> ->|t -> Ef Hle -> ->|b Ey ->|tick n Ep En Ht Ey ->| -> Ep Ech En -> ->|tick n -> Ep Ht Hf -> ->|n -> Ep Ht -> ->|n -> Ep Ef Ech Ht -> ->| -> Ep -> ->| -> Ep -> ->].
    + assert (resets w evs = []) as Er by (by apply (wi_start _ _ _ _ (Hw _ _ Hx))). rewrite Er in G1. apply Forall2_nil_inv_r in G1 as ->.
      split; [|done]. exists []. rewrite resets_app, Er. cbn. repeat constructor.
    + assert (resets w evs = []) as Er by (by apply (wi_look _ _ _ _ (Hw _ _ Hx))). rewrite Er in G1. apply Forall2_nil_inv_r in G1 as ->.
      split; [|done]. exists []. rewrite resets_app, Er. cbn. repeat constructor.
    + rewrite app_nil_r in *. split; [by exists seen|exact G5].
    + split; [exists seen; rewrite resets_app; change (resets w [DAct w ts]) with (@nil Z); by rewrite app_nil_r|].
      cbn [wt_pc wt_prev]. destruct (wt_pc x); try done; (split; [|by apply G5]); apply Hmono, G5.
    + rewrite app_nil_r in *. split; [by exists seen|exact G5].
    + rewrite app_nil_r in *. rewrite Ey. split; [by exists seen|exact G5].
    + rewrite app_nil_r in *. rewrite Ey. split; [by exists seen|]. cbn. split; [|by apply newer_newer].
      apply newer_last in En. rewrite Hla in En. by apply last_Some_elem_of.
    + split; [|done]. exists seen. rewrite resets_app. change (resets w [DDecide w (d_now s)]) with (@nil Z). by rewrite app_nil_r.
    + rewrite Ep in G5. destruct G5 as [G5 G6]. split; [|done]. exists (seen ++ [n]). rewrite resets_app, S3. split; [split; [|split]|].
      * apply Forall2_app; [done|]. constructor; [|constructor]. pose proof (pa_pc _ _ Hpa) as Hn. by rewrite Ep in Hn.
      * apply sorted_snoc; [done|]. eapply Forall_impl; [exact G4|]. intros z (p & Ez & Hz). specialize (G6 _ Ez). lia.
      * apply Forall_app. split; [done|]. constructor; [by apply Hmono|constructor].
      * cbn [wt_prev]. apply Forall_app. split; [|constructor; [exists n; split; [done|lia]|constructor]].
        eapply Forall_impl; [exact G4|]. intros z (p & Ez & Hz). specialize (G6 _ Ez). exists n. split; [done|lia].
    + rewrite app_nil_r in *. rewrite Ep in G5. destruct G5 as [G5 G6]. split; [|done]. exists seen. split; [done|].
      cbn [wt_prev]. eapply Forall_impl; [exact G4|]. intros z (p & Ez & Hz). specialize (G6 _ Ez). exists n. split; [done|lia].
    + rewrite app_nil_r in *. split; [|done]. by exists seen.
    + rewrite app_nil_r in *. split; [|done]. by exists seen.
    + split; [|done]. exists seen. rewrite resets_app. change (resets w [DWatchEnd w]) with (@nil Z). by rewrite app_nil_r.
  - apply Hkeep; [|done]. destruct (Hq _ _ Hx) as [H1 H2]. split; [done|]. cbn. by rewrite Ep in H2.
  - apply Hkeep; [|done]. destruct (Hq _ _ Hx) as [H1 H2]. split; [done|]. cbn. by destruct Hpc as [-> | ->].
Qed.

Lemma rinv_run now ls s evs : drun (d_init now) ls = Some (s, evs) -> forall w y, d_watches s !! w = Some y -> rinv w y evs.
Proof.
  intros Hr. assert (watch_inv s ([] ++ evs) /\ forall w y, d_watches s !! w = Some y -> rinv w y ([] ++ evs)) as [_ H]; [|exact H].
  apply (run_inv dstep (fun s evs => watch_inv s evs /\ forall w y, d_watches s !! w = Some y -> rinv w y evs) (fun _ => True) (d_init now) [] ls s evs) with (4 := Hr); [| |by apply Forall_true].
  - split; [by apply (watch_run now [] _ [])|]. done.
  - intros s1 evs1 l s2 ev [Hi Hh] _ Hs. split; [by eapply watch_inv_step|by eapply rinv_step].
Qed.

Lemma each_reset_run now ls s evs w : drun (d_init now) ls = Some (s, evs) -> exists seen, each_reset seen (resets w evs) (acts w evs).
Proof.
  intros Hr. destruct (d_watches s !! w) as [y|] eqn:Ey.
  - destruct (rinv_run _ _ _ _ Hr _ _ Ey) as [(seen & H & _) _]. by exists seen.
  - destruct (watch_run _ _ _ _ Hr) as (_ & Hl & _). apply lookup_ge_None in Ey. destruct (quiet_events _ _ (Hl _ Ey)) as [-> ->]. exists []. repeat constructor.
Qed.

(** ** Forgetting *)

(** When the timer, as last set, is due and there is no activity that the watch
    has not seen, it can forget. *)
Lemma due_forgets now ls s evs w y t0 : drun (d_init now) ls = Some (s, evs) -> d_watches s !! w = Some y -> (0 < w_timeout (wt_cfg y))%Z ->
  wt_pc y = WSelect -> (forall n, last (acts w evs) = Some n -> exists p, wt_prev y = Some p /\ (n <= p)%Z) -> starts w evs = [t0] ->
  match last (resets w evs) with None => (t0 + (w_grace (wt_cfg y) + w_timeout (wt_cfg y)) <= d_now s)%Z | Some r => (r + w_timeout (wt_cfg y) <= d_now s)%Z end ->
  d_crashed s = false -> d_held s = None ->
  exists ls' s' evs', (ls' = [LWFire w; LWTakeTimer w; LWForget w] \/ ls' = [LWTakeTimer w; LWForget w]) /\
    drun s ls' = Some (s', evs') /\ DDecide w (d_now s) ∈ evs' /\ d_map s' !! w_id (wt_cfg y) = None.
Proof.
  intros Hr Hy HT Ep Hseen Hst Hdue Hcr Hh. destruct (watch_run _ _ _ _ Hr) as (_ & _ & Hw). pose proof (Hw _ _ Hy) as Hi.
  assert (newer y = None) as Hn.
  { unfold newer. rewrite (wi_last _ _ _ _ Hi). destruct (last (acts w evs)) as [n|]; [|done]. destruct (Hseen _ eq_refl) as (p & -> & Hp).
    by rewrite (proj2 (Z.ltb_ge _ _)) by lia. }
  assert (forall s y, d_watches s !! w = Some y -> wt_pc y = WSelect -> newer y = None -> wt_chan y = true -> d_crashed s = false -> d_held s = None ->
    exists s' evs', drun s [LWTakeTimer w; LWForget w] = Some (s', evs') /\ DDecide w (d_now s) ∈ evs' /\ d_map s' !! w_id (wt_cfg y) = None) as Htake.
  { clear. intros s y Hy Ep Hn Hch Hcr Hh.
    cbn [run]. unfold dstep at 1. rewrite Hcr, Hy. unfold watch_step. rewrite Ep, Hch, Hn.
    match goal with |- context [upd_watch w (fun _ => ?y0) s] => set (y1 := y0) end.
    unfold dstep. change (d_crashed (upd_watch w (fun _ => y1) s)) with (d_crashed s). rewrite Hcr, upd_lookup, decide_True, Hy by done. cbn [fmap option_fmap option_map].
    unfold watch_step. change (wt_pc y1) with WForget. change (wt_cfg y1) with (wt_cfg y).
    assert (exists s' ev, call (ByWatch w) (OForget (w_id (wt_cfg y))) (upd_watch w (fun _ => y1) s) = Some (s', ev)) as (s' & ev & Hc).
    { unfold call. change (d_held (upd_watch w (fun _ => y1) s)) with (d_held s). rewrite Hh. cbn [effect].
      destruct (d_map (upd_watch w (fun _ => y1) s) !! w_id (wt_cfg y)); [destruct (roomy (upd_watch w (fun _ => y1) s) Forg)|]; eauto. }
    rewrite Hc. eexists _, _. split; [reflexivity|]. split; [left|].
    destruct (call_called _ _ _ _ _ Hc) as [m r n _ He Em _]. rewrite Em. cbn [effect] in He.
    destruct (d_map (upd_watch w (fun _ => y1) s) !! w_id (wt_cfg y)) eqn:El; injection He as <- _ _; [by rewrite lookup_delete|done]. }
  destruct (wi_wait _ _ _ _ Hi HT) as [[d Hd]|Hch]; [by rewrite Ep| |].
  - destruct (wi_started _ _ _ _ Hi) as (t0' & Hst' & Hdu & _); [by rewrite Ep|]. assert (t0' = t0) as -> by congruence.
    destruct (Hdu _ Hd) as [Hd2 _]. unfold due in Hd2.
    assert (d <= d_now s)%Z as Hle by (destruct (last (resets w evs)); lia).
    assert (dstep s (LWFire w) = Some (upd_watch w (fun _ => Watch (wt_cfg y) (wt_pc y) (wt_last y) (wt_pend y) (wt_prev y) None true (wt_next y) (wt_tick y) (wt_cancelled y)) s, [])) as Hf.
    { unfold dstep. rewrite Hcr, Hy. unfold watch_step. destruct (wt_pc y); try done; by rewrite Hd, (proj2 (Z.leb_le _ _)) by lia. }
    set (y1 := Watch _ _ _ _ _ _ _ _ _ _) in Hf. set (s1 := upd_watch _ _ _) in Hf.
    destruct (Htake s1 y1) as (s' & evs' & Hrun & Hin & Hmap); try done.
    { unfold s1. by rewrite upd_lookup, decide_True, Hy. }
    exists [LWFire w; LWTakeTimer w; LWForget w], s', evs'. split; [by left|]. split; [|done].
    change [LWFire w; LWTakeTimer w; LWForget w] with ([LWFire w] ++ [LWTakeTimer w; LWForget w]). rewrite run_app, run_one, Hf, Hrun. done.
  - destruct (Htake s y) as (s' & evs' & Hrun & Hin & Hmap); try done. exists [LWTakeTimer w; LWForget w], s', evs'. auto.
Qed.

(** ** What can be watched *)

Definition watch_known (evs : list dev) : Prop := forall a e b, evs = a ++ e :: b ->
  match e with DWatch _ id => known a id <> None | DNoWatch id => known a id = None | _ => True end.

Lemma step_watch s lb s' ev e : dstep s lb = Some (s', ev) -> e ∈ ev -> match e with DWatch _ _ | DNoWatch _ => True | _ => False end ->
  exists c, lb = LWatch c /\ ev = [e] /\ match e with DWatch _ id => id = w_id c /\ d_map s !! id <> None | DNoWatch id => id = w_id c /\ d_map s !! id = None | _ => False end.
Proof.
  intros H Hin He. unfold dstep in H. destruct (d_crashed s); [done|].
  assert (forall c o, call c o s = Some (s', ev) -> False) as Hcall.
  { intros c o Hc. destruct (call_called _ _ _ _ _ Hc) as [m r n _ _ _ Hn].
    destruct n as [[k' x']|]; [destruct Hn as [(_ & _ & _ & ->)|(_ & _ & _ & ->)]|destruct Hn as (_ & _ & ->)]; rewrite ?elem_of_cons, elem_of_nil in Hin; naive_solver. }
  assert (forall v, label_of lb = Some v -> match d_watches s !! v with Some x => watch_step s v x lb | None => None end = Some (s', ev) -> False) as Hw.
  { intros v El H2. destruct (d_watches s !! v) as [x|] eqn:Ex; [|done].
    destruct (watch_own _ _ _ _ _ _ H2 El) as [(y & Ho & ->)|[(t & n & -> & Ep & Hc)|(-> & Ep & Hc)]]; [|by eapply Hcall|by eapply Hcall].
    destruct Ho; subst ev; rewrite ?elem_of_cons, ?elem_of_nil in Hin; naive_solver. }
  destruct lb; try (exfalso; by eapply Hw); clear Hw.
  14: { destruct (d_held s); [done|]. exists c. split; [done|]. destruct (d_map s !! w_id c) eqn:Em; injection H as _ <-; apply elem_of_list_singleton in Hin as ->; (split; [done|]); (split; [done|]); by rewrite Em. }
  all: exfalso; repeat case_match; try done; try (by eapply Hcall); simplify_eq; try (unfold run_msg in *; repeat case_match; simplify_eq);
    rewrite ?elem_of_cons, ?elem_of_nil in Hin; naive_solver.
Qed.

Lemma watch_known_run now ls s evs : drun (d_init now) ls = Some (s, evs) -> watch_known evs.
Proof.
  intros Hr. assert (map_inv s ([] ++ evs) /\ watch_known ([] ++ evs)) as [_ H]; [|exact H].
  apply (run_inv dstep (fun s evs => map_inv s evs /\ watch_known evs) (fun _ => True) (d_init now) [] ls s evs) with (4 := Hr); [| |by apply Forall_true].
  - split; [by apply (map_run now [] _ [])|]. intros a e b E. by destruct a.
  - intros s1 evs1 l s2 ev [Hi Hk] _ Hs. split; [by eapply map_step|]. intros a e b E.
    apply split_app in E as [(b1 & E & _)|(a1 & -> & E)]; [by apply (Hk _ _ _ E)|].
    assert (e ∈ ev) as Hin by (rewrite E; apply elem_of_app; right; left).
    assert (match e with DWatch _ _ | DNoWatch _ => True | _ => False end -> match e with DWatch _ id => known (evs1 ++ a1) id <> None | DNoWatch id => known (evs1 ++ a1) id = None | _ => True end) as Hmain; [|by destruct e; try done; apply Hmain].
    intros He. destruct (step_watch _ _ _ _ _ Hs Hin He) as (c & _ & Ev & Hm). rewrite Ev in E. destruct a1 as [|? [|]]; [|done|done]. rewrite app_nil_r.
    destruct Hi as (_ & Hkn & _). destruct e; try done; destruct Hm as [_ Hm]; rewrite <- Hkn; destruct (d_map s1 !! _); done.
Qed.
