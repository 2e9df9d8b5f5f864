(** Watches: when they end, and how soon activity shows. *)
From Coq Require Import ZArith NArith Ascii String Lia.
From stdpp Require Import base gmap strings list sorting.
From Verif Require Import GoBase Encoding Records Messages Run Keepalive Discovery DiscoveryFacts DiscoveryLive DiscoveryProgress WatchFacts.

Local Open Scope list_scope.

Definition leaving (p : wpc) : bool := match p with WBlocked | WClosing | WEnded => true | _ => false end.

(** What a step does to a watch. *)
Record wrel (s s' : dstate) (lb : dlabel) (ev : list dev) (w : nat) (x y : watch) : Prop := WRel {
  wr_cfg : wt_cfg y = wt_cfg x;
  wr_next : wt_next y = wt_next x /\ (wt_pc y <> WStart -> wt_pc x <> WStart) \/ (wt_next y <= d_now s + update_interval (wt_cfg x))%Z;
  wr_cancel : wt_cancelled y = true -> wt_cancelled x = true \/ lb = LWCancel w;
  wr_leave : leaving (wt_pc y) = true -> leaving (wt_pc x) = true \/ wt_cancelled x = true \/ exists id r, DOp (ByWatch w) (OForget id) r ∈ ev;
  wr_end : DWatchEnd w ∈ ev -> leaving (wt_pc x) = true;
}.

Lemma wrel_same s s' lb ev w x : (DWatchEnd w ∉ ev) -> wrel s s' lb ev w x x.
Proof. intros H. split; auto. Qed.

Lemma call_no_end c o s s' ev w : call c o s = Some (s', ev) -> DWatchEnd w ∉ ev /\ exists r, DOp c o r ∈ ev.
Proof.
  intros Hc. destruct (call_called _ _ _ _ _ Hc) as [m r n Hh He _ Hn].
  destruct n as [[k' x']|]; [destruct Hn as [(_ & _ & _ & ->)|(_ & _ & _ & ->)]|destruct Hn as (_ & _ & ->)]; (split; [|exists r; left]);
    rewrite ?elem_of_cons, elem_of_nil; naive_solver.
Qed.

Lemma watch_rel s w x lb s' ev : watch_step s w x lb = Some (s', ev) -> label_of lb = Some w -> d_watches s !! w = Some x ->
  d_now s' = d_now s /\ forall j y, d_watches s' !! j = Some y -> exists z, d_watches s !! j = Some z /\ wrel s s' lb ev j z y.
Proof.
  intros H Hl Hx.
  assert (forall y ev', Some (upd_watch w (fun _ => y) s, ev') = Some (s', ev) -> (forall j, DWatchEnd j ∈ ev' -> j = w) -> wrel s s' lb ev w x y ->
    d_now s' = d_now s /\ forall j y, d_watches s' !! j = Some y -> exists z, d_watches s !! j = Some z /\ wrel s s' lb ev j z y) as Hput.
  { intros y ev' [= <- <-] He Hrel. split; [done|]. intros j z Hz. rewrite upd_lookup in Hz. case_decide as Ej.
    - subst j. rewrite Hx in Hz. injection Hz as <-. by exists x.
    - exists z. split; [done|]. apply wrel_same. intros Hin. by apply Ej, He. }
  assert (forall o, call (ByWatch w) o s = Some (s', ev) -> (match wt_pc x with WSeen _ _ => exists id n, o = OSeen id n | WForget => exists id, o = OForget id | _ => False end) ->
    d_now s' = d_now s /\ forall j y, d_watches s' !! j = Some y -> exists z, d_watches s !! j = Some z /\ wrel s s' lb ev j z y) as Hcall.
  { intros o Hc Ho. destruct (call_watches _ _ _ _ _ Hc) as (Ew & En & _ & Hcw). split; [done|]. intros j z Hz. rewrite Ew, alter_lookup in Hz.
    assert (forall k, DWatchEnd k ∉ ev) as Hne by (intros k; by apply (call_no_end _ _ _ _ _ k Hc)). destruct (call_no_end _ _ _ _ _ 0 Hc) as [_ [r Hr]].
    case_decide as Ej; [|exists z; split; [done|by apply wrel_same]]. subst j. rewrite Hx in Hz. injection Hz as <-. exists x. split; [done|].
    destruct (wt_pc x) eqn:Ep; try done.
    - destruct Ho as (id & n' & ->). destruct (d_held s') as [[[c' k'] x']|] eqn:Eh; [by destruct (Hcw _ _ _ eq_refl) as [_ []]|].
      split; cbn; try done; [left; split; [done|by rewrite Ep]|by left|by intros ?%Hne].
    - destruct Ho as (id & ->). destruct (d_held s') eqn:Eh; (split; cbn; try done; [left; split; [done|by rewrite Ep]|by left|by eauto|by intros ?%Hne]). }
  unfold watch_step in H. destruct lb; try done; injection Hl as ->; destruct (wt_pc x) eqn:Ep; try done.
  Ltac own_case Hput H Ep := eapply Hput; [exact H| |]; [intros ?; rewrite ?elem_of_cons, ?elem_of_nil; naive_solver|
    injection H as <- <-; split; cbn; rewrite ?Ep; try done; try (left; by split); try (right; lia); try (by auto); try (rewrite ?elem_of_cons, ?elem_of_nil; naive_solver)].
  all: try (own_case Hput H Ep; fail).
  all: try (destruct (wt_pend x !! k); [own_case Hput H Ep|done]; fail).
  all: try (destruct (wt_fire x) as [tf|]; [destruct (tf <=? d_now s)%Z; [own_case Hput H Ep|done]|done]; fail).
  all: try (destruct (wt_next x <=? d_now s)%Z eqn:El; [apply Z.leb_le in El; own_case Hput H Ep|done]; fail).
  - destruct (wt_chan x); [|done]. destruct (newer x); own_case Hput H Ep.
  - destruct (wt_tick x); [|done]. destruct (newer x); own_case Hput H Ep.
  - eapply Hcall; [exact H|eauto].
  - destruct (negb tick || (0 <? w_timeout (wt_cfg x))%Z); [destruct tick; [destruct (wt_fire x); [|destruct (wt_chan x)]|]|]; own_case Hput H Ep.
  - eapply Hcall; [exact H|eauto].
  - destruct (wt_cancelled x) eqn:Ec; [|done]. own_case Hput H Ep.
Qed.

Lemma step_rel s lb s' ev : blocked_inv s -> dstep s lb = Some (s', ev) ->
  (d_now s <= d_now s')%Z /\ forall w y, d_watches s' !! w = Some y ->
    (exists z, d_watches s !! w = Some z /\ wrel s s' lb ev w z y) \/ exists c, y = new_watch c /\ DWatchEnd w ∉ ev.
Proof.
  intros Hb H. destruct (step_moves _ _ _ _ Hb H) as (Hn & _ & Hm). split; [done|]. intros w y Hy.
  destruct (label_of lb) as [v|] eqn:El.
  - left. assert (match d_watches s !! v with Some x => watch_step s v x lb | None => None end = Some (s', ev)) as H2.
    { unfold dstep in H. destruct (d_crashed s); [done|]. by destruct lb; try done; injection El as <-. }
    destruct (d_watches s !! v) as [x|] eqn:Ex; [|done]. destruct (watch_rel _ _ _ _ _ _ H2 El Ex) as [_ Hr]. by apply Hr.
  - assert (DWatchEnd w ∉ ev) as Hne.
    { clear Hm Hb. unfold dstep in H. destruct (d_crashed s); [done|].
      assert (forall c o, call c o s = Some (s', ev) -> DWatchEnd w ∉ ev) as Hcall by (intros c o Hc; by apply (call_no_end _ _ _ _ _ w Hc)).
      destruct lb; try done; try (by eapply Hcall); repeat case_match; try done; try (by eapply Hcall); simplify_eq; try (unfold run_msg in *; repeat case_match; simplify_eq);
        rewrite ?elem_of_cons, ?elem_of_nil; naive_solver. }
    assert (d_watches s' = d_watches s -> (exists z, d_watches s !! w = Some z /\ wrel s s' lb ev w z y) \/ exists c, y = new_watch c /\ DWatchEnd w ∉ ev) as Hsame.
    { intros E. rewrite E in Hy. left. exists y. split; [done|]. by apply wrel_same. }
    clear Hm. unfold dstep in H. destruct (d_crashed s); [done|].
    assert (forall c o, match c with ByWatch _ => False | _ => True end -> call c o s = Some (s', ev) -> d_watches s' = d_watches s) as Hcall.
    { intros c o Hc Hx. destruct (call_watches _ _ _ _ _ Hx) as (Hw & _). by destruct c. }
    destruct lb; try done.
    + destruct (0 <=? dt)%Z; [|done]. injection H as <- <-. by apply Hsame.
    + destruct o; try done; by eapply Hsame, Hcall with (2 := H).
    + destruct (d_held s) as [[[c k] x]|] eqn:Eh; [|done]. destruct (roomy s k) eqn:Er; [|done]. injection H as <- <-.
      set (s1 := ds_held _ _) in *. rewrite returns_watches in Hy, Hsame. assert (d_watches s1 = d_watches s) as E1 by (by destruct k). rewrite E1 in Hy, Hsame.
      destruct c; try (by apply Hsame). rewrite alter_lookup in Hy. destruct (decide (w = w0)) as [->|Hw]; [|left; exists y; split; [done|by apply wrel_same]].
      destruct (Hb _ _ _ Eh) as (z & Hz & Hp). rewrite Hz in Hy. cbn [fmap option_fmap option_map] in Hy. rewrite Hp in Hy. injection Hy as <-.
      left. exists z. split; [done|]. split; cbn; try done; [left; split; [done|by rewrite Hp]|by left|rewrite Hp; by left].
    + destruct (d_run s); try done. injection H as <- <-. by apply Hsame.
    + destruct (d_run s); try done. injection H as H. unfold run_msg in H. open_step H; injection H as <- <-; by apply Hsame.
    + destruct (d_run s); try done. injection H as <- <-. by apply Hsame.
    + destruct (d_run s); try done. by eapply Hsame, Hcall with (2 := H).
    + injection H as <- <-. by apply Hsame.
    + destruct (d_hand s) eqn:Eh; try done. destruct (chan_of s k) as [|x q] eqn:Ec; [done|]. injection H as <- <-. apply Hsame. by destruct k.
    + destruct (d_hand s) eqn:Eh; try done. injection H as <- <-. by apply Hsame.
    + destruct (d_hand s) eqn:Eh; try done. destruct o; try done; injection H as <- <-; by apply Hsame.
    + destruct (d_hand s) eqn:Eh; try done. by eapply Hsame, Hcall with (2 := H).
    + destruct (d_hand s) eqn:Eh; try done. destruct (d_run s); try (destruct (d_cancelled s); [|done]); injection H as <- <-; by apply Hsame.
    + destruct (d_held s) eqn:Eh; [done|]. destruct (d_map s !! w_id c) eqn:Em; injection H as <- <-; [|by apply Hsame].
      cbn [ds_watches d_watches] in Hy. apply lookup_app_Some in Hy as [Hy|[Hle Hy]]; [left; exists y; split; [done|by apply wrel_same]|].
      apply list_lookup_singleton_Some in Hy as [_ <-]. right. by exists c.
Qed.

(** ** The invariants *)

Record wlive (ls : list dlabel) (s : dstate) (evs : list dev) : Prop := WLive {
  wl_blocked : blocked_inv s;
  wl_next : forall w y, d_watches s !! w = Some y -> wt_pc y <> WStart -> (wt_next y <= d_now s + update_interval (wt_cfg y))%Z;
  wl_cancel : forall w y, d_watches s !! w = Some y -> wt_cancelled y = true -> LWCancel w ∈ ls;
  wl_leave : forall w y, d_watches s !! w = Some y -> leaving (wt_pc y) = true -> LWCancel w ∈ ls \/ exists id r, DOp (ByWatch w) (OForget id) r ∈ evs;
  wl_end : forall w, DWatchEnd w ∈ evs -> LWCancel w ∈ ls \/ exists id r, DOp (ByWatch w) (OForget id) r ∈ evs;
}.

(** A watch that ends is there. *)
Lemma end_there s lb s' ev w : dstep s lb = Some (s', ev) -> DWatchEnd w ∈ ev -> exists y, d_watches s' !! w = Some y.
Proof.
  intros H Hin. unfold dstep in H. destruct (d_crashed s); [done|].
  assert (forall c o, call c o s = Some (s', ev) -> exists y, d_watches s' !! w = Some y) as Hcall.
  { intros c o Hc. destruct (call_no_end _ _ _ _ _ w Hc) as [Hno _]. by destruct (Hno Hin). }
  assert (forall v, label_of lb = Some v -> match d_watches s !! v with Some x => watch_step s v x lb | None => None end = Some (s', ev) -> exists y, d_watches s' !! w = Some y) as Hw.
  { intros v El H2. destruct (d_watches s !! v) as [x|] eqn:Ex; [|done].
    destruct (watch_own _ _ _ _ _ _ H2 El) as [(y & Ho & ->)|[(t & n & -> & Ep & Hc)|(-> & Ep & Hc)]]; [|by eapply Hcall|by eapply Hcall].
    assert (w = v) as ->.
    { destruct Ho; subst ev; rewrite ?elem_of_cons, ?elem_of_nil in Hin; naive_solver. }
    exists y. by rewrite upd_lookup, decide_True, Ex by done. }
  destruct lb; try (by eapply Hw); repeat case_match; try done; try (by eapply Hcall); simplify_eq; try (unfold run_msg in *; repeat case_match; simplify_eq);
    rewrite ?elem_of_cons, ?elem_of_nil in Hin; naive_solver.
Qed.

Lemma wlive_run now ls s evs : drun (d_init now) ls = Some (s, evs) -> wlive ls s evs.
Proof.
  intros Hr. apply (run_inv_rel dstep (fun s evs => wlive ls s evs) (d_init now) [] ls s evs) with (3 := Hr).
  - split; try done. by intros w ?%elem_of_nil.
  - intros s1 evs1 lb s2 ev [Hb H1 H2 H3 H4] Hin _ Hs.
    destruct (step_rel _ _ _ _ Hb Hs) as [Hn Hrel]. destruct (step_moves _ _ _ _ Hb Hs) as (_ & Hb2 & _).
    assert (forall w, (LWCancel w ∈ ls \/ exists id r, DOp (ByWatch w) (OForget id) r ∈ evs1) -> LWCancel w ∈ ls \/ exists id r, DOp (ByWatch w) (OForget id) r ∈ evs1 ++ ev) as Hmono.
    { intros w [?|(id & r & ?)]; [by left|right]. exists id, r. apply elem_of_app. by left. }
    split; [done| | | |].
    + intros w y Hy Hp. destruct (Hrel _ _ Hy) as [(z & Hz & [Ec [[En Hq]|Hle] _ _ _])|[c [-> Hno]]]; [| |done]; rewrite Ec; [|lia].
      rewrite En. specialize (H1 _ _ Hz (Hq Hp)). lia.
    + intros w y Hy Hc. destruct (Hrel _ _ Hy) as [(z & Hz & [_ _ Hca _ _])|[c [-> Hno]]]; [|done]. destruct (Hca Hc) as [?| ->]; [by eapply H2|done].
    + intros w y Hy Hl. destruct (Hrel _ _ Hy) as [(z & Hz & [_ _ _ Hle _])|[c [-> Hno]]]; [|done].
      destruct (Hle Hl) as [?|[Hc|(id & r & ?)]]; [by eapply Hmono, H3|left; by eapply H2|right]. exists id, r. apply elem_of_app. by right.
    + intros w [Hw|Hw]%elem_of_app; [by apply Hmono, H4|]. destruct (end_there _ _ _ _ _ Hs Hw) as [y Hy].
      destruct (Hrel _ _ Hy) as [(z & Hz & [_ _ _ _ Hend])|[c [-> Hno]]]; [by eapply Hmono, H3; eauto|]. by destruct (Hno Hw).
Qed.

Lemma ends_because now ls s evs w : drun (d_init now) ls = Some (s, evs) -> DWatchEnd w ∈ evs ->
  LWCancel w ∈ ls \/ exists id r, DOp (ByWatch w) (OForget id) r ∈ evs.
Proof. intros Hr. apply (wl_end _ _ _ (wlive_run _ _ _ _ Hr)). Qed.

(** ** Activity shows *)

Lemma seen_shows s w y n t : d_watches s !! w = Some y -> wt_pc y = WSeen t n -> d_crashed s = false -> d_held s = None ->
  exists s' evs', drun s [LWSeen w] = Some (s', evs') /\ d_now s' = d_now s /\
    forall x, d_map s !! w_id (wt_cfg y) = Some x -> exists x', d_map s' !! w_id (wt_cfg y) = Some x' /\ ds_info x' = ds_info x /\ (n <= ds_seen x')%Z.
Proof.
  intros Hy Ep Hcr Hh. rewrite run_one. unfold dstep. rewrite Hcr, Hy. unfold watch_step. rewrite Ep.
  assert (exists s' ev, call (ByWatch w) (OSeen (w_id (wt_cfg y)) n) s = Some (s', ev)) as (s' & ev & Hc).
  { unfold call. rewrite Hh. cbn [effect]. destruct (d_map s !! w_id (wt_cfg y)); eauto. }
  rewrite Hc. exists s', ev. split; [done|]. split; [by destruct (call_watches _ _ _ _ _ Hc) as (_ & -> & _)|].
  intros x Hx. destruct (call_called _ _ _ _ _ Hc) as [m r nt _ He Em _]. rewrite Em. cbn [effect] in He. rewrite Hx in He. injection He as <- _ _.
  destruct (ds_seen x <? n)%Z eqn:E; [rewrite lookup_insert; eexists; split; [done|cbn; split; [done|lia]]|].
  apply Z.ltb_ge in E. by exists x.
Qed.

Lemma tick_shows s w y n : d_watches s !! w = Some y -> wt_pc y = WSelect -> wt_tick y = true -> newer y = Some n -> d_crashed s = false -> d_held s = None ->
  exists s' evs', drun s [LWTakeTick w; LWSeen w] = Some (s', evs') /\ d_now s' = d_now s /\
    forall x, d_map s !! w_id (wt_cfg y) = Some x -> exists x', d_map s' !! w_id (wt_cfg y) = Some x' /\ ds_info x' = ds_info x /\ (n <= ds_seen x')%Z.
Proof.
  intros Hy Ep Ht Hn Hcr Hh.
  assert (exists y1, dstep s (LWTakeTick w) = Some (upd_watch w (fun _ => y1) s, []) /\ wt_pc y1 = WSeen true n /\ wt_cfg y1 = wt_cfg y) as (y1 & H1 & Ep1 & Ec1).
  { unfold dstep. rewrite Hcr, Hy. unfold watch_step. rewrite Ep, Ht, Hn. eexists. split; [reflexivity|done]. }
  destruct (seen_shows (upd_watch w (fun _ => y1) s) w y1 n true) as (s' & evs' & Hr & Hnow & Hx); try done.
  { by rewrite upd_lookup, decide_True, Hy by done. }
  exists s', evs'. split; [|split; [done|by rewrite <- Ec1]].
  change [LWTakeTick w; LWSeen w] with ([LWTakeTick w] ++ [LWSeen w]). by rewrite run_app, run_one, H1, Hr.
Qed.

Lemma newer_is y n : wt_last y = Some n -> (forall p, wt_prev y = Some p -> (p < n)%Z) -> newer y = Some n.
Proof. intros H1 H2. unfold newer. rewrite H1. destruct (wt_prev y) as [p|]; [|done]. by rewrite (proj2 (Z.ltb_lt _ _)) by eauto. Qed.

Lemma activity_shows now ls s evs w y n : drun (d_init now) ls = Some (s, evs) -> d_watches s !! w = Some y -> wt_pc y = WSelect ->
  last (acts w evs) = Some n -> (forall p, wt_prev y = Some p -> (p < n)%Z) -> d_crashed s = false -> d_held s = None ->
  exists dt ls' s' evs', (0 <= dt <= if (w_update (wt_cfg y) <=? 0)%Z then 1000000000 else w_update (wt_cfg y))%Z /\
    (ls' = [LDTime dt; LWTick w; LWTakeTick w; LWSeen w] \/ ls' = [LDTime dt; LWTakeTick w; LWSeen w]) /\
    drun s ls' = Some (s', evs') /\ d_now s' = (d_now s + dt)%Z /\
    forall x, d_map s !! w_id (wt_cfg y) = Some x -> exists x', d_map s' !! w_id (wt_cfg y) = Some x' /\ ds_info x' = ds_info x /\ (n <= ds_seen x')%Z.
Proof.
  intros Hr Hy Ep Hla Hp Hcr Hh. destruct (watch_run _ _ _ _ Hr) as (_ & _ & Hw). pose proof (Hw _ _ Hy) as Hi.
  assert (newer y = Some n) as Hn by (apply newer_is; [by rewrite (wi_last _ _ _ _ Hi)|done]).
  fold (update_interval (wt_cfg y)).
  assert (0 < update_interval (wt_cfg y))%Z as Hpos by (unfold update_interval; destruct (w_update (wt_cfg y) <=? 0)%Z eqn:E; [done|by apply Z.leb_gt in E]).
  pose proof (wl_next _ _ _ (wlive_run _ _ _ _ Hr) _ _ Hy) as Hnx. rewrite Ep in Hnx. specialize (Hnx ltac:(done)).
  assert (forall dt, (0 <= dt)%Z -> exists s1, dstep s (LDTime dt) = Some (s1, []) /\ d_watches s1 = d_watches s /\ d_map s1 = d_map s /\ d_now s1 = (d_now s + dt)%Z /\ d_crashed s1 = false /\ d_held s1 = None) as Htime.
  { intros dt Hdt. unfold dstep. rewrite Hcr, (proj2 (Z.leb_le _ _)) by lia. eexists. split; [reflexivity|done]. }
  destruct (wt_tick y) eqn:Et.
  - destruct (Htime 0%Z) as (s1 & H1 & Ew & Em & En & Hc1 & Hh1); [lia|]. rewrite <- Ew in Hy.
    destruct (tick_shows s1 w y n) as (s' & evs' & Hrun & Hnow & Hx); try done.
    exists 0%Z, [LDTime 0; LWTakeTick w; LWSeen w], s', evs'. split; [lia|]. split; [by right|]. split; [|split; [by rewrite Hnow, En|by rewrite <- Em]].
    change [LDTime 0; LWTakeTick w; LWSeen w] with ([LDTime 0] ++ [LWTakeTick w; LWSeen w]). by rewrite run_app, run_one, H1, Hrun.
  - set (dt := Z.max 0 (wt_next y - d_now s)). destruct (Htime dt) as (s1 & H1 & Ew & Em & En & Hc1 & Hh1); [lia|]. rewrite <- Ew in Hy.
    assert (exists y1, dstep s1 (LWTick w) = Some (upd_watch w (fun _ => y1) s1, []) /\ wt_pc y1 = WSelect /\ wt_cfg y1 = wt_cfg y /\ wt_tick y1 = true /\ newer y1 = Some n) as (y1 & H2 & Ep1 & Ec1 & Et1 & Hn1).
    { unfold dstep. rewrite Hc1, Hy. unfold watch_step. rewrite Ep, (proj2 (Z.leb_le _ _)) by lia. eexists. split; [reflexivity|done]. }
    destruct (tick_shows (upd_watch w (fun _ => y1) s1) w y1 n) as (s' & evs' & Hrun & Hnow & Hx); try done.
    { by rewrite upd_lookup, decide_True, Hy by done. }
    exists dt, [LDTime dt; LWTick w; LWTakeTick w; LWSeen w], s', evs'. split; [lia|]. split; [by left|]. split; [|split; [by rewrite Hnow, <- En|]].
    + change [LDTime dt; LWTick w; LWTakeTick w; LWSeen w] with ([LDTime dt] ++ [LWTick w] ++ [LWTakeTick w; LWSeen w]). rewrite run_app, run_one, H1, run_app, run_one, H2, Hrun. done.
    + rewrite <- Em, <- Ec1. exact Hx.
Qed.
