(** Discovery: what a watch does, what changes a source, deadlock and progress,
    bad messages. *)
From Coq Require Import ZArith NArith Ascii String Lia.
From stdpp Require Import base gmap strings list sorting.
From Verif Require Import GoBase Encoding Records Messages Run Keepalive Discovery DiscoveryFacts.

Local Open Scope list_scope.

(** ** A watch's own steps *)

Inductive own (now : Z) (w : nat) (x y : watch) (lb : dlabel) (ev : list dev) : Prop :=
  | o_start : lb = LWStart w -> wt_pc x = WStart ->
      y = Watch (wt_cfg x) WLook (wt_last x) (wt_pend x) None
            (if (0 <? w_timeout (wt_cfg x))%Z then Some (now + (w_grace (wt_cfg x) + w_timeout (wt_cfg x)))%Z else None) false
            (now + update_interval (wt_cfg x)) false (wt_cancelled x) -> ev = [DStart w now] -> own now w x y lb ev
  | o_look : lb = LWLook w -> wt_pc x = WLook ->
      y = Watch (wt_cfg x) WSelect (wt_last x) (wt_pend x) (newer x) (wt_fire x) (wt_chan x) (wt_next x) (wt_tick x) (wt_cancelled x) ->
      ev = [DLook w now] -> own now w x y lb ev
  | o_now : lb = LActNow w ->
      y = Watch (wt_cfg x) (wt_pc x) (wt_last x) (wt_pend x ++ [now]) (wt_prev x) (wt_fire x) (wt_chan x) (wt_next x) (wt_tick x) (wt_cancelled x) ->
      ev = [] -> own now w x y lb ev
  | o_store k ts : lb = LActStore w k -> wt_pend x !! k = Some ts ->
      y = Watch (wt_cfg x) (wt_pc x) (Some ts) (take k (wt_pend x) ++ drop (S k) (wt_pend x)) (wt_prev x) (wt_fire x) (wt_chan x) (wt_next x) (wt_tick x)
            (wt_cancelled x) -> ev = [DAct w ts] -> own now w x y lb ev
  | o_fire t : lb = LWFire w -> wt_fire x = Some t -> (t <= now)%Z ->
      y = Watch (wt_cfg x) (wt_pc x) (wt_last x) (wt_pend x) (wt_prev x) None true (wt_next x) (wt_tick x) (wt_cancelled x) ->
      ev = [] -> own now w x y lb ev
  | o_tick b : y = Watch (wt_cfg x) (wt_pc x) (wt_last x) (wt_pend x) (wt_prev x) (wt_fire x) (wt_chan x) (wt_next y) b (wt_cancelled y) ->
      ev = [] -> own now w x y lb ev
  | o_seen tick n : wt_pc x = WSelect -> newer x = Some n -> (tick = false -> wt_chan x = true) ->
      y = Watch (wt_cfg x) (WSeen tick n) (wt_last x) (wt_pend x) (wt_prev x) (wt_fire x) (if tick then wt_chan x else false) (wt_next x) (wt_tick y)
            (wt_cancelled x) -> ev = [] -> own now w x y lb ev
  | o_decide : lb = LWTakeTimer w -> wt_pc x = WSelect -> wt_chan x = true -> newer x = None ->
      y = Watch (wt_cfg x) WForget (wt_last x) (wt_pend x) (wt_prev x) (wt_fire x) false (wt_next x) (wt_tick x) (wt_cancelled x) ->
      ev = [DDecide w now] -> own now w x y lb ev
  | o_reset tick n : lb = LWReset w -> wt_pc x = WReset tick n -> (tick = true -> (0 < w_timeout (wt_cfg x))%Z) ->
      (tick = true -> wt_fire x = None -> wt_chan x = true) ->
      y = Watch (wt_cfg x) WSelect (wt_last x) (wt_pend x) (Some n) (Some (now + w_timeout (wt_cfg x))%Z)
            (if tick then match wt_fire x with Some _ => wt_chan x | None => false end else wt_chan x) (wt_next x) (wt_tick x) (wt_cancelled x) ->
      ev = [DReset w now] -> own now w x y lb ev
  | o_noreset n : lb = LWReset w -> wt_pc x = WReset true n -> (w_timeout (wt_cfg x) <= 0)%Z ->
      y = Watch (wt_cfg x) WSelect (wt_last x) (wt_pend x) (Some n) (wt_fire x) (wt_chan x) (wt_next x) (wt_tick x) (wt_cancelled x) ->
      ev = [] -> own now w x y lb ev
  | o_stuck n : lb = LWReset w -> wt_pc x = WReset true n -> wt_fire x = None -> wt_chan x = false -> (0 < w_timeout (wt_cfg x))%Z ->
      y = w_goto WStuck x -> ev = [] -> own now w x y lb ev
  | o_ctx : lb = LWCtx w -> wt_pc x = WSelect -> y = w_goto WClosing x -> ev = [] -> own now w x y lb ev
  | o_end : lb = LWEnd w -> wt_pc x = WClosing ->
      y = Watch (wt_cfg x) WEnded (wt_last x) (wt_pend x) (wt_prev x) None (wt_chan x) (wt_next x) (wt_tick x) (wt_cancelled x) ->
      ev = [DWatchEnd w] -> own now w x y lb ev.

(** The label is one of watch [w]. *)
Definition label_of (lb : dlabel) : option nat :=
  match lb with
  | LWStart w | LWLook w | LActNow w | LActStore w _ | LWFire w | LWTick w | LWTakeTimer w | LWTakeTick w
  | LWSeen w | LWReset w | LWForget w | LWCancel w | LWCtx w | LWEnd w => Some w
  | _ => None
  end.

Lemma watch_own s w x lb s' ev : watch_step s w x lb = Some (s', ev) -> label_of lb = Some w ->
  (exists y, own (d_now s) w x y lb ev /\ s' = upd_watch w (fun _ => y) s) \/
  (exists t n, lb = LWSeen w /\ wt_pc x = WSeen t n /\ call (ByWatch w) (OSeen (w_id (wt_cfg x)) n) s = Some (s', ev)) \/
  (lb = LWForget w /\ wt_pc x = WForget /\ call (ByWatch w) (OForget (w_id (wt_cfg x))) s = Some (s', ev)).
Proof.
  unfold watch_step. intros H Hl.
  destruct lb; try done; injection Hl as ->; destruct (wt_pc x) eqn:Ep; try done.
  all: try (right; right; done).
  all: try (right; left; eexists _, _; split; [done|]; split; [reflexivity|exact H]).
  all: left; open_step H; injection H as <- <-; eexists; (split; [|reflexivity]).
  all: try (eapply o_start; [done|done| |done]; match goal with H : (0 <? _)%Z = _ |- _ => by rewrite H end).
  all: try (eapply o_look; done).
  all: try (eapply o_now; [done|by rewrite Ep|done]).
  all: try (eapply o_store; [done|eassumption|by rewrite Ep|done]).
  all: try (eapply o_fire; [done|eassumption|by apply Z.leb_le|by rewrite Ep|done]).
  all: try (eapply (o_seen _ _ _ _ _ _ false); done).
  all: try (eapply (o_seen _ _ _ _ _ _ true); done).
  all: try (eapply o_decide; done).
  all: try (eapply o_tick; [by rewrite Ep|done]).
  all: try (eapply o_ctx; done).
  all: try (eapply o_end; done).
  all: try match goal with H : negb ?t || _ = false |- _ => destruct t; [cbn in H|done] end.
  all: try (eapply (o_noreset _ _ _ _ _ _ n); [done|done|by apply Z.ltb_ge|done|done]).
  all: try (eapply (o_stuck _ _ _ _ _ _ n); [done|done|done|done|by apply Z.ltb_lt|done|done]).
  all: match goal with E : wt_pc _ = WReset ?b _ |- _ => eapply (o_reset _ _ _ _ _ _ b n) end; try done.
  all: try (intros _; by apply Z.ltb_lt).
  all: try (by intros _ ?; congruence).
  all: try (repeat match goal with H : wt_fire _ = _ |- _ => rewrite H end; done).
Qed.

(** ** One step, seen from one watch *)

(** Events of watch [w], other than its calls and its end. *)
Definition of_watch (w : nat) (e : dev) : bool :=
  match e with DStart j _ | DLook j _ | DAct j _ | DReset j _ | DDecide j _ => bool_decide (j = w) | _ => false end.
Definition about (w : nat) (evs : list dev) : list dev := List.filter (of_watch w) evs.

Lemma about_app w a b : about w (a ++ b) = about w a ++ about w b.
Proof. apply List.filter_app. Qed.

Definition new_watch (c : wcfg) : watch := Watch c WStart None [] None None false 0 false false.

Inductive moves (s s' : dstate) (w : nat) (y : watch) (lb : dlabel) (ev : list dev) : Prop :=
  | m_same : d_watches s !! w = Some y -> about w ev = [] -> moves s s' w y lb ev
  | m_new c : lb = LWatch c -> w = length (d_watches s) -> y = new_watch c -> is_Some (d_map s !! w_id c) -> ev = [DWatch w (w_id c)] -> moves s s' w y lb ev
  | m_own x : d_watches s !! w = Some x -> own (d_now s) w x y lb ev -> d_now s' = d_now s -> moves s s' w y lb ev
  | m_seen x t n : d_watches s !! w = Some x -> wt_pc x = WSeen t n -> y = w_goto (WReset t n) x -> lb = LWSeen w -> about w ev = [] -> moves s s' w y lb ev
  | m_forget x p : d_watches s !! w = Some x -> p = WClosing \/ p = WBlocked -> y = w_goto p x -> about w ev = [] -> 
      (lb = LWForget w /\ wt_pc x = WForget) \/ lb = LUnblock /\ wt_pc x = WBlocked /\ p = WClosing -> moves s s' w y lb ev.

Definition blocked_inv (s : dstate) : Prop :=
  forall w k x, d_held s = Some (ByWatch w, k, x) -> exists y, d_watches s !! w = Some y /\ wt_pc y = WBlocked.

Lemma upd_lookup w f s j : d_watches (upd_watch w f s) !! j = if decide (j = w) then f <$> d_watches s !! w else d_watches s !! j.
Proof.
  cbn. destruct (decide (j = w)) as [->|Hne]; [apply list_lookup_alter|by apply list_lookup_alter_ne].
Qed.

Lemma returns_watches c s : d_watches (returns_to c s) =
  match c with ByWatch w => alter (fun x => match wt_pc x with WSeen t n => w_goto (WReset t n) x | _ => w_goto WClosing x end) w (d_watches s) | _ => d_watches s end.
Proof. destruct c; cbn; try done. by destruct (d_hand s). Qed.
Lemma blocks_watches c s : d_watches (blocks_in c s) = match c with ByWatch w => alter (w_goto WBlocked) w (d_watches s) | _ => d_watches s end.
Proof. destruct c; cbn; try done. by destruct (d_hand s). Qed.

(** The watches after a call. *)
Lemma call_watches c o s s' ev : call c o s = Some (s', ev) ->
  d_watches s' = match c with
    | ByWatch w => alter (fun x =>
        if d_held s' then w_goto WBlocked x
        else match wt_pc x with WSeen t n => w_goto (WReset t n) x | _ => w_goto WClosing x end) w (d_watches s)
    | _ => d_watches s end /\ d_now s' = d_now s /\ (forall w, about w ev = []) /\
  (forall c' k x, d_held s' = Some (c', k, x) -> c' = c /\ match o with OSeen _ _ | OGet _ | OList _ => False | _ => True end).
Proof.
  unfold call. destruct (d_held s) eqn:Eh; [done|]. destruct (effect _ _ _) as [[[m r] [[k x]|]]|] eqn:Ee; [| |done].
  - assert (match o with OSeen _ _ | OGet _ | OList _ => False | _ => True end) as Ho.
    { destruct o as [| |id|l| |id t]; try done; cbn in Ee; [by destruct (bool_decide _)|by destruct (_ !! _)]. }
    destruct (roomy s k) eqn:Er; intros H; injection H as <- <-.
    + set (s1 := set_chan k _ _). destruct (returns_core c s1) as [[_ _ _ Hh] [Hn _]]. rewrite Hh, Hn.
      assert (d_held s1 = None) as -> by (by destruct k). rewrite returns_watches.
      assert (d_watches s1 = d_watches s) as -> by (by destruct k). assert (d_now s1 = d_now s) as -> by (by destruct k). by destruct c.
    + set (s1 := ds_held _ _). destruct (blocks_core c s1) as [[_ _ _ Hh] [Hn _]]. rewrite Hh, Hn, blocks_watches. cbn [s1 ds_held d_held d_watches ds_map d_now].
      split; [by destruct c|]. split; [done|]. split; [done|]. by intros c' k' x' [= <- _ _].
  - intros H; injection H as <- <-.
    set (s1 := ds_map _ _). destruct (returns_core c s1) as [[_ _ _ Hh] [Hn _]]. rewrite Hh, Hn.
    assert (d_held s1 = None) as -> by done. rewrite returns_watches. split; [by destruct c|done].
Qed.

Lemma alter_lookup {A} (f : A -> A) w (l : list A) j : alter f w l !! j = if decide (j = w) then f <$> l !! w else l !! j.
Proof. destruct (decide (j = w)) as [->|Hne]; [apply list_lookup_alter|by apply list_lookup_alter_ne]. Qed.

Lemma own_about now w x y lb ev j : own now w x y lb ev -> j <> w -> about j ev = [].
Proof. intros [ ] Hne; subst ev; try done; unfold about; cbn; by rewrite bool_decide_eq_false_2. Qed.

Lemma step_moves s lb s' ev : blocked_inv s -> dstep s lb = Some (s', ev) ->
  (d_now s <= d_now s')%Z /\ blocked_inv s' /\ forall w y, d_watches s' !! w = Some y -> moves s s' w y lb ev.
Proof.
  unfold dstep. intros Hb. destruct (d_crashed s); [done|]. intros H.
  (* a call not made by a watch *)
  assert (forall c o, match c with ByWatch _ => False | _ => True end -> call c o s = Some (s', ev) ->
    (d_now s <= d_now s')%Z /\ blocked_inv s' /\ forall w y, d_watches s' !! w = Some y -> moves s s' w y lb ev) as Hcall.
  { intros c o Hc Hx. destruct (call_watches _ _ _ _ _ Hx) as (Hw & -> & Ha & Hh).
    assert (d_watches s' = d_watches s) as -> by (by destruct c). split; [lia|]. split.
    - intros w k x E. destruct (Hh _ _ _ E) as [E2 _]. by subst c.
    - intros w y Hy. by apply m_same. }
  (* a step that leaves the watches *)
  assert (d_watches s' = d_watches s -> d_held s' = d_held s -> (d_now s <= d_now s')%Z -> (forall w, about w ev = []) ->
    (d_now s <= d_now s')%Z /\ blocked_inv s' /\ forall w y, d_watches s' !! w = Some y -> moves s s' w y lb ev) as Hleave.
  { intros Hw Hh Hn Ha. split; [done|]. split; [by unfold blocked_inv; rewrite Hw, Hh|]. rewrite Hw. intros w y Hy. by apply m_same. }
  assert (forall w, label_of lb = Some w -> match d_watches s !! w with Some x => watch_step s w x lb | None => None end = Some (s', ev) ->
    (d_now s <= d_now s')%Z /\ blocked_inv s' /\ forall w y, d_watches s' !! w = Some y -> moves s s' w y lb ev) as Hw.
  { intros w Hl Hx. destruct (d_watches s !! w) as [x|] eqn:Ex; [|done].
    destruct (watch_own _ _ _ _ _ _ Hx Hl) as [(y & Ho & ->)|[(t & n & -> & Ep & Hc)|(-> & Ep & Hc)]].
    - split; [cbn; lia|]. split.
      + intros v k z E. cbn in E. destruct (Hb _ _ _ E) as (u & Hu & Hp). rewrite upd_lookup. destruct (decide (v = w)) as [->|]; [|eauto].
        rewrite Ex. cbn. eexists. split; [done|]. assert (x = u) as -> by congruence.
        destruct Ho; subst; cbn; try congruence. match goal with H : y = _ |- _ => rewrite H; done end.
      + intros v z. rewrite upd_lookup. destruct (decide (v = w)) as [->|Hne].
        * rewrite Ex. intros [= <-]. by eapply m_own.
        * intros Hz. apply m_same; [done|]. by eapply own_about.
    - destruct (call_watches _ _ _ _ _ Hc) as (Hwt & -> & Ha & Hh). split; [lia|]. split.
      + intros v k z E. by destruct (Hh _ _ _ E) as [_ ?].
      + intros v z. rewrite Hwt, alter_lookup. destruct (decide (v = w)) as [->|Hne]; [|intros Hz; by apply m_same].
        rewrite Ex. cbn [fmap option_fmap option_map]. destruct (d_held s') as [[[c' k'] x']|] eqn:Eh; [by destruct (Hh _ _ _ eq_refl) as [_ ?]|].
        rewrite Ep. intros [= <-]. by eapply m_seen.
    - destruct (call_watches _ _ _ _ _ Hc) as (Hwt & -> & Ha & Hh). split; [lia|]. split.
      + intros v k z E. destruct (Hh _ _ _ E) as [E2 _]. injection E2 as ->. rewrite Hwt, alter_lookup, decide_True, Ex by done. rewrite E. cbn. eauto.
      + intros v z. rewrite Hwt, alter_lookup. destruct (decide (v = w)) as [->|Hne]; [|intros Hz; by apply m_same].
        rewrite Ex. cbn [fmap option_fmap option_map]. rewrite Ep. destruct (d_held s') eqn:Eh.
        * intros [= <-]. eapply (m_forget _ _ _ _ _ _ x WBlocked); eauto.
        * intros [= <-]. eapply (m_forget _ _ _ _ _ _ x WClosing); eauto. }
  destruct lb; try (eapply Hw; [reflexivity|exact H]).
  - destruct (0 <=? dt)%Z eqn:E; [|done]. apply Z.leb_le in E. injection H as <- <-. apply Hleave; try done. cbn. lia.
  - destruct o; try done; by eapply Hcall with (2 := H).
  - destruct (d_held s) as [[[c k] x]|] eqn:Eh; [|done]. destruct (roomy s k) eqn:Er; [|done]. injection H as <- <-.
    set (s1 := ds_held _ _) in *. destruct (returns_core c s1) as [[_ _ _ Hh] [Hn _]]. split; [rewrite Hn; destruct k; cbn; lia|]. split.
    + intros w' k' x'. rewrite Hh. by destruct k.
    + intros w y. rewrite returns_watches. assert (d_watches s1 = d_watches s) as -> by (by destruct k).
      destruct c; try (intros Hy; by apply m_same). rewrite alter_lookup. destruct (decide (w = w0)) as [->|Hne]; [|intros Hy; by apply m_same].
      destruct (Hb _ _ _ Eh) as (z & Hz & Hp). rewrite Hz. cbn [fmap option_fmap option_map]. rewrite Hp. intros [= <-].
      eapply (m_forget _ _ _ _ _ _ z WClosing); eauto.
  - destruct (d_run s); try done. injection H as <- <-. apply Hleave; done || (cbn; lia).
  - destruct (d_run s); try done. injection H as H. unfold run_msg in H. open_step H; injection H as <- <-; (apply Hleave; done || (cbn; lia)).
  - destruct (d_run s); try done. injection H as <- <-. apply Hleave; done || (cbn; lia).
  - destruct (d_run s); try done. by eapply Hcall with (2 := H).
  - injection H as <- <-. apply Hleave; done || (cbn; lia).
  - destruct (d_hand s) eqn:Eh; try done. destruct (chan_of s k) as [|x q] eqn:Ec; [done|]. injection H as <- <-.
    apply Hleave; try done; destruct k; try done; cbn; lia.
  - destruct (d_hand s) eqn:Eh; try done. injection H as <- <-. apply Hleave; done || (cbn; lia).
  - destruct (d_hand s) eqn:Eh; try done. destruct o; try done; injection H as <- <-; (apply Hleave; done || (cbn; lia)).
  - destruct (d_hand s) eqn:Eh; try done. by eapply Hcall with (2 := H).
  - destruct (d_hand s) eqn:Eh; try done. destruct (d_run s); try (destruct (d_cancelled s); [|done]); injection H as <- <-; (apply Hleave; done || (cbn; lia)).
  - destruct (d_held s) eqn:Eh; [done|]. destruct (d_map s !! w_id c) eqn:Em; injection H as <- <-; [|by apply Hleave; done || (cbn; lia)].
    split; [cbn; lia|]. split; [unfold blocked_inv; cbn; by rewrite Eh|]. intros w y. cbn [ds_watches d_watches].
    intros [Hy|[Hle Hy]]%lookup_app_Some; [by apply m_same|]. apply list_lookup_singleton_Some in Hy as [E <-].
    assert (w = length (d_watches s)) as -> by lia. by eapply m_new.
Qed.

(** ** Watches and the clock *)

Definition opt_le (o : option Z) (t : Z) : Prop := match o with Some p => (p <= t)%Z | None => True end.
Record past (now : Z) (x : watch) : Prop := Past {
  pa_last : opt_le (wt_last x) now;
  pa_pend : Forall (fun t => (t <= now)%Z) (wt_pend x);
  pa_prev : opt_le (wt_prev x) now;
  pa_pc : match wt_pc x with WSeen _ n | WReset _ n => (n <= now)%Z | _ => True end;
}.

Lemma newer_last x n : newer x = Some n -> wt_last x = Some n.
Proof. unfold newer. destruct (wt_last x); [|done]. destruct (wt_prev x); [|done]. by destruct (_ <? _)%Z. Qed.

Lemma opt_le_mono o t t' : (t <= t')%Z -> opt_le o t -> opt_le o t'.
Proof. destruct o; cbn; [lia|done]. Qed.
Lemma past_mono now now' x : (now <= now')%Z -> past now x -> past now' x.
Proof.
  intros Hle [H1 H2 H3 H4]. split.
  - by eapply opt_le_mono.
  - eapply Forall_impl; [exact H2|]. cbn. lia.
  - by eapply opt_le_mono.
  - destruct (wt_pc x); try done; lia.
Qed.
Lemma past_goto now x p : past now x -> match p with WSeen _ n | WReset _ n => (n <= now)%Z | _ => True end -> past now (w_goto p x).
Proof. intros [H1 H2 H3 H4] Hp. by split. Qed.

Lemma past_own now w x y lb ev : past now x -> own now w x y lb ev -> past now y.
Proof.
  intros [H1 H2 H3 H4] Ho.
  assert (forall n, newer x = Some n -> (n <= now)%Z) as Hn by (intros n En; apply newer_last in En; by rewrite En in H1).
  destruct Ho; subst; try (match goal with H : y = _ |- _ => rewrite H end).
  all: split; cbn; try done.
  - destruct (newer x) as [n|] eqn:E; [by apply Hn|done].
  - apply Forall_app. split; [done|]. constructor; [lia|constructor].
  - by apply (Forall_lookup_1 _ _ _ _ H2 H0).
  - apply Forall_app. split; [by apply Forall_take|by apply Forall_drop].
  - by apply Hn.
  - by rewrite H0 in H4.
  - by rewrite H0 in H4.
Qed.

Definition past_inv (s : dstate) : Prop := blocked_inv s /\ forall w x, d_watches s !! w = Some x -> past (d_now s) x.

Lemma past_step s lb s' ev : past_inv s -> dstep s lb = Some (s', ev) -> past_inv s'.
Proof.
  intros [Hb Hp] Hs. destruct (step_moves _ _ _ _ Hb Hs) as (Hn & Hb' & Hm). split; [done|]. intros w y Hy.
  destruct (Hm _ _ Hy) as [Hx _|c _ _ -> _ _|x Hx Ho E|x t n Hx Ep -> _ _|x p Hx Hpc -> _ _].
  - eapply past_mono; [exact Hn|]. by eapply Hp.
  - split; cbn; done || constructor.
  - rewrite E. eapply past_own; [|done]. by eapply Hp.
  - eapply past_mono; [exact Hn|]. apply past_goto; [by eapply Hp|]. pose proof (pa_pc _ _ (Hp _ _ Hx)) as H. by rewrite Ep in H.
  - eapply past_mono; [exact Hn|]. apply past_goto; [by eapply Hp|]. by destruct Hpc as [-> | ->].
Qed.
Lemma past_run now ls s evs : drun (d_init now) ls = Some (s, evs) -> past_inv s.
Proof.
  intros Hr. apply (run_inv dstep (fun s _ => past_inv s) (fun _ => True) (d_init now) [] ls s evs) with (4 := Hr); [| |by apply Forall_true].
  - split; [|done]. by intros w k x [=].
  - intros s1 evs1 l s2 ev Hi _ Hs. by eapply past_step.
Qed.

(** ** What changes a source *)

(** The calls that may be made by a step. *)
Lemma step_call s lb s' ev : dstep s lb = Some (s', ev) ->
  (exists c o, call c o s = Some (s', ev) /\
     match c with
     | ByUser => lb = LUser o /\ (match o with OObserve _ | OSeen _ _ => False | _ => True end)
     | ByHandler => lb = LHandlerOp /\ exists k x, d_hand s = HWants k x o
     | ByRun => lb = LObserve /\ exists b, o = OObserve b /\ d_run s = RObserve b
     | ByWatch w => exists x, d_watches s !! w = Some x /\ (lb = LWSeen w /\ (exists t n, wt_pc x = WSeen t n /\ o = OSeen (w_id (wt_cfg x)) n) \/
                                lb = LWForget w /\ wt_pc x = WForget /\ o = OForget (w_id (wt_cfg x)))
     end) \/ d_map s' = d_map s /\ Forall idle_ev ev.
Proof.
  intros H. pose proof H as H0. unfold dstep in H. destruct (d_crashed s); [done|].
  assert (forall w, label_of lb = Some w -> match d_watches s !! w with Some x => watch_step s w x lb | None => None end = Some (s', ev) ->
    (exists o, call (ByWatch w) o s = Some (s', ev) /\ exists x, d_watches s !! w = Some x /\ (lb = LWSeen w /\ (exists t n, wt_pc x = WSeen t n /\ o = OSeen (w_id (wt_cfg x)) n) \/
                                lb = LWForget w /\ wt_pc x = WForget /\ o = OForget (w_id (wt_cfg x))))
    \/ d_map s' = d_map s /\ Forall idle_ev ev) as Hw.
  { intros w Hl Hx. destruct (d_watches s !! w) as [x|] eqn:Ex; [|done].
    destruct (watch_own _ _ _ _ _ _ Hx Hl) as [(y & Ho & ->)|[(t & n & -> & Ep & Hc)|(-> & Ep & Hc)]].
    - right. split; [done|]. destruct Ho; subst ev; by repeat constructor.
    - left. eauto 15.
    - left. eauto 15. }
  assert (forall w, label_of lb = Some w -> match d_watches s !! w with Some x => watch_step s w x lb | None => None end = Some (s', ev) ->
    (exists c o, call c o s = Some (s', ev) /\
     match c with
     | ByUser => lb = LUser o /\ (match o with OObserve _ | OSeen _ _ => False | _ => True end)
     | ByHandler => lb = LHandlerOp /\ exists k x, d_hand s = HWants k x o
     | ByRun => lb = LObserve /\ exists b, o = OObserve b /\ d_run s = RObserve b
     | ByWatch w => exists x, d_watches s !! w = Some x /\ (lb = LWSeen w /\ (exists t n, wt_pc x = WSeen t n /\ o = OSeen (w_id (wt_cfg x)) n) \/
                                lb = LWForget w /\ wt_pc x = WForget /\ o = OForget (w_id (wt_cfg x)))
     end) \/ d_map s' = d_map s /\ Forall idle_ev ev) as Hw2.
  { intros w Hl Hx. destruct (Hw w Hl Hx) as [(o & H1 & H2)|]; [left; exists (ByWatch w), o; done|by right]. }
  clear Hw. destruct lb; try (eapply Hw2; [reflexivity|exact H]); clear Hw2.
  - destruct (0 <=? dt)%Z; [|done]. injection H as <- <-. by right.
  - left. exists ByUser, o. by destruct o.
  - destruct (core_cases _ _ _ _ H0) as [c o Hc|c k x _ Hh Hr Em Hch Eh ->|k x q [=]|Hc HF].
    + unfold call in Hc. destruct (d_held s); [done|]. done.
    + right. split; [done|by repeat constructor].
    + right. split; [apply Hc|]. eapply Forall_impl; [exact HF|]. apply plain_idle.
  - destruct (d_run s); try done. injection H as <- <-. by right.
  - destruct (d_run s); try done. injection H as H. right. unfold run_msg in H. open_step H; injection H as <- <-; (split; [done|by repeat constructor]).
  - destruct (d_run s); try done. injection H as <- <-. right. split; [done|by repeat constructor].
  - destruct (d_run s) eqn:Er; try done. left. exists ByRun, (OObserve b). eauto.
  - injection H as <- <-. by right.
  - destruct (d_hand s) eqn:Eh; try done. destruct (chan_of s k) as [|x q] eqn:Ec; [done|]. injection H as <- <-. right.
    split; [by destruct k|by repeat constructor].
  - destruct (d_hand s) eqn:Eh; try done. injection H as <- <-. right. split; [done|by repeat constructor].
  - destruct (d_hand s) eqn:Eh; try done. destruct o; try done; injection H as <- <-; by right.
  - destruct (d_hand s) eqn:Eh; try done. left. exists ByHandler, o. eauto.
  - destruct (d_hand s) eqn:Eh; try done. destruct (d_run s); try (destruct (d_cancelled s); [|done]); injection H as <- <-; by right.
  - destruct (d_held s) eqn:Eh; [done|]. destruct (d_map s !! w_id c) eqn:Em; injection H as <- <-; right; (split; [done|by repeat constructor]).
Qed.

(** A handler calls nothing but the exported methods. *)
Definition hand_ok (s : dstate) : Prop := match d_hand s with HWants _ _ (OObserve _ | OSeen _ _) => False | _ => True end.

Lemma call_hand c o s s' ev : call c o s = Some (s', ev) ->
  d_hand s' = match c, d_hand s with
    | ByHandler, (HWants k x _ | HBlocked k x) => if d_held s' then match d_hand s with HWants k x _ => HBlocked k x | h => h end else HRunning k x
    | _, h => h end /\ d_crashed s' = d_crashed s /\ d_cancelled s' = d_cancelled s.
Proof.
  unfold call. destruct (d_held s) eqn:Eh; [done|]. destruct (effect _ _ _) as [[[m r] [[k x]|]]|] eqn:Ee; [| |done].
  - destruct (roomy s k) eqn:Er; intros H; injection H as <- <-.
    + set (s1 := set_chan k _ _). destruct (returns_core c s1) as [[_ _ _ Hh] [_ [Hcr Hca]]]. rewrite Hh, Hcr, Hca.
      assert (d_held s1 = None) as -> by (by destruct k). assert (d_hand s1 = d_hand s) as E1 by (by destruct k).
      split; [|by destruct k]. destruct c; cbn [returns_to]; rewrite ?E1; try done; by destruct (d_hand s).
    + set (s1 := ds_held _ _). destruct (blocks_core c s1) as [[_ _ _ Hh] [_ [Hcr Hca]]]. rewrite Hh, Hcr, Hca.
      split; [|done]. destruct c; cbn [blocks_in]; try done. unfold s1. cbn [d_hand ds_held ds_map]. destruct (d_hand s) eqn:E; done.
  - intros H; injection H as <- <-.
    set (s1 := ds_map _ _). destruct (returns_core c s1) as [[_ _ _ Hh] [_ [Hcr Hca]]]. rewrite Hh, Hcr, Hca.
    assert (d_held s1 = None) as -> by done. split; [|done]. destruct c; cbn [returns_to]; try done. unfold s1. cbn [d_hand ds_map]. destruct (d_hand s) eqn:E; done.
Qed.

Lemma hand_ok_step s lb s' ev : hand_ok s -> dstep s lb = Some (s', ev) -> hand_ok s'.
Proof.
  unfold hand_ok. intros Hi Hs.
  assert (forall c o, call c o s = Some (s', ev) -> hand_ok s') as Hcall.
  { intros c o Hc. destruct (call_hand _ _ _ _ _ Hc) as [E _]. unfold hand_ok. rewrite E. destruct c; try done. destruct (d_hand s); try done; by destruct (d_held s'). }
  assert (d_hand s' = d_hand s -> hand_ok s') as Hsame by (intros E; unfold hand_ok; by rewrite E).
  unfold dstep in Hs. destruct (d_crashed s); [done|].
  assert (forall w, label_of lb = Some w -> match d_watches s !! w with Some x => watch_step s w x lb | None => None end = Some (s', ev) -> hand_ok s') as Hw.
  { intros w Hl Hx. destruct (d_watches s !! w) as [x|] eqn:Ex; [|done].
    destruct (watch_own _ _ _ _ _ _ Hx Hl) as [(y & Ho & ->)|[(t & n & -> & Ep & Hc)|(-> & Ep & Hc)]]; try (by eapply Hcall); by apply Hsame. }
  destruct lb; try (eapply Hw; [reflexivity|exact Hs]); clear Hw.
  - destruct (0 <=? dt)%Z; [|done]. injection Hs as <- <-. by apply Hsame.
  - eapply Hcall. by destruct o.
  - destruct (d_held s) as [[[c k] x]|] eqn:Eh; [|done]. destruct (roomy s k) eqn:Er; [|done]. injection Hs as <- <-.
    destruct c; cbn [returns_to]; try (apply Hsame; by destruct k).
    assert (d_hand (ds_held None (set_chan k (chan_of s k ++ [x]) s)) = d_hand s) as E by (by destruct k). rewrite E.
    unfold hand_ok. destruct (d_hand s) eqn:Ed; try done; by rewrite ?E.
  - destruct (d_run s); try done. by injection Hs as <- <-.
  - destruct (d_run s); try done. injection Hs as H. apply Hsame. unfold run_msg in H. by open_step H; injection H as <- <-.
  - destruct (d_run s); try done. injection Hs as <- <-. by apply Hsame.
  - destruct (d_run s) eqn:Er; try done. by eapply Hcall.
  - injection Hs as <- <-. by apply Hsame.
  - destruct (d_hand s) eqn:Eh; try done. destruct (chan_of s k) as [|x q] eqn:Ec; [done|]. by injection Hs as <- <-.
  - destruct (d_hand s) eqn:Eh; try done. by injection Hs as <- <-.
  - destruct (d_hand s) eqn:Eh; try done. destruct o; try done; by injection Hs as <- <-.
  - destruct (d_hand s) eqn:Eh; try done. by eapply Hcall.
  - destruct (d_hand s) eqn:Eh; try done. destruct (d_run s); try (destruct (d_cancelled s); [|done]); by injection Hs as <- <-.
  - destruct (d_held s) eqn:Eh; [done|]. destruct (d_map s !! w_id c) eqn:Em; injection Hs as <- <-; by apply Hsame.
Qed.
Lemma hand_ok_run now ls s evs : drun (d_init now) ls = Some (s, evs) -> hand_ok s.
Proof.
  intros Hr. apply (run_inv dstep (fun s _ => hand_ok s) (fun _ => True) (d_init now) [] ls s evs) with (4 := Hr); [done| |by apply Forall_true].
  intros s1 evs1 l s2 ev Hi _ Hs. by eapply hand_ok_step.
Qed.

(** A known source that stays known: the details stay; the time changes only by
    a beacon or a watch for that identity. *)
Lemma stable_step now ls s evs lb s' ev id x y : drun (d_init now) ls = Some (s, evs) -> dstep s lb = Some (s', ev) ->
  d_map s !! id = Some x -> d_map s' !! id = Some y ->
  ds_info y = ds_info x /\
  (y = x \/ (lb = LObserve /\ (exists b, d_run s = RObserve b /\ bc_identity b = id) /\ ds_seen y = d_now s) \/
   (exists w v t n, lb = LWSeen w /\ d_watches s !! w = Some v /\ w_id (wt_cfg v) = id /\ wt_pc v = WSeen t n /\ ds_seen y = n /\ (ds_seen x < n)%Z)).
Proof.
  intros Hr Hs Hx Hy. pose proof (hand_ok_run _ _ _ _ Hr) as Hok.
  destruct (step_call _ _ _ _ Hs) as [(c & o & Hc & Hw)|[E _]].
  2: { rewrite E in Hy. assert (y = x) as -> by congruence. auto. }
  destruct (call_called _ _ _ _ _ Hc) as [m r n Hh He Em _]. rewrite Em in Hy. clear Em Hc.
  destruct o as [z|j|j|l|b|j t]; cbn [effect] in He.
  - destruct (d_map s !! i_id (ds_info z)) eqn:Ez; injection He as <- _ _; [assert (y = x) as -> by congruence; auto|].
    destruct (decide (id = i_id (ds_info z))) as [->|Hne]; [congruence|]. rewrite lookup_insert_ne in Hy by done. assert (y = x) as -> by congruence; auto.
  - destruct (d_map s !! j) eqn:Ez; injection He as <- _ _; [|assert (y = x) as -> by congruence; auto].
    destruct (decide (id = j)) as [->|Hne]; [by rewrite lookup_delete in Hy|]. rewrite lookup_delete_ne in Hy by done. assert (y = x) as -> by congruence; auto.
  - injection He as <- _ _. assert (y = x) as -> by congruence; auto.
  - destruct (bool_decide _); [|done]. injection He as <- _ _. assert (y = x) as -> by congruence; auto.
  - destruct (d_map s !! bc_identity b) eqn:Ez; injection He as <- _ _.
    + destruct (decide (id = bc_identity b)) as [->|Hne].
      * rewrite lookup_insert in Hy. injection Hy as <-. assert (d = x) as -> by congruence. split; [done|]. right; left.
        destruct c.
        -- by destruct Hw as [_ ?].
        -- destruct Hw as [_ (k & z & Eh)]. unfold hand_ok in Hok. by rewrite Eh in Hok.
        -- destruct Hw as [-> (b' & [= <-] & Hd)]. eauto 10.
        -- destruct Hw as (v & _ & [(_ & (? & ? & _ & [=]))|(_ & _ & [=])]).
      * rewrite lookup_insert_ne in Hy by done. assert (y = x) as -> by congruence; auto.
    + destruct (decide (id = bc_identity b)) as [->|Hne]; [congruence|]. rewrite lookup_insert_ne in Hy by done. assert (y = x) as -> by congruence; auto.
  - destruct (d_map s !! j) eqn:Ez; injection He as <- _ _; [|assert (y = x) as -> by congruence; auto].
    destruct (ds_seen d <? t)%Z eqn:El; [|assert (y = x) as -> by congruence; auto]. apply Z.ltb_lt in El.
    destruct (decide (id = j)) as [->|Hne]; [|rewrite lookup_insert_ne in Hy by done; assert (y = x) as -> by congruence; auto].
    rewrite lookup_insert in Hy. injection Hy as <-. assert (d = x) as -> by congruence. split; [done|]. right; right.
    destruct c.
    + by destruct Hw as [_ ?].
    + destruct Hw as [_ (k & z & Eh)]. unfold hand_ok in Hok. by rewrite Eh in Hok.
    + by destruct Hw as [_ (b' & [=] & Hd)].
    + destruct Hw as (v & Hv & [(-> & (t' & n' & Ep & [= -> ->]))|(_ & _ & [=])]). eauto 15.
Qed.

(** No source was added with a time of the future. *)
Definition honest (s0 : dstate) (ls : list dlabel) : Prop :=
  forall s l s' id y, transition dstep s0 ls s l s' -> d_map s !! id = None -> d_map s' !! id = Some y -> (ds_seen y <= d_now s')%Z.

Lemma seen_past now ls s evs : drun (d_init now) ls = Some (s, evs) -> honest (d_init now) ls -> forall id x, d_map s !! id = Some x -> (ds_seen x <= d_now s)%Z.
Proof.
  intros Hr Hh. revert evs s Hr. induction ls as [|l ls IH] using rev_ind; intros evs s Hr; [cbn [run] in Hr; assert (s = d_init now) as -> by congruence; done|].
  apply run_snoc in Hr as (s1 & ev1 & ev2 & H1 & H2 & ->).
  assert (honest (d_init now) ls) as Hh1.
  { intros a m b id y (l1 & l2 & e1 & e2 & -> & Ha & Hb). apply (Hh a m b id y). exists l1, (l2 ++ [l]), e1, e2. split; [|done]. by rewrite <- app_assoc. }
  specialize (IH Hh1 _ _ H1). destruct (past_run _ _ _ _ H1) as [Hb Hp]. destruct (step_moves _ _ _ _ Hb H2) as (Hn & _).
  intros id y Hy. destruct (d_map s1 !! id) as [x|] eqn:Ex.
  - destruct (stable_step _ _ _ _ _ _ _ _ _ _ H1 H2 Ex Hy) as [_ [->|[(_ & _ & ->)|(w & v & t & n & _ & Hv & _ & Ep & -> & _)]]].
    + specialize (IH _ _ Ex). lia.
    + done.
    + pose proof (pa_pc _ _ (Hp _ _ Hv)) as H. rewrite Ep in H. lia.
  - apply (Hh s1 l s id y); try done. exists ls, [], ev1, ev2. done.
Qed.

Lemma seen_mono now ls s evs lb s' ev id x y : drun (d_init now) ls = Some (s, evs) -> honest (d_init now) ls -> dstep s lb = Some (s', ev) ->
  d_map s !! id = Some x -> d_map s' !! id = Some y -> (ds_seen x <= ds_seen y)%Z.
Proof.
  intros Hr Hh Hs Hx Hy. destruct (stable_step _ _ _ _ _ _ _ _ _ _ Hr Hs Hx Hy) as [_ [->|[(_ & _ & ->)|(w & v & t & n & _ & _ & _ & _ & -> & Hl)]]]; [lia| |lia].
  by eapply seen_past.
Qed.
