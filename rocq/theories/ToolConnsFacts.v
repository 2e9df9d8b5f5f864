(** Proofs about the tool's connections (C105, C106). *)
From Coq Require Import ZArith NArith Ascii String Lia.
From stdpp Require Import base gmap strings list functions.
From Verif Require Import GoBase Encoding Records Messages Run Keepalive Discovery Collector Backoff BackoffFacts ToolConns.

Local Open Scope list_scope.

(** ** Specification *)

(** The sources whose discovery was taken up by the handler, and those for which
    a container was made, in order. *)
Definition taken_up (evs : list tev) : list string := omap (fun e => match e with TV (VD (DHandle Disc x)) => Some (i_id (ds_info x)) | _ => None end) evs.
Definition made_for (evs : list tev) : list string := omap (fun e => match e with TMade _ id => Some id | _ => None end) evs.

(** Container [i] was started, and has neither given up nor returned. *)
Definition runs (s : tstate) (i : nat) : Prop := s_phase (t_b s) i <> PNew /\ s_phase (t_b s) i <> PGaveUp /\ i ∉ t_ended s.
(** It has a session. *)
Definition connected (s : tstate) (i : nat) : Prop := s_phase (t_b s) i = PUp /\ i ∉ t_ended s.

(** The part of a history that is about containers (Backoff.v), and the part
    about discovery (Collector.v). *)
Fixpoint pacing (n : nat) (ls : list tlabel) : list label :=
  match ls with
  | [] => []
  | TStart :: ls => Start 0 :: pacing n ls
  | TMake :: ls => Start (S n) :: pacing (S n) ls
  | TNet lb :: ls => lb :: pacing n ls
  | TTime dt :: ls => Tick dt :: pacing n ls
  | _ :: ls => pacing n ls
  end.
Definition collecting (ls : list tlabel) : list vlabel :=
  omap (fun l => match l with TColl l => Some l | TTime dt => Some (VIn (LDTime dt)) | _ => None end) ls.

(** ** Projections *)

Definition paced (evs : list tev) : list event := omap (fun e => match e with TB e => Some e | _ => None end) evs.
Definition collected (evs : list tev) : list vev := omap (fun e => match e with TV e => Some e | _ => None end) evs.

Lemma paced_tb ev : paced (TB <$> ev) = ev.
Proof. induction ev as [|e ev IH]; [done|]. unfold paced in *. cbn. by f_equal. Qed.
Lemma paced_tv ev : paced (TV <$> ev) = [].
Proof. induction ev as [|e ev IH]; [done|]. exact IH. Qed.
Lemma collected_tv ev : collected (TV <$> ev) = ev.
Proof. induction ev as [|e ev IH]; [done|]. unfold collected in *. cbn. by f_equal. Qed.
Lemma collected_tb ev : collected (TB <$> ev) = [].
Proof. induction ev as [|e ev IH]; [done|]. exact IH. Qed.

(** What a step does. *)
Inductive tkind (s : tstate) (l : tlabel) (s2 : tstate) (ev : list tev) : Prop :=
  | KStart ev' : l = TStart -> t_up s = false -> tool_step (t_b s) (Start 0) = Some (t_b s2, ev') -> ev = TB <$> ev' ->
      s2 = TState (t_v s) (t_b s2) true (t_reg s) (t_of s) (t_made s) (t_stop s) (t_ended s) -> tkind s l s2 ev
  | KRegister : l = TRegister -> t_up s = true -> t_reg s = false -> ev = [] ->
      s2 = TState (t_v s) (t_b s) true true (t_of s) (t_made s) (t_stop s) (t_ended s) -> tkind s l s2 ev
  | KColl lv ev' m : l = TColl lv -> t_reg s = true -> passes_time lv = false -> (needs_stop lv = true -> t_stop s = true) ->
      vstep (t_v s) lv = Some (t_v s2, ev') -> ev = TV <$> ev' ->
      (lv = VBody /\ is_Some (about_to_watch (t_v s)) /\ t_made s = true /\ m = false \/ (lv = VBody -> about_to_watch (t_v s) = None) /\ m = t_made s) ->
      s2 = TState (t_v s2) (t_b s) (t_up s) (t_reg s) (t_of s) m (t_stop s) (t_ended s) -> tkind s l s2 ev
  | KMake id ev' : l = TMake -> about_to_watch (t_v s) = Some id -> t_made s = false -> tool_step (t_b s) (Start (S (length (t_of s)))) = Some (t_b s2, ev') ->
      ev = TMade (S (length (t_of s))) id :: (TB <$> ev') ->
      s2 = TState (t_v s) (t_b s2) (t_up s) (t_reg s) (t_of s ++ [id]) true (t_stop s) (t_ended s) -> tkind s l s2 ev
  | KNet lb i ev' : l = TNet lb -> acts lb = Some i -> i ∉ t_ended s -> tool_step (t_b s) lb = Some (t_b s2, ev') ->
      ev = (TB <$> ev') ++ (if on_errors (t_reg s) ev' then [TStops] else []) ->
      s2 = TState (t_v s) (t_b s2) (t_up s) (t_reg s) (t_of s) (t_made s) (t_stop s || on_errors (t_reg s) ev') (t_ended s) -> tkind s l s2 ev
  | KTime dt : l = TTime dt -> tool_step (t_b s) (Tick dt) = Some (t_b s2, []) -> vstep (t_v s) (VIn (LDTime dt)) = Some (t_v s2, []) -> ev = [] ->
      s2 = TState (t_v s2) (t_b s2) (t_up s) (t_reg s) (t_of s) (t_made s) (t_stop s) (t_ended s) -> tkind s l s2 ev
  | KSignal : l = TSignal -> ev = [TStops] -> s2 = TState (t_v s) (t_b s) (t_up s) (t_reg s) (t_of s) (t_made s) true (t_ended s) -> tkind s l s2 ev
  | KEnd i : l = TEnd i -> t_stop s = true -> runs s i -> ev = [TEnded i] ->
      s2 = TState (t_v s) (t_b s) (t_up s) (t_reg s) (t_of s) (t_made s) (t_stop s) (i :: t_ended s) -> tkind s l s2 ev.

Lemma time_no_ev b dt b2 ev : tool_step b (Tick dt) = Some (b2, ev) -> ev = [].
Proof. unfold tool_step. cbn [step]. destruct (0 <=? dt)%Z; [|done]. by intros [= _ <-]. Qed.
Lemma vtime_no_ev v dt v2 ev : vstep v (VIn (LDTime dt)) = Some (v2, ev) -> ev = [].
Proof.
  intros H. unfold vstep in H. cbn [inside] in H. unfold dstep in H. destruct (d_crashed (v_d v)); [discriminate H|]. destruct (0 <=? dt)%Z; [|discriminate H].
  injection H as _ <-. done.
Qed.

Lemma tstep_kind s l s2 ev : tstep s l = Some (s2, ev) -> tkind s l s2 ev.
Proof.
  intros H. destruct l as [| |lv| |lb|dt| |i]; cbn [tstep] in H.
  - destruct (t_up s) eqn:Eu; [done|]. destruct (tool_step (t_b s) (Start 0)) as [[b e]|] eqn:Eb; [|done]. injection H as <- <-. by eapply KStart.
  - destruct (t_up s) eqn:Eu; [|done]. destruct (t_reg s) eqn:Er; [done|]. injection H as <- <-. by eapply KRegister.
  - destruct (t_reg s) eqn:Er; [|done]. destruct (passes_time lv) eqn:Ep; [done|]. cbn [andb negb] in H.
    assert (needs_stop lv = true -> t_stop s = true) as Hn.
    { intros E. rewrite E in H. destruct (t_stop s); done. }
    destruct (t_stop s || negb (needs_stop lv)) eqn:En; [|done]. 
    assert (match lv, about_to_watch (t_v s) with VBody, Some _ => True | _, _ => False end \/ (lv = VBody -> about_to_watch (t_v s) = None)) as [Hl|Hl].
    { destruct lv; [right; done..|]. destruct (about_to_watch (t_v s)); [by left|by right]. }
    + destruct lv; [done..|]. destruct (about_to_watch (t_v s)) eqn:Ea; [|done]. destruct (t_made s) eqn:Em; [|done].
      destruct (vstep (t_v s) VBody) as [[v e]|] eqn:Ev; [|done]. injection H as <- <-. eapply KColl; [done|exact Er|done|done|exact Ev|done| |cbn [t_v]; by rewrite Er]. left. rewrite Ea. eauto.
    + assert (match vstep (t_v s) lv with Some (v, ev) => Some (TState v (t_b s) (t_up s) true (t_of s) (t_made s) (t_stop s) (t_ended s), TV <$> ev) | None => None end = Some (s2, ev)) as H'.
      { rewrite <- H. destruct lv; [done..|]. by rewrite (Hl eq_refl). }
      clear H. destruct (vstep (t_v s) lv) as [[v e]|] eqn:Ev; [|done]. injection H' as <- <-. eapply KColl; [done|exact Er|done|done|exact Ev|done| |cbn [t_v]; by rewrite Er]. by right.
  - destruct (about_to_watch (t_v s)) eqn:Ea; [|done]. destruct (t_made s) eqn:Em; [done|].
    destruct (tool_step (t_b s) (Start (S (length (t_of s))))) as [[b e]|] eqn:Eb; [|done]. injection H as <- <-. by eapply KMake.
  - destruct (acts lb) as [i|] eqn:Ea; [|done]. destruct (bool_decide (i ∈ t_ended s)) eqn:Ed; [done|]. apply bool_decide_eq_false in Ed.
    destruct (tool_step (t_b s) lb) as [[b e]|] eqn:Eb; [|done]. injection H as <- <-. by eapply KNet.
  - destruct (tool_step (t_b s) (Tick dt)) as [[b e]|] eqn:Eb; [|done]. destruct (vstep (t_v s) (VIn (LDTime dt))) as [[v e']|] eqn:Ev; [|done]. injection H as <- <-.
    pose proof (time_no_ev _ _ _ _ Eb) as ->. pose proof (vtime_no_ev _ _ _ _ Ev) as ->. by eapply KTime.
  - injection H as <- <-. by eapply KSignal.
  - destruct (t_stop s) eqn:Es; [|done]. destruct (bool_decide (i ∈ t_ended s)) eqn:Ed; [done|]. apply bool_decide_eq_false in Ed. cbn [andb negb] in H.
    destruct (s_phase (t_b s) i) eqn:Ep; try done; injection H as <- <-; (eapply KEnd; [done|done| |done|rewrite Es; done]); unfold runs; rewrite Ep; done.
Qed.

Lemma pacing_run ls : forall s s2 evs, trun s ls = Some (s2, evs) -> run tool_step (t_b s) (pacing (length (t_of s)) ls) = Some (t_b s2, paced evs).
Proof.
  induction ls as [|l ls IH]; intros s s2 evs Hr; [by injection Hr as <- <-|].
  cbn [run] in Hr. destruct (tstep s l) as [[s1 e1]|] eqn:Hs; [|done]. destruct (trun s1 ls) as [[s3 e3]|] eqn:H3; [|done]. injection Hr as <- <-.
  specialize (IH _ _ _ H3). unfold paced in *. rewrite omap_app.
  destruct (tstep_kind _ _ _ _ Hs) as [ev' -> _ Hb -> E| -> _ _ -> E|lv ev' m -> _ _ _ _ -> _ E|id ev' -> _ _ Hb -> E|lb i ev' -> _ _ Hb -> E|dt -> Hb _ -> E| -> -> E|i -> _ _ -> E]; cbn [pacing].
  - cbn [run]. rewrite Hb. rewrite E in IH. cbn [t_b t_of] in IH. rewrite IH. by setoid_rewrite paced_tb.
  - rewrite E in IH. exact IH.
  - rewrite E in IH. cbn [t_b t_of] in IH. rewrite IH. by setoid_rewrite paced_tv.
  - cbn [run]. rewrite Hb. rewrite E in IH. cbn [t_b t_of] in IH. rewrite app_length, Nat.add_1_r in IH. rewrite IH. cbn [omap list_omap]. by setoid_rewrite paced_tb.
  - cbn [run]. rewrite Hb. rewrite E in IH. cbn [t_b t_of] in IH. rewrite IH, omap_app. setoid_rewrite paced_tb. f_equal. f_equal. by destruct (on_errors _ _); rewrite app_nil_r.
  - cbn [run]. rewrite Hb. rewrite E in IH. cbn [t_b t_of] in IH. by rewrite IH.
  - rewrite E in IH. exact IH.
  - rewrite E in IH. exact IH.
Qed.

Lemma collecting_run ls : forall s s2 evs, trun s ls = Some (s2, evs) -> vrun (t_v s) (collecting ls) = Some (t_v s2, collected evs).
Proof.
  induction ls as [|l ls IH]; intros s s2 evs Hr; [by injection Hr as <- <-|].
  cbn [run] in Hr. destruct (tstep s l) as [[s1 e1]|] eqn:Hs; [|done]. destruct (trun s1 ls) as [[s3 e3]|] eqn:H3; [|done]. injection Hr as <- <-.
  specialize (IH _ _ _ H3). unfold collected in *. rewrite omap_app. unfold collecting in *.
  destruct (tstep_kind _ _ _ _ Hs) as [ev' -> _ Hb -> E| -> _ _ -> E|lv ev' m -> _ _ _ Hv -> _ E|id ev' -> _ _ Hb -> E|lb i ev' -> _ _ Hb -> E|dt -> Hb Hv -> E| -> -> E|i -> _ _ -> E]; cbn [omap list_omap].
  - setoid_rewrite collected_tb. rewrite E in IH. exact IH.
  - rewrite E in IH. exact IH.
  - cbn [run]. rewrite Hv, IH. by setoid_rewrite collected_tv.
  - setoid_rewrite collected_tb. rewrite E in IH. exact IH.
  - rewrite omap_app. setoid_rewrite collected_tb. rewrite E in IH. cbn [t_v] in IH. rewrite IH. by destruct (on_errors _ _).
  - cbn [run]. by rewrite Hv, IH.
  - rewrite E in IH. exact IH.
  - rewrite E in IH. exact IH.
Qed.

(** ** The handler *)
From Verif Require Import DiscoveryFacts DiscoveryLive DiscoveryProgress CollectorFacts CollectorList.

Lemma inside_no_handle s lb s' ev k x : inside lb = true -> dstep s lb = Some (s', ev) -> DHandle k x ∉ ev.
Proof.
  intros Hi Hs Hin.
  assert (Hc : forall c o, call c o s = Some (s', ev) -> False).
  { intros c o Hc. unfold call in Hc. destruct (d_held s); [done|]. destruct (effect (d_now s) o (d_map s)) as [[[m r] [[k' x']|]]|]; [destruct (roomy s k')| |done];
      injection Hc as _ <-; rewrite ?elem_of_cons, elem_of_nil in Hin; naive_solver. }
  assert (Hn : ev = [] -> False) by (intros ->; by apply elem_of_nil in Hin).
  assert (H1 : forall e, ev = [e] -> (forall k x, e <> DHandle k x) -> False) by (intros e -> He; apply elem_of_list_singleton in Hin; by eapply He).
  unfold dstep in Hs. destruct (d_crashed s); [done|].
  assert (Hw : forall w, match d_watches s !! w with Some y => watch_step s w y lb | None => None end = Some (s', ev) -> False).
  { intros w Hw. destruct (d_watches s !! w) as [y|]; [|done]. unfold watch_step in Hw.
    destruct lb; try done; destruct (wt_pc y); try done; repeat case_match; try done; try (by eapply Hc); injection Hw as _ E; (by apply Hn) || (by eapply H1). }
  destruct lb; try done; try (by eapply Hw); clear Hw.
  - destruct (0 <=? dt)%Z; [|done]. injection Hs as _ E. by apply Hn.
  - destruct (d_held s) as [[[c k'] y]|]; [|done]. destruct (roomy s k'); [|done]. injection Hs as _ E. by eapply H1.
  - destruct (d_run s); try done. injection Hs as _ E. by apply Hn.
  - destruct (d_run s); try done. injection Hs as Hs. unfold run_msg in Hs. repeat case_match; injection Hs as _ E; (by apply Hn) || (by eapply H1).
  - destruct (d_run s); try done. injection Hs as _ E. by eapply H1.
  - destruct (d_run s); try done. by eapply Hc.
  - injection Hs as _ E. by apply Hn.
  - destruct (d_hand s); try done. destruct (d_run s); try (destruct (d_cancelled s); [|done]); injection Hs as _ E; by apply Hn.
Qed.

Definition takes (ev : list vev) : list string := omap (fun e => match e with VD (DHandle Disc x) => Some (i_id (ds_info x)) | _ => None end) ev.
Lemma takes_vd dv : (forall k x, DHandle k x ∉ dv) -> takes (VD <$> dv) = [].
Proof.
  induction dv as [|e dv IH]; intros H; [done|]. unfold takes in *. cbn. rewrite IH; [|intros k x Hx; apply (H k x); by right].
  destruct e; try done. exfalso. eapply H. left.
Qed.

Lemma about_step v l v2 ev : ground v -> vstep v l = Some (v2, ev) ->
  (l = VBody /\ is_Some (about_to_watch v) /\ about_to_watch v2 = None /\ takes ev = []) \/
  (exists id, l = VTake Disc /\ about_to_watch v = None /\ about_to_watch v2 = Some id /\ takes ev = [id]) \/
  ((l = VBody -> about_to_watch v = None) /\ about_to_watch v2 = about_to_watch v /\ takes ev = []).
Proof.
  intros Hg Hs. destruct l as [lb|k|].
  - right. right. split; [done|]. unfold vstep in Hs. destruct (inside lb) eqn:Ei; [|done]. destruct (dstep (v_d v) lb) as [[d dv]|] eqn:E; [|done]. injection Hs as <- <-.
    split; [|apply takes_vd; intros; by eapply inside_no_handle]. unfold about_to_watch. cbn [v_d v_at].
    destruct (inside_hand _ _ _ _ (g_hand _ Hg) Ei E) as [[->|[H1 H2]] _]; [done|]. destruct (d_hand (v_d v)); try done; by destruct (d_hand d).
  - unfold vstep, dstep in Hs. destruct (d_crashed (v_d v)); [done|]. destruct (d_hand (v_d v)) eqn:Eh; try done. destruct (chan_of (v_d v) k) as [|x q] eqn:Ec; [done|].
    injection Hs as <- <-. assert (about_to_watch v = None) as Ea by (unfold about_to_watch; by rewrite Eh).
    destruct k; [right; left|right; right].
    + exists (i_id (ds_info x)). done.
    + split; [done|]. rewrite Ea. done.
  - unfold vstep, body in Hs. destruct (d_hand (v_d v)) as [| |[] x| | |] eqn:Eh; try done; destruct (v_at v) eqn:Ea; try done.
    + left. unfold about_to_watch at 1. rewrite Eh, Ea. split; [done|]. split; [eauto|].
      unfold dstep in Hs. destruct (d_crashed (v_d v)); [done|]. destruct (d_held (v_d v)); [done|]. destruct (d_map (v_d v) !! _); injection Hs as <- <-; unfold about_to_watch; cbn; by rewrite Eh.
    + right. right. injection Hs as <- <-. unfold about_to_watch. cbn. by rewrite Eh, Ea.
    + right. right. unfold dstep in Hs. destruct (d_crashed (v_d v)); [done|]. rewrite Eh in Hs. injection Hs as <- <-. unfold about_to_watch. cbn. by rewrite Eh, Ea.
    + right. right. injection Hs as <- <-. unfold about_to_watch. cbn. by rewrite Eh.
    + right. right. unfold dstep in Hs. destruct (d_crashed (v_d v)); [done|]. rewrite Eh in Hs. injection Hs as <- <-. unfold about_to_watch. cbn. by rewrite Eh.
Qed.

(** ** Invariant *)

Definition unmade (s : tstate) : list string := if t_made s then [] else option_list (about_to_watch (t_v s)).

Record tinv (s : tstate) (evs : list tev) : Prop := TInv {
  ti_ground : ground (t_v s);
  ti_made : about_to_watch (t_v s) = None -> t_made s = false;
  ti_taken : taken_up evs = made_for evs ++ unmade s;
  ti_of : t_of s = made_for evs;
  ti_num : forall i id, TMade i id ∈ evs <-> exists k, i = S k /\ t_of s !! k = Some id;
  ti_new : forall i, s_phase (t_b s) i = PNew <-> (i = 0 /\ t_up s = false) \/ length (t_of s) < i;
  ti_gave : forall i, s_phase (t_b s) i = PGaveUp <-> TB (GivesUp i) ∈ evs;
  ti_ended : forall i, i ∈ t_ended s <-> TEnded i ∈ evs;
  ti_ran : forall i, i ∈ t_ended s -> s_phase (t_b s) i <> PNew /\ s_phase (t_b s) i <> PGaveUp;
  ti_stop : t_stop s = true <-> TStops ∈ evs;
  ti_stopped : t_ended s <> [] -> t_stop s = true;
  ti_up : t_up s = false -> t_reg s = false /\ t_of s = [] /\ about_to_watch (t_v s) = None;
  ti_reg : t_reg s = false -> about_to_watch (t_v s) = None /\ t_of s = [];
}.

(** A container's phase over a step of its own. *)
Lemma tool_phase b lb b2 ev i : tool_step b lb = Some (b2, ev) ->
  (s_phase b2 i = PNew <-> s_phase b i = PNew /\ lb <> Start i) /\
  (s_phase b2 i = PGaveUp <-> s_phase b i = PGaveUp \/ GivesUp i ∈ ev).
Proof.
  unfold tool_step. intros H. destruct lb as [d|j|j|j|j d|j]; cbn [step] in H.
  - destruct (0 <=? d)%Z; [|done]. injection H as <- <-. cbn. rewrite elem_of_nil. naive_solver.
  - destruct (s_phase b j) eqn:E; try done. injection H as <- <-. cbn. rewrite elem_of_nil. destruct (decide (i = j)) as [->|Hn]; [rewrite fn_lookup_insert, E|rewrite fn_lookup_insert_ne by done]; naive_solver.
  - destruct (s_phase b j) eqn:E; try done. injection H as <- <-. cbn. rewrite elem_of_nil. destruct (decide (i = j)) as [->|Hn]; [rewrite fn_lookup_insert, E|rewrite fn_lookup_insert_ne by done]; naive_solver.
  - destruct (s_phase b j) eqn:E; try done. injection H as <- <-. cbn. rewrite elem_of_nil. naive_solver.
  - destruct (s_phase b j) eqn:E; cbn [andb] in H; try done.
    all: destruct (drawn _ _); [|done]; unfold next_backoff in H; destruct (_ && _); injection H as <- <-; cbn; rewrite elem_of_list_singleton;
      (destruct (decide (i = j)) as [->|Hn]; [rewrite fn_lookup_insert, E|rewrite fn_lookup_insert_ne by done]); naive_solver.
  - destruct (s_phase b j) eqn:E; try done. destruct (_ <=? _)%Z; [|done]. injection H as <- <-. cbn. rewrite elem_of_nil.
    destruct (decide (i = j)) as [->|Hn]; [rewrite fn_lookup_insert, E|rewrite fn_lookup_insert_ne by done]; naive_solver.
Qed.

Lemma tb_elem e (ev : list event) : TB e ∈ TB <$> ev <-> e ∈ ev.
Proof. rewrite elem_of_list_fmap. naive_solver. Qed.
Lemma tb_only x (ev : list event) : x ∈ TB <$> ev -> exists e, x = TB e.
Proof. rewrite elem_of_list_fmap. naive_solver. Qed.
Lemma tv_only x (ev : list vev) : x ∈ TV <$> ev -> exists e, x = TV e.
Proof. rewrite elem_of_list_fmap. naive_solver. Qed.
Lemma taken_tb ev : taken_up (TB <$> ev) = [].
Proof. induction ev as [|e ev IH]; [done|]. exact IH. Qed.
Lemma made_tb ev : made_for (TB <$> ev) = [].
Proof. induction ev as [|e ev IH]; [done|]. exact IH. Qed.
Lemma made_tv ev : made_for (TV <$> ev) = [].
Proof. induction ev as [|e ev IH]; [done|]. exact IH. Qed.
Lemma taken_tv ev : taken_up (TV <$> ev) = takes ev.
Proof. induction ev as [|e ev IH]; [done|]. unfold taken_up, takes in *. cbn. destruct e as [[]| |]; try exact IH. destruct k; [|exact IH]. by rewrite IH. Qed.
Lemma taken_app a b : taken_up (a ++ b) = taken_up a ++ taken_up b.
Proof. apply omap_app. Qed.
Lemma made_app a b : made_for (a ++ b) = made_for a ++ made_for b.
Proof. apply omap_app. Qed.

Ltac off H := (apply tb_only in H as [? [=]]) || (apply tv_only in H as [? [=]]).

Lemma net_not_start lb i : acts lb = Some i -> forall j, lb <> Start j.
Proof. intros H j ->. done. Qed.

Lemma tinv_step s l s2 ev evs : tinv s evs -> tstep s l = Some (s2, ev) -> tinv s2 (evs ++ ev).
Proof.
  intros [Hg Hm Ht Ho Hn Hw Hv He Hr Hs Hd Hu Hx] Hstep. pose proof (tstep_kind _ _ _ _ Hstep) as HK. clear Hstep.
  destruct HK as [ev' _ Eu Hb -> E| _ Eu Er -> E|lv ev' m _ Er _ Hst Hv' -> Hmm E|id ev' _ Ea Em Hb -> E|lb i ev' _ Ha Hi Hb -> E|dt _ Hb Hv' -> E| _ -> E|i _ Es Hrun -> E].
  - destruct (Hu Eu) as (U1 & U2 & U3). assert (Hp := fun i => tool_phase _ _ _ _ i Hb).
    rewrite E. constructor; cbn [t_v t_b t_up t_reg t_of t_made t_stop t_ended]; try done.
    + rewrite taken_app, made_app, taken_tb, made_tb, !app_nil_r. exact Ht.
    + rewrite made_app, made_tb, app_nil_r. exact Ho.
    + intros i id. rewrite elem_of_app, <- Hn. split; [intros [?|H]; [done|off H]|by left].
    + intros i. destruct (Hp i) as [-> _]. rewrite Hw, U2, Eu. cbn. destruct i; [|naive_solver lia]. split; [naive_solver|]. intros [[_ [=]]|H]; lia.
    + intros i. destruct (Hp i) as [_ ->]. rewrite elem_of_app, tb_elem, Hv. done.
    + intros i. rewrite elem_of_app, He. split; [by left|intros [?|H]; [done|off H]].
    + intros i H. destruct (Hr i H) as [R1 R2]. destruct (Hp i) as [-> P2]. split; [naive_solver|]. intros P. apply P2 in P as [?|P]; [done|].
      unfold tool_step in Hb. cbn [step] in Hb. destruct (s_phase (t_b s) 0); try done. injection Hb as _ <-. by apply elem_of_nil in P.
    + rewrite elem_of_app, Hs. split; [by left|intros [?|H]; [done|off H]].
  - rewrite app_nil_r, E. constructor; cbn [t_v t_b t_up t_reg t_of t_made t_stop t_ended]; try done.
    intros i. rewrite Hw, Eu. done.
  - assert (Hab := about_step _ _ _ _ Hg Hv').
    rewrite E. constructor; cbn [t_v t_b t_up t_reg t_of t_made t_stop t_ended]; try done.
    + by eapply ground_step.
    + intros H. destruct Hmm as [(_ & _ & _ & ->)|[Hl ->]]; [done|]. apply Hm. destruct Hab as [(Hb & Hb' & _)|[(id & _ & _ & Hb & _)|(_ & Hb & _)]].
      * rewrite (Hl Hb) in Hb'. by destruct Hb'.
      * congruence.
      * congruence.
    + rewrite taken_app, made_app, taken_tv, made_tv, app_nil_r, Ht. unfold unmade. cbn [t_v t_made].
      destruct Hmm as [(-> & Hab' & Em & ->)|[Hl ->]].
      * rewrite Em. destruct Hab as [(_ & _ & -> & ->)|[(id & Hb & _)|(Hb & _)]]; [by rewrite !app_nil_r|done|]. rewrite (Hb eq_refl) in Hab'. by destruct Hab'.
      * destruct Hab as [(Hb & Hb' & _)|[(id & _ & Hb & Hb2 & ->)|(_ & -> & ->)]].
        { rewrite (Hl Hb) in Hb'. by destruct Hb'. }
        { rewrite (Hm Hb), Hb, Hb2. cbn. by rewrite app_nil_r. }
        { by rewrite app_nil_r. }
    + rewrite made_app, made_tv, app_nil_r. exact Ho.
    + intros i id. rewrite elem_of_app, <- Hn. split; [intros [?|H]; [done|off H]|by left].
    + intros i. rewrite elem_of_app, Hv. split; [by left|intros [?|H]; [done|off H]].
    + intros i. rewrite elem_of_app, He. split; [by left|intros [?|H]; [done|off H]].
    + rewrite elem_of_app, Hs. split; [by left|intros [?|H]; [done|off H]].
    + intros H. destruct (Hu H). congruence.
    + intros H. congruence.
  - assert (Hp := fun i => tool_phase _ _ _ _ i Hb).
    assert (Eu : t_up s = true) by (destruct (t_up s); [done|]; destruct (Hu eq_refl) as (_ & _ & H); congruence).
    assert (Er : t_reg s = true) by (destruct (t_reg s); [done|]; destruct (Hx eq_refl) as (H & _); congruence).
    assert (ev' = []) as -> by (unfold tool_step in Hb; cbn [step] in Hb; destruct (s_phase (t_b s) _); try done; by injection Hb as _ <-).
    cbn [fmap list_fmap] in *. rewrite E. constructor; cbn [t_v t_b t_up t_reg t_of t_made t_stop t_ended]; try done.
    + intros H. congruence.
    + rewrite taken_app, made_app. cbn. rewrite Ht. unfold unmade. cbn [t_v t_made]. rewrite Em, Ea. cbn. by rewrite !app_nil_r.
    + rewrite made_app, <- Ho. done.
    + intros i id'. rewrite elem_of_app, elem_of_list_singleton, Hn. split.
      * intros [(k & -> & H)|[= -> ->]]; [exists k; split; [done|by apply lookup_app_l_Some]|]. exists (length (t_of s)). split; [done|]. by apply list_lookup_middle.
      * intros (k & -> & H). apply lookup_app_Some in H as [H|[Hle H]]; [left; eauto|]. right. apply list_lookup_singleton_Some in H as [H <-]. f_equal. lia.
    + intros i. destruct (Hp i) as [-> _]. rewrite Hw, app_length, Eu. cbn. split.
      * intros [[?|H] Hne]; [by left|]. right. destruct (decide (i = S (length (t_of s)))) as [Hi|Hi]; [by rewrite Hi in Hne|]. lia.
      * intros [?|H]; [naive_solver|]. split; [right; lia|]. intros [= Hi]. lia.
    + intros i. destruct (Hp i) as [_ ->]. rewrite elem_of_app, elem_of_list_singleton, elem_of_nil, Hv. naive_solver.
    + intros i. rewrite elem_of_app, He, elem_of_list_singleton. naive_solver.
    + intros i H. destruct (Hr i H) as [R1 R2]. destruct (Hp i) as [-> P2]. split; [naive_solver|]. intros P. apply P2 in P as [?|P]; [done|]. by apply elem_of_nil in P.
    + rewrite elem_of_app, Hs, elem_of_list_singleton. naive_solver.
    + intros H. congruence.
    + intros H. congruence.
  - assert (Hp := fun j => tool_phase _ _ _ _ j Hb). assert (Hns := net_not_start _ _ Ha).
    assert (Hgu : forall j, GivesUp j ∈ ev' -> j = i).
    { intros j Hj. unfold tool_step in Hb. destruct lb as [|j'|j'|j'|j' d|j']; try done; injection Ha as ->; cbn [step] in Hb.
      - destruct (s_phase (t_b s) i); try done. injection Hb as _ <-. by apply elem_of_nil in Hj.
      - destruct (s_phase (t_b s) i); try done. injection Hb as _ <-. by apply elem_of_nil in Hj.
      - destruct (_ && _); [|done]. unfold next_backoff in Hb. destruct (_ && _); injection Hb as _ <-; apply elem_of_list_singleton in Hj; [by injection Hj as ->|done].
      - destruct (s_phase (t_b s) i); try done. destruct (_ <=? _)%Z; [|done]. injection Hb as _ <-. by apply elem_of_nil in Hj. }
    set (ts := if on_errors (t_reg s) ev' then [TStops] else []). assert (Hts : forall x, x ∈ ts -> x = TStops) by (unfold ts; intros x H; destruct (on_errors _ _); [by apply elem_of_list_singleton in H|by apply elem_of_nil in H]).
    assert (taken_up ts = [] /\ made_for ts = []) as [T1 T2] by (unfold ts; by destruct (on_errors _ _)).
    assert (Hnew : forall x, (forall e, x <> TB e) -> x <> TStops -> x ∈ evs ++ (TB <$> ev') ++ ts <-> x ∈ evs).
    { intros x X1 X2. rewrite !elem_of_app. split; [intros [?|[H|H]]; [done|apply tb_only in H as [e ->]; by destruct (X1 e)|by apply Hts in H]|by left]. }
    rewrite E. constructor; cbn [t_v t_b t_up t_reg t_of t_made t_stop t_ended]; try done.
    + rewrite !taken_app, !made_app, taken_tb, made_tb, T1, T2, !app_nil_r. exact Ht.
    + rewrite !made_app, made_tb, T2, !app_nil_r. exact Ho.
    + intros j id. rewrite Hnew by done. apply Hn.
    + intros j. destruct (Hp j) as [-> _]. rewrite Hw. naive_solver.
    + intros j. destruct (Hp j) as [_ ->]. rewrite !elem_of_app, tb_elem, Hv. split; [naive_solver|]. intros [?|[?|H]]; [by left|by right|by apply Hts in H].
    + intros j. rewrite Hnew by done. apply He.
    + intros j H. destruct (Hr j H) as [R1 R2]. destruct (Hp j) as [-> P2]. split; [naive_solver|]. intros P. apply P2 in P as [?|P]; [done|]. apply Hgu in P as ->. done.
    + rewrite !elem_of_app, orb_true_iff, Hs. unfold ts. destruct (on_errors _ _); split.
      * intros _. right. right. left.
      * intros _. by right.
      * intros [?|?]; [by left|done].
      * intros [?|[H|H]]; [by left|off H|by apply elem_of_nil in H].
    + intros H. by rewrite (Hd H).
  - assert (Hp := fun j => tool_phase _ _ _ _ j Hb). rewrite app_nil_r. assert (Hab := about_step _ _ _ _ Hg Hv').
    assert (about_to_watch (t_v s2) = about_to_watch (t_v s)) as Eab by (destruct Hab as [(? & _)|[(? & ? & _)|(_ & ? & _)]]; done).
    rewrite E. constructor; cbn [t_v t_b t_up t_reg t_of t_made t_stop t_ended]; rewrite ?Eab; try done.
    + by eapply ground_step.
    + unfold unmade in *. cbn [t_v t_made]. by rewrite Eab.
    + intros j. destruct (Hp j) as [-> _]. rewrite Hw. naive_solver.
    + intros j. destruct (Hp j) as [_ ->]. rewrite elem_of_nil, Hv. naive_solver.
    + intros j H. destruct (Hr j H) as [R1 R2]. destruct (Hp j) as [-> P2]. split; [naive_solver|]. intros P. apply P2 in P as [?|P]; [done|]. by apply elem_of_nil in P.
  - rewrite E. constructor; cbn [t_v t_b t_up t_reg t_of t_made t_stop t_ended]; try done.
    + rewrite taken_app, made_app. cbn. by rewrite !app_nil_r.
    + rewrite made_app. cbn. by rewrite app_nil_r.
    + intros i id. rewrite elem_of_app, elem_of_list_singleton, <- Hn. naive_solver.
    + intros i. rewrite elem_of_app, elem_of_list_singleton, <- Hv. naive_solver.
    + intros i. rewrite elem_of_app, elem_of_list_singleton, <- He. naive_solver.
    + split; [|done]. intros _. apply elem_of_app. right. left.
  - destruct Hrun as (R1 & R2 & R3). rewrite E. constructor; cbn [t_v t_b t_up t_reg t_of t_made t_stop t_ended]; try done.
    + rewrite taken_app, made_app. cbn. by rewrite !app_nil_r.
    + rewrite made_app. cbn. by rewrite app_nil_r.
    + intros j id. rewrite elem_of_app, elem_of_list_singleton, <- Hn. naive_solver.
    + intros j. rewrite elem_of_app, elem_of_list_singleton, <- Hv. naive_solver.
    + intros j. rewrite elem_of_app, elem_of_list_singleton, elem_of_cons, <- He. naive_solver.
    + intros j [->|H]%elem_of_cons; [done|by apply Hr].
    + rewrite elem_of_app, elem_of_list_singleton, <- Hs. naive_solver.
Qed.

Lemma tinv_init : tinv t_init [].
Proof.
  constructor; cbn; try done.
  - apply ground_init.
  - intros i id. rewrite elem_of_nil. split; [done|]. intros (k & _ & H). done.
  - intros i. split; [|done]. intros _. destruct i; [by left|right; lia].
  - intros i. rewrite !elem_of_nil. split; done.
  - intros i. rewrite !elem_of_nil. split; done.
  - intros i H. by apply elem_of_nil in H.
  - rewrite !elem_of_nil. split; done.
Qed.

Lemma tinv_run ls s evs : trun t_init ls = Some (s, evs) -> tinv s evs.
Proof.
  intros Hr. apply (run_inv tstep tinv (fun _ => True) t_init [] ls s evs) with (4 := Hr); [apply tinv_init| |by apply Forall_true].
  intros s1 evs1 l s2 ev Hi _ Hs. by eapply tinv_step.
Qed.

(** ** C105 *)

Lemma one_each ls s evs : trun t_init ls = Some (s, evs) -> exists w, taken_up evs = made_for evs ++ w /\ length w <= 1.
Proof.
  intros Hr. eexists. split; [exact (ti_taken _ _ (tinv_run _ _ _ Hr))|]. unfold unmade. destruct (t_made s); [cbn; lia|]. destruct (about_to_watch (t_v s)); cbn; lia.
Qed.

Lemma made_once ls s evs i id id' : trun t_init ls = Some (s, evs) -> TMade i id ∈ evs -> TMade i id' ∈ evs -> id = id'.
Proof.
  intros Hr. destruct (tinv_run _ _ _ Hr) as [_ _ _ _ Hn _ _ _ _ _ _ _ _]. rewrite !Hn. intros (k & -> & H) (k' & [= <-] & H'). congruence.
Qed.

Lemma keeps_running ls s evs i id : trun t_init ls = Some (s, evs) -> TMade i id ∈ evs -> runs s i <-> TB (GivesUp i) ∉ evs /\ TEnded i ∉ evs.
Proof.
  intros Hr Hm. destruct (tinv_run _ _ _ Hr) as [_ _ _ _ Hn Hw Hv He _ _ _ _ _]. apply Hn in Hm as (k & -> & Hk). apply lookup_lt_Some in Hk.
  unfold runs. rewrite Hw, Hv, He. split; [naive_solver|]. intros [H1 H2]. split; [|done]. intros [[? _]|?]; [done|lia].
Qed.

Lemma ended_stopped ls s evs i : trun t_init ls = Some (s, evs) -> TEnded i ∈ evs -> TStops ∈ evs.
Proof.
  intros Hr Hm. destruct (tinv_run _ _ _ Hr) as [_ _ _ _ _ _ _ He _ Hs Hd _ _]. apply He in Hm. apply Hs, Hd. intros E. rewrite E in Hm. by apply elem_of_nil in Hm.
Qed.

Lemma end_them (l : list nat) : forall s, t_stop s = true -> exists ls s' ev, Forall (fun l : tlabel => match l with TEnd _ => True | _ => False end) ls /\ trun s ls = Some (s', ev) /\
  t_stop s' = true /\ t_b s' = t_b s /\ forall i, runs s' i -> runs s i /\ i ∉ l.
Proof.
  induction l as [|i l IH]; intros s Hs.
  { exists [], s, []. split; [done|]. split; [done|]. split; [done|]. split; [done|]. intros i H. split; [done|apply not_elem_of_nil]. }
  destruct (IH s Hs) as (ls & s1 & e1 & F & R & S1 & B1 & H1).
  destruct (tstep s1 (TEnd i)) as [[s2 e2]|] eqn:E.
  - exists (ls ++ [TEnd i]), s2, (e1 ++ e2). split; [apply Forall_app; split; [done|by constructor]|]. split; [by rewrite run_app, R, run_one, E|].
    pose proof (tstep_kind _ _ _ _ E) as HK. destruct HK as [ev' [=]|[=]|lv ev' m [=]|id ev' [=]|lb j ev' [=]|dt [=]|[=]|j [= <-] Es Hrun -> Eq].
    rewrite Eq. cbn [t_stop t_b]. split; [done|]. split; [done|]. intros j (R1 & R2 & R3). cbn [t_b t_ended] in *. rewrite elem_of_cons in R3.
    destruct (H1 j) as [H2 H3]; [split; [done|split; [done|naive_solver]]|]. split; [done|]. rewrite elem_of_cons. naive_solver.
  - exists ls, s1, e1. split; [done|]. split; [done|]. split; [done|]. split; [done|]. intros j Hj. destruct (H1 j Hj) as [H2 H3]. split; [done|]. rewrite elem_of_cons.
    intros [->|?]; [|done]. cbn [tstep] in E. rewrite S1 in E. destruct Hj as (J1 & J2 & J3). rewrite bool_decide_eq_false_2 in E by done. cbn [andb negb] in E.
    destruct (s_phase (t_b s1) i); done.
Qed.

Lemma all_end ls s evs : trun t_init ls = Some (s, evs) -> TStops ∈ evs ->
  exists ls' s' ev, Forall (fun l : tlabel => match l with TEnd _ => True | _ => False end) ls' /\ trun s ls' = Some (s', ev) /\ forall i, ~ runs s' i.
Proof.
  intros Hr Hin. destruct (tinv_run _ _ _ Hr) as [_ _ _ _ _ Hw _ _ _ Hs _ _ _]. apply Hs in Hin.
  destruct (end_them (seq 0 (S (length (t_of s)))) s Hin) as (ls' & s' & ev & F & R & _ & B & H). exists ls', s', ev. split; [done|]. split; [done|].
  intros i Hi. destruct (H i Hi) as [Hi' Hn]. destruct Hi' as (N & _ & _). rewrite Hw in N. rewrite elem_of_seq in Hn. destruct (decide (i <= length (t_of s))); [|naive_solver lia]. lia.
Qed.

(** ** C106 *)

Lemma reg_label ls s evs : trun t_init ls = Some (s, evs) -> TRegister ∈ ls -> t_reg s = true.
Proof.
  intros Hr. revert s evs Hr. induction ls as [|l ls IH] using rev_ind; intros s evs Hr; [intros H; by apply elem_of_nil in H|].
  apply run_snoc in Hr as (s1 & ev1 & ev2 & H1 & H2 & ->). rewrite elem_of_app, elem_of_list_singleton.
  assert (t_reg s1 = true -> t_reg s = true) as Hk.
  { destruct (tstep_kind _ _ _ _ H2) as [ev' _ Eu Hb _ ->| _ Eu Er _ ->|lv ev' m _ Er _ Hst Hv' _ Hmm ->|id ev' _ Ea Em Hb _ ->|lb i ev' _ Ha Hi Hb _ ->|dt _ Hb Hv' _ ->| _ _ ->|i _ Es Hrun _ ->]; done. }
  intros [H|<-]; [by apply Hk, (IH _ _ H1)|].
  destruct (tstep_kind _ _ _ _ H2) as [ev' [=]|_ Eu Er _ ->|lv ev' m [=]|id ev' [=]|lb j ev' [=]|dt [=]|[=]|j [=]]. done.
Qed.

Lemma stop_step s l s2 ev : tstep s l = Some (s2, ev) -> TStops ∈ ev -> l = TSignal \/ exists d, l = TNet (Failure 0 d) /\ ev = [TB (GivesUp 0); TStops] /\ t_reg s = true.
Proof.
  intros H Hin. destruct (tstep_kind _ _ _ _ H) as [ev' -> Eu Hb -> E| -> Eu Er -> E|lv ev' m -> Er _ Hst Hv' -> Hmm E|id ev' -> Ea Em Hb -> E|lb i ev' -> Ha Hi Hb -> E|dt -> Hb Hv' -> E| -> -> E|i -> Es Hrun -> E].
  - off Hin.
  - by apply elem_of_nil in Hin.
  - off Hin.
  - apply elem_of_cons in Hin as [Hin|Hin]; [done|off Hin].
  - right. unfold on_errors in *. destruct (t_reg s); cbn [andb] in Hin; [|rewrite app_nil_r in Hin; off Hin].
    destruct (existsb _ ev') eqn:Ee; [|rewrite app_nil_r in Hin; off Hin]. apply existsb_exists in Ee as (e & Hin' & He). destruct e as [|[|j]]; try done.
    unfold tool_step in Hb. destruct lb as [|j'|j'|j'|j' d|j']; cbn [acts step] in *; try done.
    + destruct (s_phase (t_b s) j'); try done. injection Hb as _ <-. by destruct Hin'.
    + destruct (s_phase (t_b s) j'); try done. injection Hb as _ <-. by destruct Hin'.
    + clear E H Hin. match type of Hb with (if ?c then _ else _) = _ => destruct c end; [|done]. unfold next_backoff in Hb.
      match type of Hb with context [if ?c then _ else _] => destruct c end; injection Hb as _ <-; destruct Hin' as [[=]|[]]. subst j'. eauto.
    + destruct (s_phase (t_b s) j'); try done. destruct (_ <=? _)%Z; [|done]. injection Hb as _ <-. by destruct Hin'.
  - by apply elem_of_nil in Hin.
  - by left.
  - apply elem_of_list_singleton in Hin. done.
Qed.

Lemma own_failure ls s evs d s' ev : trun t_init ls = Some (s, evs) -> TRegister ∈ ls -> tstep s (TNet (Failure 0 d)) = Some (s', ev) ->
  exists t, last_reset (fun _ => 0) 0 (pacing 0 ls) t /\
    (ev = [TB (GivesUp 0); TStops] /\ (60000000000 < clock (pacing 0 ls) - t + d)%Z \/
     ev = [TB (Delay 0 d)] /\ (clock (pacing 0 ls) - t + d <= 60000000000)%Z).
Proof.
  intros Hr Hreg Hs. pose proof (reg_label _ _ _ Hr Hreg) as Er. pose proof (pacing_run _ _ _ _ Hr) as Hp. cbn [t_b t_init t_of length] in Hp.
  destruct (tstep_kind _ _ _ _ Hs) as [ev' [=]|[=]|lv ev' m [=]|id ev' [=]|lb j ev' [= <-] Ha Hi Hb -> E|dt [=]|[=]|j [=]].
  destruct (failure_outcome tool_cfg one_for_all 0 d _ _ _ _ _ Hp Hb) as (t & Hl & H). exists t. split; [done|]. rewrite Er.
  destruct H as [(_ & -> & _ & H)|(_ & -> & [H|H])]; [left|done|right]; split; try done; cbn; exact H.
Qed.

(** ** A source that comes and goes *)

Lemma go (P : tstate -> Prop) s l s1 e1 ls : tstep s l = Some (s1, e1) -> (exists s' ev, trun s1 ls = Some (s', ev) /\ P s') -> exists s' ev, trun s (l :: ls) = Some (s', ev) /\ P s'.
Proof. intros H (s' & ev & Hr & HP). exists s', (e1 ++ ev). split; [|done]. cbn [run]. by rewrite H, Hr. Qed.

Definition come_bcn : amqp_msg := encode_beacon (Beacon (MsgProps "" "" "") 1 "ROUTER" "mc/sfe.a" "sfe.a" "a").
(** It announces itself, is taken up, and is silent for thirty seconds. *)
Definition come_and_go (w i : nat) : list tlabel :=
  [TColl (VIn (LRunMsg come_bcn)); TColl (VIn LObserve); TColl (VTake Disc); TMake; TNet (Connected i); TColl VBody; TColl VBody; TColl VBody;
   TColl (VIn (LWStart w)); TColl (VIn (LWLook w)); TTime 30000000000; TColl (VIn (LWFire w)); TColl (VIn (LWTakeTimer w)); TColl (VIn (LWForget w)); TColl (VIn (LWEnd w));
   TColl (VTake Forg); TColl VBody; TColl VBody].
Fixpoint visits (k n : nat) : list tlabel := match n with 0 => [] | S n => come_and_go k (S k) ++ visits (S k) n end.
Definition many_visits (n : nat) : list tlabel := [TStart; TNet (Connected 0); TRegister; TColl (VIn LRun)] ++ visits 0 n.

(** Nothing is known, k containers besides the first. *)
Definition at_rest (k : nat) (s : tstate) : Prop :=
  exists b ws now of, s = TState (VState (DState ∅ [] [] None RNext HSelect false ws now false) HFresh ∅) b true true of false false [] /\
    length ws = k /\ length of = k /\ (forall i, i <= k -> s_phase b i = PUp) /\ (forall i, k < i -> s_phase b i = PNew).

Lemma go_in P v b of m lb d1 e1 ls : inside lb = true -> passes_time (VIn lb) = false -> needs_stop (VIn lb) = false -> dstep (v_d v) lb = Some (d1, e1) ->
  (exists s' ev, trun (TState (VState d1 (v_at v) (v_src v)) b true true of m false []) ls = Some (s', ev) /\ P s') ->
  exists s' ev, trun (TState v b true true of m false []) (TColl (VIn lb) :: ls) = Some (s', ev) /\ P s'.
Proof.
  intros Hi Hp Hn Hd. apply go with (e1 := TV <$> (VD <$> e1)). cbn [tstep t_reg t_stop t_v t_b t_up t_of t_made t_ended]. rewrite Hp, Hn. cbn [andb orb negb]. unfold vstep. by rewrite Hi, Hd.
Qed.
Lemma go_take P v b of m k d1 e1 ls : dstep (v_d v) (LTake k) = Some (d1, e1) ->
  (exists s' ev, trun (TState (VState d1 HFresh (v_src v)) b true true of m false []) ls = Some (s', ev) /\ P s') ->
  exists s' ev, trun (TState v b true true of m false []) (TColl (VTake k) :: ls) = Some (s', ev) /\ P s'.
Proof. intros Hd. apply go with (e1 := TV <$> (VD <$> e1)). cbn [tstep t_reg t_stop t_v t_b t_up t_of t_made t_ended passes_time needs_stop andb orb negb]. unfold vstep. by rewrite Hd. Qed.
Lemma go_body P v b of m v1 e1 ls : body v = Some (v1, e1) -> (about_to_watch v <> None -> m = true) ->
  (exists s' ev, trun (TState v1 b true true of (match about_to_watch v with Some _ => false | None => m end) false []) ls = Some (s', ev) /\ P s') ->
  exists s' ev, trun (TState v b true true of m false []) (TColl VBody :: ls) = Some (s', ev) /\ P s'.
Proof.
  intros Hd Hm. apply go with (e1 := TV <$> e1). cbn [tstep t_reg t_stop t_v t_b t_up t_of t_made t_ended passes_time needs_stop andb orb negb]. unfold vstep. rewrite Hd.
  destruct (about_to_watch v) eqn:E; [|done]. rewrite Hm; [done|congruence].
Qed.

Lemma come_decodes : exists bc, decode_beacon come_bcn = Ok bc.
Proof. eexists. vm_compute. reflexivity. Qed.

Lemma alter_last {A} (f : A -> A) (l : list A) x : alter f (length l) (l ++ [x]) = l ++ [f x].
Proof. induction l as [|y l IH]; [done|]. cbn. f_equal. exact IH. Qed.
Lemma lookup_last {A} (l : list A) x : (l ++ [x]) !! length l = Some x.
Proof. by apply list_lookup_middle. Qed.

Ltac nrm := unfold ds_run, ds_map, ds_hand, ds_chans, ds_watches, upd_watch, set_chan, w_goto; cbn [v_d v_at v_src d_map d_disc d_forg d_held d_run d_hand d_cancelled d_watches d_now d_crashed chan_of
  t_v t_b t_up t_reg t_of t_made t_stop t_ended fmap list_fmap app on_errors andb orb existsb wt_cfg wt_pc wt_last wt_pend wt_prev wt_fire wt_chan wt_next wt_tick wt_cancelled].

Lemma one_visit k s : at_rest k s -> exists s' ev, trun s (come_and_go k (S k)) = Some (s', ev) /\ at_rest (S k) s'.
Proof.
  intros (b & ws & now & of & -> & Hw & Ho & Hup & Hnew). unfold come_and_go. destruct come_decodes as [bc Hbc].
  set (x := of_beacon bc now). set (id := bc_identity bc).
  eapply go_in; [done..| |].
  { unfold dstep. cbn [v_d d_crashed d_run]. unfold run_msg. change (am_props come_bcn) with (Some (AmqpProps (Some "mc/sfe.all") (Some "BEACON") None)%string). cbn [ap_subject].
    rewrite bool_decide_eq_true_2 by done. rewrite Hbc. reflexivity. }
  nrm. eapply go_in; [done..| |].
  { unfold dstep, ds_run. cbn [v_d d_map d_disc d_forg d_held d_run d_hand d_cancelled d_watches d_now d_crashed]. unfold call.
    cbn [d_held effect d_now d_map]. rewrite lookup_empty. fold x. unfold roomy. cbn [chan_of d_disc length]. change (0 <? chan_cap) with true. cbn [returns_to]. nrm. reflexivity. }
  nrm. eapply go_take.
  { unfold dstep. nrm. reflexivity. }
  nrm. eapply (go _ _ TMake).
  { cbn [tstep t_v]. unfold about_to_watch. cbn [v_d v_at]. unfold ds_hand, set_chan, ds_chans. cbn [d_hand t_made t_b t_of].
    unfold tool_step. cbn [step]. rewrite Hnew by lia. reflexivity. }
  nrm. eapply (go _ _ (TNet _)).
  { cbn [tstep acts t_ended t_b]. rewrite bool_decide_eq_false_2 by apply not_elem_of_nil. unfold tool_step. cbn [step s_phase].
    rewrite Ho, fn_lookup_insert. reflexivity. }
  nrm. cbn [length]. eapply go_body; [|done|].
  { unfold body, dstep. nrm. change (i_id (ds_info x)) with id. cbn [tool_watch w_id]. rewrite lookup_insert. reflexivity. }
  unfold about_to_watch at 1. nrm. eapply go_body; [|done|].
  { unfold body. nrm. change (i_id (ds_info x)) with id. reflexivity. }
  unfold about_to_watch at 1. nrm. eapply go_body; [|done|].
  { unfold body, dstep. nrm. reflexivity. }
  unfold about_to_watch at 1. nrm. rewrite <- Hw. eapply go_in; [done..| |].
  { unfold dstep. nrm. rewrite lookup_last. unfold watch_step. nrm. rewrite alter_last. reflexivity. }
  nrm. eapply go_in; [done..| |].
  { unfold dstep. nrm. rewrite lookup_last. unfold watch_step. nrm. rewrite alter_last. reflexivity. }
  nrm. eapply (go _ _ (TTime _)).
  { cbn [tstep]. nrm. unfold tool_step, vstep, dstep. nrm. cbn [step inside]. cbn. reflexivity. }
  nrm. eapply go_in; [done..| |].
  { unfold dstep. nrm. rewrite lookup_last. unfold watch_step. nrm. cbn [Z.ltb w_timeout tool_watch].
    rewrite (proj2 (Z.leb_le _ _)) by (cbn; lia). rewrite alter_last. reflexivity. }
  nrm. eapply go_in; [done..| |].
  { unfold dstep. nrm. rewrite lookup_last. unfold watch_step. nrm. unfold newer. nrm. rewrite alter_last. reflexivity. }
  nrm. eapply go_in; [done..| |].
  { unfold dstep. nrm. rewrite lookup_last. unfold watch_step. nrm. unfold call. nrm. cbn [effect w_id tool_watch]. rewrite lookup_insert. cbn [roomy]. unfold roomy. nrm. cbn [length returns_to]. nrm.
    change (length [] <? chan_cap) with true. cbn [returns_to]. nrm. rewrite alter_last. nrm. reflexivity. }
  nrm. eapply go_in; [done..| |].
  { unfold dstep. nrm. rewrite lookup_last. unfold watch_step. nrm. rewrite alter_last. reflexivity. }
  nrm. eapply go_take.
  { unfold dstep. nrm. reflexivity. }
  nrm. eapply go_body; [|done|].
  { unfold body. nrm. change (i_id (ds_info x)) with id. reflexivity. }
  unfold about_to_watch at 1. nrm. eapply go_body; [|done|].
  { unfold body, dstep. nrm. reflexivity. }
  unfold about_to_watch at 1. nrm. eexists _, _. split; [reflexivity|].
  change (bc_identity bc) with id. rewrite delete_insert by apply lookup_empty. rewrite delete_insert by apply lookup_empty.
  eexists _, _, _, _. split; [reflexivity|]. rewrite !app_length. cbn [length]. split; [lia|]. split; [lia|]. cbn [s_phase]. rewrite ?Ho, ?Hw. split.
  - intros i Hi. destruct (decide (i = S k)) as [->|Hne]; [by rewrite fn_lookup_insert|]. rewrite !fn_lookup_insert_ne by done. apply Hup. lia.
  - intros i Hi. rewrite !fn_lookup_insert_ne by lia. apply Hnew. lia.
Qed.

Lemma visits_run n : forall k s, at_rest k s -> exists s' ev, trun s (visits k n) = Some (s', ev) /\ at_rest (k + n) s'.
Proof.
  induction n as [|n IH]; intros k s H; [exists s, []; split; [done|by rewrite Nat.add_0_r]|].
  destruct (one_visit k s H) as (s1 & e1 & R1 & H1). destruct (IH (S k) s1 H1) as (s2 & e2 & R2 & H2).
  exists s2, (e1 ++ e2). split; [cbn [visits]; by rewrite run_app, R1, R2|]. by replace (k + S n) with (S k + n) by lia.
Qed.

Lemma many_run n : exists s evs, trun t_init (many_visits n) = Some (s, evs) /\ at_rest n s.
Proof.
  assert (exists s ev, trun t_init [TStart; TNet (Connected 0); TRegister; TColl (VIn LRun)] = Some (s, ev) /\ at_rest 0 s) as (s & ev & R & H).
  { eapply go; [cbn; reflexivity|]. nrm. eapply go; [cbn [tstep acts t_ended t_b]; rewrite bool_decide_eq_false_2 by apply not_elem_of_nil; unfold tool_step; cbn [step s_phase]; rewrite fn_lookup_insert; reflexivity|].
    nrm. eapply go; [cbn; reflexivity|]. nrm. eapply go; [cbn; reflexivity|]. nrm. eexists _, _. split; [reflexivity|].
    eexists _, _, _, _. split; [reflexivity|]. split; [done|]. split; [done|]. split.
    - intros i Hi. replace i with 0 by lia. cbn [s_phase]. by rewrite fn_lookup_insert.
    - intros i Hi. cbn [s_phase]. by rewrite !fn_lookup_insert_ne by lia. }
  destruct (visits_run n 0 s H) as (s2 & e2 & R2 & H2). exists s2, (ev ++ e2). split; [unfold many_visits; by rewrite run_app, R, R2|done].
Qed.
