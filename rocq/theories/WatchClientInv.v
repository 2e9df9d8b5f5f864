(** What stays true of watches and the clients they watch. *)
From Coq Require Import ZArith NArith String Lia.
From stdpp Require Import base gmap strings list sorting.
From Verif Require Import GoBase Encoding Records Messages Run Keepalive Client ClientFacts ClientClose Discovery WatchClient.
From Verif Require DiscoveryLive WatchFacts WatchClientFacts.
Import WatchClientFacts (jmove, jstep_moves, project, project_from, sub_step, devs_app, cevs_app, devs_d, devs_c, cevs_d, cevs_c, d_sub, c_sub).

Local Open Scope list_scope.

(** * A step of the discovery that has no part in a client *)

Lemma d_keeps s lb s' ev : DiscoveryLive.blocked_inv s -> dstep s lb = Some (s', ev) ->
  match lb with LWatch _ | LActNow _ | LActStore _ _ => False | _ => True end ->
  length (d_watches s') = length (d_watches s) /\
  forall w y, d_watches s' !! w = Some y -> exists x, d_watches s !! w = Some x /\ wt_pend y = wt_pend x /\
    (wt_pc x = WClosing -> wt_pc y = WClosing \/ lb = LWEnd w /\ wt_pc y = WEnded) /\
    (wt_pc y = WEnded -> wt_pc x = WEnded \/ lb = LWEnd w) /\
    (wt_pc x = WEnded -> wt_pc y = WEnded) /\
    (wt_pc x = WStart -> wt_pc y = WStart \/ lb = LWStart w).
Proof.
  intros Hb Hs Hl. destruct (DiscoveryLive.step_moves _ _ _ _ Hb Hs) as (_ & _ & Hm).
  assert (forall w y, d_watches s' !! w = Some y -> exists x, d_watches s !! w = Some x /\ wt_pend y = wt_pend x /\
    (wt_pc x = WClosing -> wt_pc y = WClosing \/ lb = LWEnd w /\ wt_pc y = WEnded) /\
    (wt_pc y = WEnded -> wt_pc x = WEnded \/ lb = LWEnd w) /\
    (wt_pc x = WEnded -> wt_pc y = WEnded) /\
    (wt_pc x = WStart -> wt_pc y = WStart \/ lb = LWStart w)) as H.
  { intros w y Hy. destruct (Hm _ _ Hy) as [Hx _|c -> _ _ _ _|x Hx Ho _|x t n Hx Ep -> -> _|x p Hx Hpc -> _ Hlb].
    - exists y. repeat split; auto.
    - done.
    - exists x. split; [done|]. destruct Ho; try (by subst lb).
      all: match goal with Hy : d_watches _ !! _ = Some ?y, E : ?y = ?r |- _ =>
             let E1 := fresh in let E2 := fresh in
             assert (E1 : wt_pend y = wt_pend r) by (f_equal; exact E); assert (E2 : wt_pc y = wt_pc r) by (f_equal; exact E);
             cbn [wt_pend wt_pc w_goto] in E1, E2; rewrite E1, E2 end.
      all: split; [done|].
      all: try match goal with Hx : d_watches _ !! _ = Some ?x, Ep : wt_pc ?x = _ |- _ => rewrite Ep end.
      all: repeat split; auto; try done.
    - exists x. split; [done|]. cbn [wt_pend wt_pc w_goto]. rewrite Ep. repeat split; done.
    - exists x. split; [done|]. cbn [wt_pend wt_pc w_goto].
      destruct Hlb as [[-> Ep]|(-> & Ep & ->)]; rewrite Ep; repeat split; try done; destruct Hpc; congruence. }
  split; [|exact H]. destruct (WatchFacts.watches_length _ _ _ _ Hs) as [Hle _].
  destruct (decide (length (d_watches s') = length (d_watches s))) as [|Hne]; [done|]. exfalso.
  destruct (lookup_lt_is_Some_2 (d_watches s') (length (d_watches s))) as [y Hy]; [lia|].
  destruct (H _ _ Hy) as (x & Hx & _). apply lookup_lt_Some in Hx. lia.
Qed.

(** Steps that have. *)
Lemma upd_insert s w x y : d_watches s !! w = Some x -> d_watches (upd_watch w (fun _ => y) s) = <[w := y]> (d_watches s).
Proof.
  intros Hx. cbn [upd_watch ds_watches d_watches]. apply list_eq. intros k. destruct (decide (k = w)) as [->|Hk].
  - rewrite list_lookup_alter, list_lookup_insert by (by eapply lookup_lt_Some). by rewrite Hx.
  - by rewrite list_lookup_alter_ne, list_lookup_insert_ne.
Qed.

Lemma act_now s w s' ev : dstep s (LActNow w) = Some (s', ev) ->
  exists x y, d_watches s !! w = Some x /\ d_watches s' = <[w := y]> (d_watches s) /\ wt_pend y = wt_pend x ++ [d_now s] /\ wt_pc y = wt_pc x /\
    d_now s' = d_now s /\ d_crashed s' = false /\ ev = [].
Proof.
  unfold dstep. destruct (d_crashed s) eqn:Ec; [done|]. destruct (d_watches s !! w) as [x|] eqn:Ex; [|done]. unfold watch_step.
  intros H. exists x. destruct (wt_pc x) eqn:Ep; injection H as <- <-; eexists; (split; [done|]); (split; [by eapply upd_insert|done]).
Qed.

Lemma act_store s w k s' ev : dstep s (LActStore w k) = Some (s', ev) ->
  exists x y ts, d_watches s !! w = Some x /\ d_watches s' = <[w := y]> (d_watches s) /\ wt_pend x !! k = Some ts /\
    wt_pend y = take k (wt_pend x) ++ drop (S k) (wt_pend x) /\ wt_pc y = wt_pc x /\
    d_now s' = d_now s /\ d_crashed s' = false /\ ev = [DAct w ts].
Proof.
  unfold dstep. destruct (d_crashed s) eqn:Ec; [done|]. destruct (d_watches s !! w) as [x|] eqn:Ex; [|done]. unfold watch_step.
  intros H. exists x. destruct (wt_pc x) eqn:Ep; (destruct (wt_pend x !! k) as [ts|] eqn:Ek; [|done]); injection H as <- <-; eexists _, ts;
    (split; [done|]); (split; [by eapply upd_insert|done]).
Qed.

Lemma new_watch s c s' ev : dstep s (LWatch c) = Some (s', ev) -> d_now s' = d_now s /\ d_crashed s' = false /\
  (d_watches s' = d_watches s /\ length (d_watches s') = length (d_watches s) \/
   d_watches s' = d_watches s ++ [DiscoveryLive.new_watch c] /\ ev = [DWatch (length (d_watches s)) (w_id c)]).
Proof.
  unfold dstep. destruct (d_crashed s) eqn:Ec; [done|]. destruct (d_held s); [done|].
  destruct (d_map s !! w_id c); intros [= <- <-]; (split; [done|split; [done|]]); [right|left]; done.
Qed.

(** * Handlers *)

(** A handler a client has was registered. *)
Lemma due_wanted i b evs h x : (h, x) ∈ due i b evs -> h ∈ wanted x (b ++ evs).
Proof.
  revert b. induction evs as [|e evs IH]; intros b H; [by apply elem_of_nil in H|]. cbn [due] in H.
  apply elem_of_app in H as [H|H].
  - destruct e; try (by apply elem_of_nil in H). case_bool_decide; [|by apply elem_of_nil in H].
    apply elem_of_list_fmap in H as (h' & E & H). injection E as <- <-. rewrite wanted_app. apply elem_of_app. by left.
  - specialize (IH _ H). by rewrite <- app_assoc in IH.
Qed.
Lemma wanted_reg h x evs : h ∈ wanted x evs -> exists k, CReg k h ∈ evs.
Proof.
  intros H. apply elem_of_list_omap in H as (e & He & H). destruct e as [k h0| | | | | | | | | | | |]; try done. exists k.
  destruct k, x; try done; injection H as ->; done.
Qed.
Lemma running_reg c ls s evs i x h hs : crun c c_init ls = Some (s, evs) -> pc_of s i = Some (Client.LRun x hs) -> h ∈ hs -> exists k, CReg k h ∈ evs.
Proof.
  intros Hr Hp Hh. destruct (list_run c i _ _ _ Hr) as (_ & _ & Hd & _). apply (wanted_reg h x). change evs with ([] ++ evs).
  apply (due_wanted i). rewrite Hd. apply elem_of_app. right. unfold to_call. rewrite Hp. apply elem_of_list_fmap. eauto.
Qed.

(** The watch of a client's handler. *)
Lemma cstep_reg c s lb s' ev k h : cstep c s lb = Some (s', ev) -> CReg k h ∈ ev ->
  (exists n, lb = LReg k n /\ h = User n) \/ exists f, h = Awaiter f.
Proof.
  intros Hs Hin. destruct (close_cases _ _ _ _ _ Hs) as [ -> -> | -> -> | _ -> | _ -> | _ -> | _ -> | ? ? ? ? ? HF | j l Hl Hst | ? ? ? ? Hlb HF];
    try (exfalso; clear -Hin; repeat (apply elem_of_cons in Hin as [Hin|Hin]; [discriminate Hin|]); by apply elem_of_nil in Hin).
  - apply (proj1 (Forall_forall _ _) HF) in Hin. done.
  - destruct (listener_same _ _ _ _ _ _ Hst) as (_ & _ & _ & _ & _ & HF). by apply (proj1 (Forall_forall _ _) HF) in Hin.
  - unfold cstep in Hs. destruct (c_crashed s); [done|]. destruct lb as [k0 n| | | | | | | | | | | | | |f|f|f|f|f]; try done.
    1: { destruct (unlocked s); [|done]. injection Hs as <- <-. apply elem_of_list_singleton in Hin. injection Hin as -> ->. left. eauto. }
    1-3: (injection Hs as <- <-; first [by apply elem_of_nil in Hin|by apply elem_of_list_singleton in Hin]).
    all: destruct (c_flushes s !! _) as [x|]; [|done]; unfold flush_step in Hs; destruct (f_pc x); try done.
    all: try (destruct (unlocked s); [|done]). all: try (destruct (f_closed x); [|done]). all: try (destruct (f_cancelled x); [|done]).
    all: injection Hs as <- <-; try (by apply elem_of_nil in Hin); apply elem_of_list_singleton in Hin; try done.
    all: injection Hin as _ ->; right; eauto.
Qed.

Lemma of_grows infos s ls s' tr : jrun infos s ls = Some (s', tr) -> exists l, j_of s' = j_of s ++ l.
Proof.
  revert s tr. induction ls as [|l ls IH]; intros s tr Hr; cbn [run] in Hr; [injection Hr as <- <-; exists []; by rewrite app_nil_r|].
  destruct (jstep infos s l) as [[s1 ev1]|] eqn:Es; [|done]. destruct (run (jstep infos) s1 ls) as [[s2 ev2]|] eqn:Er; [|done]. injection Hr as <- <-.
  destruct (IH _ _ Er) as [l2 E]. destruct (jstep_moves _ _ _ _ _ Es) as [_ Hm]. destruct Hm; cbn [j_of js_d after_c] in E; eauto.
  rewrite E, <- app_assoc. eauto.
Qed.
Lemma of_keeps infos s ls s' tr w j : jrun infos s ls = Some (s', tr) -> j_of s !! w = Some j -> j_of s' !! w = Some j.
Proof. intros Hr Hw. destruct (of_grows _ _ _ _ _ Hr) as [l ->]. apply lookup_app_l_Some. exact Hw. Qed.
Lemma of_step infos s l s' ev w j : jstep infos s l = Some (s', ev) -> j_of s !! w = Some j -> j_of s' !! w = Some j.
Proof. intros Hs. apply (of_keeps infos s [l] s' ev). by rewrite run_one, Hs. Qed.

Lemma reg_of infos n now ls s tr j k w : jrun infos (j_init n now) ls = Some (s, tr) -> JEC j (CReg k (User (2 * w))) ∈ tr -> j_of s !! w = Some j.
Proof.
  revert s tr. induction ls as [|l ls IH] using rev_ind; intros s tr Hr Hin.
  { injection Hr as <- <-. by apply elem_of_nil in Hin. }
  apply run_snoc in Hr as (s1 & ev1 & ev2 & Hr & Hs & ->). apply elem_of_app in Hin as [Hin|Hin].
  { eapply of_step; [exact Hs|by eapply IH]. }
  destruct (jstep_moves _ _ _ _ _ Hs) as [_ Hm]. destruct Hm.
  all: try (by apply elem_of_list_fmap in Hin as (? & ? & _)).
  - apply elem_of_list_fmap in Hin as (e & E & Hin). injection E as -> <-. cbn [j_of].
    destruct (WatchClientFacts.reg_events _ _ _ _ _ _ H2) as [-> _]. apply elem_of_list_singleton in Hin. injection Hin as _ Hin. by assert (w0 = w) as -> by lia.
  - apply elem_of_list_fmap in Hin as (e & E & Hin). injection E as -> <-.
    destruct (cstep_reg _ _ _ _ _ _ _ H1 Hin) as [(m & -> & E)|[f E]]; [|done]. injection E as <-. change (Nat.odd (2 * w) = true) in H.
    rewrite Nat.odd_mul in H. done.
  - repeat (apply elem_of_cons in Hin as [Hin|Hin]; [done|]). by apply elem_of_nil in Hin.
  - apply elem_of_list_fmap in Hin as (e & E & Hin). injection E as -> <-. destruct (WatchClientFacts.begin_events _ _ _ _ H4) as (_ & [[-> _]|[-> _]]).
    + by apply elem_of_list_singleton in Hin.
    + repeat (apply elem_of_cons in Hin as [Hin|Hin]; [done|]). by apply elem_of_nil in Hin.
Qed.

Lemma cevs_elem j e tr : e ∈ cevs j tr <-> JEC j e ∈ tr.
Proof.
  unfold cevs. rewrite elem_of_list_omap. split.
  - intros ([|k x|] & Hin & E); try done. case_bool_decide; [|done]. by injection E as ->; subst.
  - intros Hin. exists (JEC j e). split; [done|]. by rewrite bool_decide_eq_true_2.
Qed.
Lemma devs_elem e tr : e ∈ devs tr <-> JED e ∈ tr.
Proof.
  unfold devs. rewrite elem_of_list_omap. split.
  - intros ([x| |] & Hin & E); try done. by injection E as ->.
  - intros Hin. by exists (JED e).
Qed.

(** A watch's handler about to be called belongs to a watch of that client. *)
Lemma running_of infos n now ls s tr j c i x w hs : jrun infos (j_init n now) ls = Some (s, tr) -> j_cl s !! j = Some c ->
  pc_of c i = Some (Client.LRun x hs) -> User (2 * w) ∈ hs -> j_of s !! w = Some j.
Proof.
  intros Hr Hc Hp Hh. destruct (project _ _ _ _ _ _ Hr) as (_ & _ & Hpr). destruct (Hpr j c Hc) as [lsc Hrc].
  destruct (running_reg _ _ _ _ _ _ _ _ Hrc Hp Hh) as [k Hk]. apply cevs_elem in Hk. by eapply reg_of.
Qed.

(** * The invariant *)

(** The times seen by handlers of watch [w] that have not stored them. *)
Definition under (w : nat) (l : list (nat * nat * (nat * Z))) : list Z :=
  omap (fun p => if bool_decide (p.2.1 = w) then Some p.2.2 else None) l.

Record jinv (s : jstate) : Prop := JInv {
  a_len : length (j_of s) = length (d_watches (j_d s));
  a_of : forall w j, j_of s !! w = Some j -> j < length (j_cl s);
  a_reg : forall w n, j_reg s !! w = Some n -> n <= 1 /\ exists y, d_watches (j_d s) !! w = Some y /\ wt_pc y = WStart;
  a_in : forall j i w ts, j_in s !! (j, i) = Some (w, ts) -> j_of s !! w = Some j /\ (ts <= d_now (j_d s))%Z /\
    exists c x hs, j_cl s !! j = Some c /\ pc_of c i = Some (Client.LRun x hs);
  a_pend : forall w y, d_watches (j_d s) !! w = Some y -> wt_pend y ≡ₚ under w (map_to_list (j_in s));
  a_close : forall w b, j_close s !! w = Some b -> exists y, d_watches (j_d s) !! w = Some y /\ (wt_pc y = WClosing \/ wt_pc y = WEnded /\ b = true);
  a_ended : forall w y, d_watches (j_d s) !! w = Some y -> wt_pc y = WEnded -> j_close s !! w = Some true;
  a_by : forall j w, j_by s !! j = Some w -> j_of s !! w = Some j /\ j_close s !! w = Some false;
  a_wait : forall w, j_close s !! w = Some false -> exists j c, j_of s !! w = Some j /\ j_cl s !! j = Some c /\ j_by s !! j = Some w /\
    (closing c \/ c_crashed c = true);
}.

Lemma under_perm w l l' : l ≡ₚ l' -> under w l ≡ₚ under w l'.
Proof. intros H. unfold under. by rewrite H. Qed.

Lemma jinv_init n now : jinv (j_init n now).
Proof. split; cbn; try done. Qed.

(** ** Steps of a client *)

Lemma run_keeps c s lb s' ev i x hs : cstep c s lb = Some (s', ev) -> pc_of s i = Some (Client.LRun x hs) -> lb <> LLRun i ->
  pc_of s' i = Some (Client.LRun x hs).
Proof.
  intros Hs Hp Hne.
  assert (forall k, match lb with LLNext a _ | LLAccept a _ | LLGet a | LLRun a | LLClose a => a = k | _ => False end ->
    match c_listeners s !! k with Some l => listener_step s k l lb | None => None end = Some (s', ev) -> pc_of s' i = Some (Client.LRun x hs)) as Hlis.
  { intros k Hk H. destruct (c_listeners s !! k) as [l|] eqn:El; [|done]. destruct (listener_moves _ _ _ _ _ _ El H) as (q & Hm & ->).
    case_bool_decide as E; [|done]. subst k. unfold pc_of in Hp. rewrite El in Hp. injection Hp as Hp. unfold listener_step in H. rewrite Hp in H.
    destruct lb as [| | | |? []|? []| | | | | | | | | | | | |]; try done. congruence. }
  destruct (step_cases _ _ _ _ _ Hs) as [Hq|[(ad & -> & El)|(j & l & q & Hl & Hst & _)]].
  - by destruct (Hq i) as [-> _].
  - unfold pc_of in *. destruct (c_listeners s !! i) as [l|] eqn:E; [|done]. rewrite El, lookup_app_l by (by eapply lookup_lt_Some). by rewrite E.
  - unfold cstep in Hs. destruct (c_crashed s); [done|].
    destruct lb; try (eapply Hlis; [reflexivity|exact Hs]); exfalso; unfold listener_step in Hst; by destruct (l_pc l).
Qed.

Lemma listener_close s i l lb s' ev : listener_step s i l lb = Some (s', ev) -> closing s' <-> closing s.
Proof.
  unfold listener_step, closing. intros H.
  destruct lb as [| | | |? [m|x]|? [|x]| | | | | | | | | | | | |]; try done; destruct (l_pc l) as [|m'|x'|x' [|h hs]| |]; try done.
  all: try (destruct (decode_msg (Some m')) as [[y|] [e|]|]).
  all: try (destruct (unlocked s); [|done]).
  all: injection H as <- <-; try (destruct (ends l x)); try done.
  - destruct (invoke_same h (set_pc i (Client.LRun x' hs) s)) as (_ & _ & _ & _ & _ & _ & -> & _). done.
  - destruct (c_close s) eqn:E; cbn; try (destruct (_ =? _)%Z; cbn); rewrite ?E; done.
Qed.

Lemma closed_step c s lb s' ev : cstep c s lb = Some (s', ev) -> existsb is_closed ev = true -> closing s /\ ev = [CClosed] /\ c_close s' = ClNone.
Proof.
  intros Hs He. apply existsb_exists in He as (e & Hin & He). apply elem_of_list_In in Hin. destruct e; try done.
  destruct (close_cases _ _ _ _ _ Hs) as [ -> -> | -> -> | Hlb -> _ -> | _ -> | _ -> | _ -> | ? ? ? ? ? HF | j l Hl Hst | ? ? ? ? Hlb HF];
    try (exfalso; clear -Hin; repeat (apply elem_of_cons in Hin as [Hin|Hin]; [discriminate Hin|]); by apply elem_of_nil in Hin).
  - split; [|done]. unfold closing. destruct Hlb as [[_ ->]|[_ ->]]; done.
  - by apply (proj1 (Forall_forall _ _) HF) in Hin.
  - destruct (listener_moves _ _ _ _ _ _ Hl Hst) as (q & Hm & _). by destruct (moves_no_close _ _ _ _ _ Hm).
  - by apply (proj1 (Forall_forall _ _) HF) in Hin.
Qed.

Lemma closing_step c s lb s' ev : cstep c s lb = Some (s', ev) -> closing s -> existsb is_closed ev = false -> closing s' \/ c_crashed s' = true.
Proof.
  intros Hs Hcl He. unfold closing in *.
  destruct (close_cases _ _ _ _ _ Hs) as [ _ _ Hn | _ _ Hn | Hlb -> | _ _ _ _ -> | _ _ _ _ -> | _ _ E | Hn | j l Hl Hst | E]; try done.
  - by left.
  - by right.
  - left. by rewrite E.
  - left. by apply (listener_close _ _ _ _ _ _ Hst).
  - left. by rewrite E.
Qed.

Lemma reg_keeps c s k n s' ev : cstep c s (LReg k n) = Some (s', ev) -> c_close s' = c_close s /\ c_crashed s' = false.
Proof. unfold cstep. destruct (c_crashed s) eqn:E; [done|]. destruct (unlocked s); [|done]. intros [= <- <-]. by destruct k. Qed.

(** ** It holds *)

Lemma blocked_run infos n now ls s tr : jrun infos (j_init n now) ls = Some (s, tr) -> DiscoveryLive.blocked_inv (j_d s).
Proof.
  intros Hr. destruct (project _ _ _ _ _ _ Hr) as ((lsd & Hd) & _). destruct (WatchFacts.watch_run _ _ _ _ Hd) as ((Hb & _) & _). exact Hb.
Qed.

(** The parts about clients survive a client's step. *)
Lemma in_client infos s j lb c c' ev : jinv s -> j_cl s !! j = Some c -> cstep (infos j) c lb = Some (c', ev) ->
  (forall i, lb = LLRun i -> j_in s !! (j, i) = None) ->
  forall k i w ts, j_in s !! (k, i) = Some (w, ts) -> exists ck x hs, <[j := c']> (j_cl s) !! k = Some ck /\ pc_of ck i = Some (Client.LRun x hs).
Proof.
  intros Hi Hj Hs Hno k i w ts Hin. destruct (a_in _ Hi _ _ _ _ Hin) as (_ & _ & ck & x & hs & Hk & Hp). destruct (decide (j = k)) as [->|Hne].
  - rewrite Hj in Hk. injection Hk as <-. exists c', x, hs. split; [apply list_lookup_insert; by eapply lookup_lt_Some|].
    eapply run_keeps; [exact Hs|exact Hp|]. intros ->. specialize (Hno i eq_refl). congruence.
  - exists ck, x, hs. split; [by rewrite list_lookup_insert_ne|done].
Qed.

Lemma wait_client infos s j lb c c' ev : jinv s -> j_cl s !! j = Some c -> cstep (infos j) c lb = Some (c', ev) -> existsb is_closed ev = false ->
  forall w, j_close s !! w = Some false -> exists k ck, j_of s !! w = Some k /\ <[j := c']> (j_cl s) !! k = Some ck /\ j_by s !! k = Some w /\
    (closing ck \/ c_crashed ck = true).
Proof.
  intros Hi Hj Hs He w Hw. destruct (a_wait _ Hi _ Hw) as (k & ck & Ho & Hk & Hby & Hc). exists k. destruct (decide (j = k)) as [->|Hne].
  - rewrite Hj in Hk. injection Hk as <-. exists c'. split; [done|]. split; [apply list_lookup_insert; by eapply lookup_lt_Some|]. split; [done|].
    pose proof (crashed_false _ _ _ _ _ Hs). destruct Hc as [Hc|Hc]; [|congruence]. by eapply closing_step.
  - exists ck. by rewrite list_lookup_insert_ne.
Qed.

Lemma jinv_step infos n now ls s tr l s' ev : jrun infos (j_init n now) ls = Some (s, tr) -> jinv s -> jstep infos s l = Some (s', ev) -> jinv s'.
Proof.
  intros Hr Hi Hs. pose proof (blocked_run _ _ _ _ _ _ Hr) as Hb. destruct (jstep_moves _ _ _ _ _ Hs) as [Hnc Hm]. destruct Hm.
  - (* the discovery *)
    destruct (DiscoveryLive.step_moves _ _ _ _ Hb H0) as (Hnow & _).
    destruct (d_keeps _ _ _ _ Hb H0) as [Hlen Hk]; [by destruct l|].
    assert (forall w x, d_watches (j_d s) !! w = Some x -> exists y, d_watches d !! w = Some y /\ wt_pend y = wt_pend x /\
      (wt_pc x = WClosing -> wt_pc y = WClosing \/ l = LWEnd w /\ wt_pc y = WEnded) /\ (wt_pc x = WEnded -> wt_pc y = WEnded) /\
      (wt_pc x = WStart -> wt_pc y = WStart \/ l = LWStart w)) as Hf.
    { intros w x Hx. destruct (lookup_lt_is_Some_2 (d_watches d) w) as [y Hy]; [rewrite Hlen; by eapply lookup_lt_Some|].
      destruct (Hk _ _ Hy) as (x' & Hx' & H1 & H2 & _ & H3 & H4). rewrite Hx in Hx'. injection Hx' as <-. eauto 10. }
    split; cbn [js_d j_d j_cl j_of j_reg j_in j_by j_close].
    + rewrite Hlen. apply Hi.
    + apply Hi.
    + intros w m Hw. destruct (a_reg _ Hi _ _ Hw) as (Hle & x & Hx & Hp). split; [done|]. destruct (Hf _ _ Hx) as (y & Hy & _ & _ & _ & H1).
      exists y. split; [done|]. destruct (H1 Hp) as [|E]; [done|]. subst l. cbn [WatchClientFacts.apart] in H. congruence.
    + intros j i w ts Hin. destruct (a_in _ Hi _ _ _ _ Hin) as (H1 & H2 & H3). split; [done|]. split; [lia|done].
    + intros w y Hy. destruct (Hk _ _ Hy) as (x & Hx & -> & _). by apply (a_pend _ Hi).
    + intros w b Hw. destruct (a_close _ Hi _ _ Hw) as (x & Hx & Hp). destruct (Hf _ _ Hx) as (y & Hy & _ & H1 & H2 & _). exists y. split; [done|].
      destruct Hp as [Hp|[Hp ->]]; [|by right; auto]. destruct (H1 Hp) as [|[-> E]]; [by left|]. right. split; [done|].
      cbn [WatchClientFacts.apart] in H. congruence.
    + intros w y Hy Hp. destruct (Hk _ _ Hy) as (x & Hx & _ & _ & H1 & _). destruct (H1 Hp) as [E|E]; [by eapply (a_ended _ Hi)|]. subst l. exact H.
    + apply Hi.
    + apply Hi.
  - (* no watch *)
    destruct (new_watch _ _ _ _ H0) as (Hn & _ & [[E _]|[E _]]); [|exfalso; rewrite E, app_length in H1; cbn in H1; lia].
    split; cbn [js_d j_d j_cl j_of j_reg j_in j_by j_close]; rewrite ?E, ?Hn; apply Hi.
  - (* a watch *)
    destruct (new_watch _ _ _ _ H0) as (Hn & _ & [[E E2]|[E _]]); [done|].
    assert (forall w x, d_watches (j_d s) !! w = Some x -> d_watches d !! w = Some x) as Hf.
    { intros w x Hx. rewrite E. by apply lookup_app_l_Some. }
    pose proof (a_len _ Hi) as Hlen.
    split; cbn [js_d j_d j_cl j_of j_reg j_in j_by j_close].
    + rewrite E, !app_length. cbn. lia.
    + intros w k Hk. apply lookup_app_Some in Hk as [Hk|[_ Hk]]; [by eapply (a_of _ Hi)|]. destruct (w - _) as [|]; [|done]. by injection Hk as <-.
    + intros w m Hw. destruct (decide (w = length (d_watches (j_d s)))) as [->|Hne].
      * rewrite lookup_insert in Hw. injection Hw as <-. split; [done|]. rewrite E. exists (DiscoveryLive.new_watch c). split; [by apply list_lookup_middle|done].
      * rewrite lookup_insert_ne in Hw by done. destruct (a_reg _ Hi _ _ Hw) as (Hle & x & Hx & Hp). eauto.
    + intros k i w ts Hin. destruct (a_in _ Hi _ _ _ _ Hin) as (H2 & H3 & H4). rewrite Hn. split; [by apply lookup_app_l_Some|done].
    + intros w y Hy. rewrite E in Hy. apply lookup_app_Some in Hy as [Hy|[Hge Hy]]; [by apply (a_pend _ Hi)|].
      destruct (w - _) as [|] eqn:Ew; [|done]. injection Hy as <-. cbn [wt_pend DiscoveryLive.new_watch].
      destruct (under w (map_to_list (j_in s))) as [|t r] eqn:Eu; [done|]. exfalso.
      assert (t ∈ under w (map_to_list (j_in s))) as Ht by (rewrite Eu; left). apply elem_of_list_omap in Ht as ([[k i] [w0 ts]] & Hin & Ht).
      cbn in Ht. case_bool_decide as Ew0; [|done]. subst w0. apply elem_of_map_to_list in Hin. destruct (a_in _ Hi _ _ _ _ Hin) as (Hof & _).
      apply lookup_lt_Some in Hof. lia.
    + intros w b Hw. destruct (a_close _ Hi _ _ Hw) as (x & Hx & Hp). eauto.
    + intros w y Hy Hp. rewrite E in Hy. apply lookup_app_Some in Hy as [Hy|[Hge Hy]]; [by eapply (a_ended _ Hi)|].
      destruct (w - _) as [|] eqn:Ew; [|done]. by injection Hy as <-.
    + intros k w Hw. destruct (a_by _ Hi _ _ Hw) as [H2 H3]. split; [by apply lookup_app_l_Some|done].
    + intros w Hw. destruct (a_wait _ Hi _ Hw) as (k & ck & H2 & H3 & H4). exists k, ck. split; [by apply lookup_app_l_Some|done].
  - (* registering *)
    destruct (WatchClientFacts.reg_events _ _ _ _ _ _ H2) as [Eev _].
    split; cbn [j_d j_cl j_of j_reg j_in j_by j_close]; try apply Hi.
    + intros k Hk. rewrite insert_length. by apply (a_of _ Hi).
    + intros k m Hk. destruct (a_reg _ Hi _ _ H) as (Hle & x & Hx & Hp). destruct n0 as [|n0].
      * apply lookup_delete_Some in Hk as [_ Hk]. by apply (a_reg _ Hi).
      * destruct (decide (k = w)) as [->|Hne]; [rewrite lookup_insert in Hk; injection Hk as <-; split; [lia|eauto]|].
        rewrite lookup_insert_ne in Hk by done. by apply (a_reg _ Hi).
    + intros k i w0 ts Hin. destruct (a_in _ Hi _ _ _ _ Hin) as (H3 & H4 & _). split; [done|]. split; [done|]. eapply in_client; [done|exact H1|exact H2| |exact Hin].
      by intros ? [=].
    + eapply wait_client; [done|exact H1|exact H2|]. by rewrite Eev.
  - (* a client *)
    assert (forall i, l = LLRun i -> j_in s !! (j, i) = None) as Hno by (by intros i ->; destruct H).
    assert (forall k i w ts, j_in s !! (k, i) = Some (w, ts) -> j_of s !! w = Some k /\ (ts <= d_now (j_d s))%Z /\
      exists ck x hs, <[j := c']> (j_cl s) !! k = Some ck /\ pc_of ck i = Some (Client.LRun x hs)) as Hin'.
    { intros k i w0 ts Hin. destruct (a_in _ Hi _ _ _ _ Hin) as (H3 & H4 & _). split; [done|]. split; [done|]. by eapply in_client. }
    destruct (existsb is_closed ev) eqn:Ecl.
    + destruct (closed_step _ _ _ _ _ H1 Ecl) as (Hclo & -> & Hn').
      assert (forall w, j_by s !! j = Some w -> exists y, d_watches (j_d s) !! w = Some y /\ wt_pc y = WClosing) as Hw0.
      { intros w Hw. destruct (a_by _ Hi _ _ Hw) as [_ Hf]. destruct (a_close _ Hi _ _ Hf) as (y & Hy & [Hp|[_ [=]]]). eauto. }
      unfold after_c. cbn [existsb is_closed orb]. split; cbn [j_d j_cl j_of j_reg j_in j_by j_close]; try apply Hi.
      * intros k Hk. rewrite insert_length. by apply (a_of _ Hi).
      * exact Hin'.
      * intros w b Hw. destruct (j_by s !! j) as [w0|] eqn:Eb; [|by eapply (a_close _ Hi)]. destruct (decide (w = w0)) as [->|Hne].
        -- destruct (Hw0 _ eq_refl) as (y & Hy & Hp). eauto.
        -- rewrite lookup_insert_ne in Hw by done. by eapply (a_close _ Hi).
      * intros w y Hy Hp. pose proof (a_ended _ Hi _ _ Hy Hp) as Hw. destruct (j_by s !! j) as [w0|] eqn:Eb; [|done].
        destruct (decide (w = w0)) as [->|Hne]; [by rewrite lookup_insert|by rewrite lookup_insert_ne].
      * intros k w Hk. apply lookup_delete_Some in Hk as [Hne Hk]. destruct (a_by _ Hi _ _ Hk) as [H3 H4]. split; [done|].
        destruct (j_by s !! j) as [w0|] eqn:Eb; [|done]. destruct (a_by _ Hi _ _ Eb) as [H5 _].
        rewrite lookup_insert_ne; [done|]. intros ->. congruence.
      * intros w Hw. assert (j_by s !! j <> Some w /\ j_close s !! w = Some false) as [Hnw Hw'].
        { destruct (j_by s !! j) as [w0|] eqn:Eb; [|done]. destruct (decide (w = w0)) as [->|Hne]; [by rewrite lookup_insert in Hw|].
          rewrite lookup_insert_ne in Hw by done. split; [congruence|done]. }
        destruct (a_wait _ Hi _ Hw') as (k & ck & H3 & H4 & H5 & H6). assert (j <> k) as Hne by (intros ->; done). exists k, ck.
        rewrite list_lookup_insert_ne, lookup_delete_ne by done. done.
    + unfold after_c. rewrite Ecl. split; cbn [j_d j_cl j_of j_reg j_in j_by j_close]; try apply Hi.
      * intros k Hk. rewrite insert_length. by apply (a_of _ Hi).
      * exact Hin'.
      * by eapply wait_client.
  - (* a handler is called *)
    assert (j_of s !! w = Some j) as Hof.
    { unfold cstep in H1. destruct (c_crashed c); [done|]. destruct (c_listeners c !! i) as [l|] eqn:El; [|done]. unfold listener_step in H1.
      destruct (l_pc l) as [|m|y|y [|g hs]| |] eqn:Ep; try done. injection H1 as _ _ Hg _. subst g.
      eapply (running_of _ _ _ _ _ _ _ _ i); [exact Hr|exact H0|unfold pc_of; rewrite El; cbn; rewrite Ep; reflexivity|left]. }
    destruct (act_now _ _ _ _ H2) as (y & y' & Hy & Hd & Hpe & Hpc & Hn & _ & _).
    assert (forall k z, d_watches d !! k = Some z -> exists z0, d_watches (j_d s) !! k = Some z0 /\ wt_pc z = wt_pc z0) as Hback.
    { intros k z Hz. rewrite Hd in Hz. destruct (decide (w = k)) as [->|Hne].
      - rewrite list_lookup_insert in Hz by (by eapply lookup_lt_Some). injection Hz as <-. eauto.
      - rewrite list_lookup_insert_ne in Hz by done. eauto. }
    assert (forall k z, d_watches (j_d s) !! k = Some z -> exists z0, d_watches d !! k = Some z0 /\ wt_pc z0 = wt_pc z) as Hforw.
    { intros k z Hz. rewrite Hd. destruct (decide (w = k)) as [->|Hne].
      - rewrite list_lookup_insert by (by eapply lookup_lt_Some). rewrite Hy in Hz. injection Hz as <-. eauto.
      - rewrite list_lookup_insert_ne by done. eauto. }
    split; cbn [j_d j_cl j_of j_reg j_in j_by j_close].
    + rewrite Hd, insert_length. apply Hi.
    + intros k m Hk. rewrite insert_length. by eapply (a_of _ Hi).
    + intros k m Hk. destruct (a_reg _ Hi _ _ Hk) as (Hle & z & Hz & Hp). split; [done|]. destruct (Hforw _ _ Hz) as (z0 & ? & ?). exists z0. split; [done|congruence].
    + intros k i0 w0 ts Hin. rewrite Hn. destruct (decide ((k, i0) = (j, i))) as [E|Hne].
      * injection E as -> ->. rewrite lookup_insert in Hin. injection Hin as <- <-. split; [done|]. split; [lia|].
        unfold cstep in H1. destruct (c_crashed c); [done|]. destruct (c_listeners c !! i) as [l|] eqn:El; [|done].
        destruct (listener_moves _ _ _ _ _ _ El H1) as (q & Hm & Hq). exists c'.
        assert (exists hs, q = Client.LRun x hs) as [hs ->] by (inversion Hm; eauto).
        exists x, hs. split; [apply list_lookup_insert; by eapply lookup_lt_Some|]. by rewrite Hq, bool_decide_eq_true_2.
      * rewrite lookup_insert_ne in Hin by done. destruct (a_in _ Hi _ _ _ _ Hin) as (H3 & H4 & _). split; [done|]. split; [done|].
        eapply in_client; [done|exact H0|exact H1| |exact Hin]. by intros ? [= <-].
    + intros k z Hz. rewrite (under_perm k _ _ (map_to_list_insert _ _ _ H)). unfold under. cbn [omap list_omap]. cbn [snd fst]. rewrite Hn.
      rewrite Hd in Hz. destruct (decide (w = k)) as [->|Hne].
      * rewrite list_lookup_insert in Hz by (by eapply lookup_lt_Some). injection Hz as <-. rewrite Hpe, bool_decide_eq_true_2 by done.
        rewrite (a_pend _ Hi _ _ Hy). unfold under. by rewrite Permutation_app_comm.
      * rewrite list_lookup_insert_ne in Hz by done. rewrite bool_decide_eq_false_2 by done. by apply (a_pend _ Hi).
    + intros k b Hk. destruct (a_close _ Hi _ _ Hk) as (z & Hz & Hp). destruct (Hforw _ _ Hz) as (z0 & ? & E). exists z0. by rewrite E.
    + intros k z Hz Hp. destruct (Hback _ _ Hz) as (z0 & ? & E). eapply (a_ended _ Hi); [done|congruence].
    + apply Hi.
    + eapply wait_client; [done|exact H0|exact H1|done].
  - (* a handler stores *)
    destruct (act_store _ _ _ _ _ H2) as (z & y' & ts' & Hz & Hd & Hts & Hpe & Hpc & Hn & _ & ->).
    rewrite H0 in Hz. injection Hz as <-. rewrite H1 in Hts. injection Hts as <-.
    assert (forall k z, d_watches d !! k = Some z -> exists z0, d_watches (j_d s) !! k = Some z0 /\ wt_pc z = wt_pc z0) as Hback.
    { intros k0 z Hz. rewrite Hd in Hz. destruct (decide (w = k0)) as [->|Hne].
      - rewrite list_lookup_insert in Hz by (by eapply lookup_lt_Some). injection Hz as <-. eauto.
      - rewrite list_lookup_insert_ne in Hz by done. eauto. }
    assert (forall k z, d_watches (j_d s) !! k = Some z -> exists z0, d_watches d !! k = Some z0 /\ wt_pc z0 = wt_pc z) as Hforw.
    { intros k0 z Hz. rewrite Hd. destruct (decide (w = k0)) as [->|Hne].
      - rewrite list_lookup_insert by (by eapply lookup_lt_Some). rewrite H0 in Hz. injection Hz as <-. eauto.
      - rewrite list_lookup_insert_ne by done. eauto. }
    split; cbn [j_d j_cl j_of j_reg j_in j_by j_close].
    + rewrite Hd, insert_length. apply Hi.
    + apply Hi.
    + intros k0 m Hk. destruct (a_reg _ Hi _ _ Hk) as (Hle & z & Hz & Hp). split; [done|]. destruct (Hforw _ _ Hz) as (z0 & ? & ?). exists z0. split; [done|congruence].
    + intros k0 i0 w0 ts0 Hin. apply lookup_delete_Some in Hin as [_ Hin]. rewrite Hn. by apply (a_in _ Hi).
    + intros k0 z Hz. pose proof (under_perm k0 _ _ (map_to_list_delete _ _ _ H)) as HP. unfold under in HP at 1. cbn [omap list_omap snd fst] in HP.
      rewrite Hd in Hz. destruct (decide (w = k0)) as [->|Hne].
      * rewrite list_lookup_insert in Hz by (by eapply lookup_lt_Some). injection Hz as <-. rewrite Hpe. rewrite bool_decide_eq_true_2 in HP by done.
        pose proof (a_pend _ Hi _ _ H0) as HP0. apply (Permutation_cons_inv (a := ts)). change (omap _ _) with (under k0 (map_to_list (delete (j, i) (j_in s)))) in HP.
        rewrite HP, <- HP0. rewrite <- (take_drop_middle _ _ _ H1) at 3. by rewrite Permutation_middle.
      * rewrite list_lookup_insert_ne in Hz by done. rewrite bool_decide_eq_false_2 in HP by done. rewrite (a_pend _ Hi _ _ Hz). symmetry. exact HP.
    + intros k0 b Hk. destruct (a_close _ Hi _ _ Hk) as (z & Hz & Hp). destruct (Hforw _ _ Hz) as (z0 & ? & E). exists z0. by rewrite E.
    + intros k0 z Hz Hp. destruct (Hback _ _ Hz) as (z0 & ? & E). eapply (a_ended _ Hi); [done|congruence].
    + apply Hi.
    + apply Hi.
  - (* a watch closes its client *)
    destruct (WatchClientFacts.begin_events _ _ _ _ H4) as [Hnone Hev].
    assert (existsb is_closed ev = false) as Ecl by (destruct Hev as [[-> _]|[-> _]]; done).
    assert (j_by s !! j = None) as Hby.
    { destruct (j_by s !! j) as [w0|] eqn:Eb; [|done]. exfalso. destruct (a_by _ Hi _ _ Eb) as [H5 H6].
      destruct (a_wait _ Hi _ H6) as (k & ck & H7 & H8 & _ & H9). rewrite H5 in H7. injection H7 as <-. rewrite H3 in H8. injection H8 as <-.
      pose proof (crashed_false _ _ _ _ _ H4). destruct H9 as [H9|H9]; [done|congruence]. }
    split; cbn [j_d j_cl j_of j_reg j_in j_by j_close]; try apply Hi.
    + intros k m Hk. rewrite insert_length. by eapply (a_of _ Hi).
    + intros k i w0 ts Hin. destruct (a_in _ Hi _ _ _ _ Hin) as (H5 & H6 & _). split; [done|]. split; [done|]. eapply in_client; [done|exact H3|exact H4| |exact Hin].
      by intros ? [=].
    + intros k b Hk. destruct (decide (w = k)) as [->|Hne]; [rewrite lookup_insert in Hk; eauto|]. rewrite lookup_insert_ne in Hk by done. by eapply (a_close _ Hi).
    + intros k z Hz Hp. assert (w <> k) as Hne by (intros ->; congruence). rewrite lookup_insert_ne by done. by eapply (a_ended _ Hi).
    + intros k w0 Hk. destruct (decide (j = k)) as [->|Hne].
      * rewrite lookup_insert in Hk. injection Hk as <-. split; [done|]. by rewrite lookup_insert.
      * rewrite lookup_insert_ne in Hk by done. destruct (a_by _ Hi _ _ Hk) as [H5 H6]. split; [done|]. rewrite lookup_insert_ne; [done|]. intros ->. congruence.
    + intros k Hk. destruct (decide (w = k)) as [->|Hne].
      * exists j, c'. split; [done|]. split; [apply list_lookup_insert; by eapply lookup_lt_Some|]. split; [by rewrite lookup_insert|].
        destruct Hev as [(_ & _ & E & _)|(_ & _ & E)]; [left; unfold closing; by rewrite E|by right].
      * rewrite lookup_insert_ne in Hk by done. destruct (wait_client infos s j _ c c' ev Hi H3 H4 Ecl _ Hk) as (k0 & ck & H5 & H6 & H7 & H8).
        exists k0, ck. split; [done|]. split; [done|]. split; [|done]. rewrite lookup_insert_ne; [done|]. intros ->. congruence.
Qed.

Lemma jinv_run infos n now ls s tr : jrun infos (j_init n now) ls = Some (s, tr) -> jinv s.
Proof.
  revert s tr. induction ls as [|l ls IH] using rev_ind; intros s tr Hr; [injection Hr as <- <-; apply jinv_init|].
  apply run_snoc in Hr as (s1 & ev1 & ev2 & Hr & Hs & ->). eapply jinv_step; [exact Hr|by eapply IH|exact Hs].
Qed.
