(** C125: a source that goes on sending is not forgotten. *)
From Coq Require Import ZArith NArith Ascii String Lia.
From stdpp Require Import base gmap strings list sorting.
From Verif Require Import GoBase Encoding Records Messages Run Keepalive KeepaliveFacts Discovery DiscoveryFacts WatchFacts Client Live LiveFacts.

Local Open Scope list_scope.
Local Opaque encode_beacon encode_heartbeat.

(** From the first beacon on there is a heartbeat in every stretch of one interval
    and the longest time the goroutine is kept. *)
Theorem C125_beats c L now ls s evs t0 x : krun c (k_init now) ls = Some (s, evs) -> (0 <= L < heartbeat_interval c)%Z -> lags L c (k_init now) ls ->
  KLoop t0 ∈ evs -> (t0 <= x)%Z -> (x + heartbeat_interval c + L < k_now s)%Z ->
  exists b ad m, KStart b Hbt ad m ∈ evs /\ (x < b <= x + heartbeat_interval c + L)%Z.
Proof.
  intros Hr HL Hlag Hin Hx Hn. destruct (beat_window c L now ls s evs t0 x HL Hlag Hr Hin Hx Hn) as (b & Hb & Hbb).
  apply elem_of_list_omap in Hb as (e & He & Eb). destruct e as [t [] ad m| | |]; try discriminate Eb. injection Eb as ->. by exists b, ad, m.
Qed.

(** A source and a watch of it.  If each heartbeat is recorded within [D], and an
    interval, the lag and [D] are less than the timeout, then the watch decides to
    forget only before the first heartbeat can have come, or after the source
    stopped. *)
Theorem C125_alive c L D kn kls ks kevs t0 dn ls s evs w y a td b :
  krun c (k_init kn) kls = Some (ks, kevs) -> (0 <= L < heartbeat_interval c)%Z -> (0 <= D)%Z -> lags L c (k_init kn) kls -> KLoop t0 ∈ kevs ->
  drun (d_init dn) ls = Some (s, evs) -> d_watches s !! w = Some y -> Sorted Z.le (acts w evs) -> hears D w (beats kevs) evs ->
  (heartbeat_interval c + L + D < w_timeout (wt_cfg y))%Z ->
  (forall ts tl, starts w a = [ts] -> looks w a = [tl] -> tl + (heartbeat_interval c + L + D) < ts + (w_grace (wt_cfg y) + w_timeout (wt_cfg y)))%Z ->
  evs = a ++ DDecide w td :: b -> (td <= t0 + (heartbeat_interval c + L + D) \/ k_now ks + D < td)%Z.
Proof. exact (alive c L D kn kls ks kevs t0 dn ls s evs w y a td b). Qed.

(** With the defaults of a source and the timeout of the tool: 28 seconds for
    delays. *)
Theorem C125_tool c i L D kn kls ks kevs t0 dn ls s evs w y a td b : (kc_heartbeat c <= 0)%Z -> wt_cfg y = tool_watch i ->
  krun c (k_init kn) kls = Some (ks, kevs) -> (0 <= L < 2000000000)%Z -> (0 <= D)%Z -> (L + D < 28000000000)%Z -> lags L c (k_init kn) kls -> KLoop t0 ∈ kevs ->
  drun (d_init dn) ls = Some (s, evs) -> d_watches s !! w = Some y -> Sorted Z.le (acts w evs) -> hears D w (beats kevs) evs ->
  (forall ts tl, starts w a = [ts] -> looks w a = [tl] -> tl + (L + D) < ts + 28000000000)%Z ->
  evs = a ++ DDecide w td :: b -> (td <= t0 + (2000000000 + L + D) \/ k_now ks + D < td)%Z.
Proof.
  intros Hc Hy Hk HL HD HLD Hlag Hin Hd Hw Hso Hh Hfirst He.
  assert (heartbeat_interval c = 2000000000)%Z as Ei by (unfold heartbeat_interval; destruct (Z.leb_spec (kc_heartbeat c) 0); [done|lia]).
  rewrite <- Ei. eapply (C125_alive c L D kn kls ks kevs t0 dn ls s evs w y a td b Hk); rewrite ?Ei, ?Hy; try done; cbn [tool_watch w_timeout w_grace]; [lia|].
  intros ts tl H1 H2. specialize (Hfirst ts tl H1 H2). lia.
Qed.

(** ** Addresses *)

Lemma append_inj_r (a x y : string) : String.append a x = String.append a y -> x = y.
Proof. induction a as [|ch a IH]; cbn; [done|]. intros E. injection E as E. by apply IH. Qed.
Lemma append_nil_r (a x : string) : String.append a x = a -> x = ""%string.
Proof. induction a as [|ch a IH]; cbn; [done|]. intros E. injection E as E. by apply IH. Qed.

(** The tool hears the heartbeats of a source exactly if they go to the usual
    address or the source is a controller. *)
Theorem C125_listens c now ls s evs t ad m flows logs : krun c (k_init now) ls = Some (s, evs) -> KStart t Hbt ad m ∈ evs ->
  ad ∈ tool_addresses flows logs (kc_info c) <-> kc_alternate c = false \/ i_type (kc_info c) = "CONTROLLER"%string.
Proof.
  intros Hr Hin. destruct (contents_of c now ls s evs t Hbt ad m Hr Hin) as [-> _].
  unfold tool_addresses, tool_listens. set (i := kc_info c). 
  assert (forall p, listen_address i p = String.append (i_address i) ".heartbeats" -> p = FromHeartbeats) as Hp.
  { intros [] E; cbn in E; [|by apply append_inj_r in E..|done]. symmetry in E. by apply append_nil_r in E. }
  rewrite elem_of_list_fmap. split.
  - intros (p & E & Hin'). destruct (kc_alternate c); [|by left]. right. symmetry in E. apply Hp in E. subst p.
    apply elem_of_cons in Hin' as [Hx|Hin']; [done|]. apply elem_of_app in Hin' as [Hx|Hin']; [destruct flows; [by apply elem_of_list_singleton in Hx|by apply elem_of_nil in Hx]|].
    apply elem_of_app in Hin' as [Hx|Hin']; [destruct logs; [by apply elem_of_list_singleton in Hx|by apply elem_of_nil in Hx]|].
    case_bool_decide as Et; [done|by apply elem_of_nil in Hin'].
  - intros [->|Et]; [exists FromAddress; split; [done|left]|]. destruct (kc_alternate c); [|exists FromAddress; split; [done|left]].
    exists FromHeartbeats. split; [done|]. rewrite bool_decide_eq_true_2 by done. rewrite !elem_of_app. right. right. right. left.
Qed.

(** The sources of a fixture are heard, whatever their type. *)
Theorem C125_fixture name type now ls s evs t ad m flows logs : let c := fixture_manager name type in
  krun c (k_init now) ls = Some (s, evs) -> KStart t Hbt ad m ∈ evs -> ad ∈ tool_addresses flows logs (Info name 1 type ("mc/sfe." ++ name)%string ("sfe." ++ name)%string).
Proof.
  intros c Hr Hin. apply (C125_listens c now ls s evs t ad m flows logs Hr Hin). cbn [c fixture_manager kc_alternate kc_info i_type].
  case_bool_decide; [by right|by left].
Qed.

(** ** Cases *)

(** Heartbeats at 5, late, and 8; the source ends at 10. *)
Definition ex_kc : kcfg := KCfg (Info "a" 1 "ROUTER" "mc/sfe.a" "sfe.a") 1000 4 false.
Definition ex_source : list klabel :=
  [LCall; LReturn Sent; LTime 4; LFire Hbt; LTime 1; Keepalive.LTake Hbt; LReturn Sent; LTime 3; LFire Hbt; Keepalive.LTake Hbt; LReturn Sent; LTime 2; LCancelRun; LDone].
Definition ex_src : dsource := DSource (Info "a" 1 "ROUTER" "mc/sfe.a" "sfe.a") 0.
(** They are recorded at 6 and 9; the watch forgets the source at 19. *)
Definition ex_saw : list dlabel := [LActNow 0; LActStore 0 0; LWTick 0; LWTakeTick 0; LWSeen 0; LWReset 0].
Definition ex_watching : list dlabel :=
  [LUser (OAdd ex_src); LWatch (WCfg "a" 10 5 2); LWStart 0; LWLook 0; LDTime 6] ++ ex_saw ++ [LDTime 3] ++ ex_saw ++ [LDTime 10; LWFire 0; LWTakeTimer 0].

Lemma ex_lags : lags 1 ex_kc (k_init 0) ex_source.
Proof.
  intros s1 d s2 t Ht Et Hf.
  apply (transitions_check _ (fun s l _ => match l, k_tickers s with LTime d, Some t => negb (t_full t.2) || (k_now s + d <=? t_next t.2 - heartbeat_interval ex_kc + 1)%Z | _, _ => true end)) in Ht;
    [|vm_compute; reflexivity].
  cbn beta iota in Ht. rewrite Et, Hf in Ht. cbn [negb orb] in Ht. by apply Z.leb_le.
Qed.

Example C125_example : exists ks kevs s evs y a, krun ex_kc (k_init 0) ex_source = Some (ks, kevs) /\ lags 1 ex_kc (k_init 0) ex_source /\ KLoop 0 ∈ kevs /\
  beats kevs = [5; 8]%Z /\ k_now ks = 10%Z /\
  drun (d_init 0) ex_watching = Some (s, evs) /\ d_watches s !! 0 = Some y /\ acts 0 evs = [6; 9]%Z /\ resets 0 evs = [6; 9]%Z /\
  hears 1 0 (beats kevs) evs /\ w_timeout (wt_cfg y) = 10%Z /\ heartbeat_interval ex_kc = 4%Z /\ starts 0 a = [0]%Z /\ looks 0 a = [0]%Z /\
  evs = a ++ [DDecide 0 19].
Proof.
  assert (match krun ex_kc (k_init 0) ex_source with
    | Some (ks, kevs) => Some (beats kevs, k_now ks, existsb (fun x => match x with KLoop z => (z =? 0)%Z | _ => false end) kevs) | None => None end = Some ([5; 8]%Z, 10%Z, true)) as Hk
    by (vm_compute; reflexivity).
  destruct (krun ex_kc (k_init 0) ex_source) as [[ks kevs]|]; [|discriminate Hk]. injection Hk as Hb Hn Hl.
  assert (exists s evs y a, drun (d_init 0) ex_watching = Some (s, evs) /\ d_watches s !! 0 = Some y /\ acts 0 evs = [6; 9]%Z /\ resets 0 evs = [6; 9]%Z /\
    w_timeout (wt_cfg y) = 10%Z /\ starts 0 a = [0]%Z /\ looks 0 a = [0]%Z /\ acts 0 a = [6; 9]%Z /\ decides 0 a = [] /\ evs = a ++ [DDecide 0 19]) as
    (s & evs & y & a & H1 & H2 & H3 & H4 & H5 & H6 & H7 & H8 & H9 & H10).
  { assert (match drun (d_init 0) ex_watching with Some (s, evs) => exists y, d_watches s !! 0 = Some y /\ acts 0 evs = [6; 9]%Z /\ resets 0 evs = [6; 9]%Z /\
      w_timeout (wt_cfg y) = 10%Z /\ starts 0 (removelast evs) = [0]%Z /\ looks 0 (removelast evs) = [0]%Z /\ acts 0 (removelast evs) = [6; 9]%Z /\ decides 0 (removelast evs) = [] /\ evs = removelast evs ++ [DDecide 0 19] | None => False end) as H
      by (vm_compute; eexists; repeat split).
    destruct (drun (d_init 0) ex_watching) as [[s evs]|]; [|done]. destruct H as (y & H). exists s, evs, y, (removelast evs). tauto. }
  exists ks, kevs, s, evs, y, a. split; [reflexivity|]. split; [exact ex_lags|]. split.
  { apply existsb_exists in Hl as (x & Hx & Ex). apply elem_of_list_In. destruct x; try discriminate Ex. apply Z.eqb_eq in Ex. by subst. }
  split; [exact Hb|]. split; [exact Hn|]. split; [exact H1|]. split; [exact H2|]. split; [exact H3|]. split; [exact H4|]. clear H1. split.
  { intros a' t b E x Hx Hlt. rewrite H10 in E. destruct b as [|e b _] using rev_ind.
    - apply app_inj_tail in E as [<- E]. injection E as <-. rewrite H8, Hb in *. apply elem_of_cons in Hx as [->|Hx]; [exists 6%Z; split; [left|lia]|].
      apply elem_of_list_singleton in Hx as ->. exists 9%Z. split; [right; left|lia].
    - exfalso. change (DDecide 0 t :: b ++ [e]) with ((DDecide 0 t :: b) ++ [e]) in E. rewrite app_assoc in E. apply app_inj_tail in E as [Ea _].
      assert (t ∈ decides 0 a) as Hin by (rewrite Ea, decides_app; apply elem_of_app; right; left). rewrite H9 in Hin. by apply elem_of_nil in Hin. }
  split; [exact H5|]. split; [reflexivity|]. split; [exact H6|]. split; [exact H7|exact H10].
Qed.

(** A source that is no controller but uses the other address is not heard. *)
Example C125_unheard : let c := KCfg (Info "a" 1 "ROUTER" "mc/sfe.a" "sfe.a") 0 0 true in
  forall flows logs, heartbeat_address c ∉ tool_addresses flows logs (kc_info c).
Proof. intros c flows logs Hin. apply elem_of_list_fmap in Hin as (p & E & Hp). destruct flows, logs; cbn in Hp; repeat (apply elem_of_cons in Hp as [->|Hp]; [discriminate E|]); by apply elem_of_nil in Hp. Qed.

Print Assumptions C125_beats.
Print Assumptions C125_alive.
Print Assumptions C125_tool.
Print Assumptions C125_listens.
Print Assumptions C125_fixture.
