(** Facts about the manager over stores of any kind. *)
From Coq Require Import ZArith NArith Ascii String Lia.
From stdpp Require Import base gmap strings list.
From Verif Require Import GoBase Encoding Records Messages SpecMessages MessageFacts Env SyncMap Tokens Cache SpecStore StoreExamples
  Dispatch Diff ConvergeFacts Run Manager ManagerFacts FlushAny.

Local Open Scope list_scope.
Local Opaque vanflow_registry builtin_types record_types Encode Decode attrs_of.

(** ** Specification *)

(** The manager's own events; the calls of List. *)
Definition of_manager (evs : list aev) : list mev := omap (fun x => match x with AM e => Some e | _ => None end) evs.
Definition asked (evs : list aev) : list (nat * string * lres) := omap (fun x => match x with AAsked i _ tok r => Some (i, tok, r) | _ => None end) evs.

(** A page without records makes no message. *)
Definition page (l : mmsg) : list mmsg := match l with [] => [] | _ => [l] end.

(** Store [i] is asked with [tok], then with the token of its last answer, until
    that is empty; after an error the same again.  The messages are its pages. *)
Inductive paged (i : nat) : string -> list (nat * string * lres) -> list mmsg -> Prop :=
  | pg_last tok l : paged i tok [(i, tok, LOk l "")] (page l)
  | pg_more tok tok' l asks ms : tok' <> ""%string -> paged i tok' asks ms -> paged i tok ((i, tok, LOk l tok') :: asks) (page l ++ ms)
  | pg_again tok b asks ms : paged i tok asks ms -> paged i tok ((i, tok, LErr b) :: asks) ms.

(** One store after the other, each from its beginning. *)
Inductive passes : list nat -> list (nat * string * lres) -> list mmsg -> Prop :=
  | ps_none : passes [] [] []
  | ps_store i q a1 m1 a2 m2 : paged i "" a1 m1 -> passes q a2 m2 -> passes (i :: q) (a1 ++ a2) (m1 ++ m2).

(** ** Steps *)

Lemma of_manager_app a b : of_manager (a ++ b) = of_manager a ++ of_manager b.
Proof. apply omap_app. Qed.
Lemma asked_app a b : asked (a ++ b) = asked a ++ asked b.
Proof. apply omap_app. Qed.
Lemma of_manager_AM ev : of_manager (AM <$> ev) = ev.
Proof. induction ev as [|e ev IH]; [done|]. unfold of_manager. cbn. f_equal. exact IH. Qed.
Lemma asked_AM ev : asked (AM <$> ev) = [].
Proof. induction ev as [|e ev IH]; [done|]. exact IH. Qed.

Inductive astep_case (c : mcfg) (s : mstate) (l : alabel) (s' : mstate) (ev : list aev) : Prop :=
  | ac_listed r i q tok : l = AListed r -> m_crashed s = false -> m_serve s = SPass (i :: q) tok -> s' = listed r i q tok s ->
      ev = [AAsked i (mc_flush_batch c) tok r] -> astep_case c s l s' ev
  | ac_other l0 e : l = AL l0 -> mstep c s l0 = Some (s', e) -> ev = AM <$> e ->
      (forall i q tok, m_serve s = SPass (i :: q) tok -> forall en, l0 <> LServe en ADo) -> astep_case c s l s' ev.

Lemma astep_cases c s l s' ev : astep c s l = Some (s', ev) -> astep_case c s l s' ev.
Proof.
  intros H. unfold astep in H. destruct l as [l|r].
  - assert (exists e, mstep c s l = Some (s', e) /\ ev = AM <$> e /\ (forall i q tok, m_serve s = SPass (i :: q) tok -> forall en, l <> LServe en ADo)) as (e & H1 & H2 & H3).
    { assert (forall P : Prop, match mstep c s l with Some (s'0, ev0) => Some (s'0, AM <$> ev0) | None => None end = Some (s', ev) -> P ->
        exists e, mstep c s l = Some (s', e) /\ ev = AM <$> e /\ P) as Hg.
      { intros P E HP. destruct (mstep c s l) as [[s1 e]|]; [|done]. injection E as -> <-. by exists e. }
      destruct l; try (apply Hg; [exact H|]; intros; congruence).
      destruct a; try (apply Hg; [exact H|]; intros; congruence).
      destruct (m_serve s) as [| | | |[|i q] tok| |] eqn:Es; try done; (apply Hg; [exact H|]); intros; congruence. }
    by eapply ac_other.
  - destruct (m_crashed s) eqn:Hc; [done|]. destruct (m_serve s) as [| | | |[|i q] tok| |] eqn:Es; try done. injection H as <- <-. by eapply ac_listed.
Qed.

(** ** Updates and sending, whatever the stores answer *)

Lemma upd_any_step c s evs l s' ev : upd_inv c s (of_manager evs) ->
  match l with AL (LServe e _ | LStore _ e _) => env_ok e | _ => True end ->
  astep c s l = Some (s', ev) -> upd_inv c s' (of_manager (evs ++ ev)).
Proof.
  intros Hi He Hs. rewrite of_manager_app. destruct (astep_cases _ _ _ _ _ Hs) as [r i q tok -> Hc Es -> ->|l0 e -> Hm -> _].
  - change (of_manager [AAsked i (mc_flush_batch c) tok r]) with (@nil mev).
    apply (upd_inv_keep c s); [done|done|done|done|..]; unfold listed; destruct r as [l tok'|[]|]; cbn [andb];
      try (destruct l); try (destruct (m_cancelled s)); flags; try done; rewrite ?Es; tauto.
  - rewrite of_manager_AM. by eapply upd_inv_step.
Qed.

Lemma send_any_step c s evs l s' ev : send_inv s (of_manager evs) -> astep c s l = Some (s', ev) -> send_inv s' (of_manager (evs ++ ev)).
Proof.
  intros Hi Hs. rewrite of_manager_app. destruct (astep_cases _ _ _ _ _ Hs) as [r i q tok -> Hc Es -> ->|l0 e -> Hm -> _].
  - change (of_manager [AAsked i (mc_flush_batch c) tok r]) with (@nil mev).
    apply (send_inv_keep s); [done|done|done|]. unfold listed. destruct r as [l tok'|[]|]; cbn [andb]; [by destruct l|by destruct (m_cancelled s)|done|done].
  - rewrite of_manager_AM. by eapply send_inv_step.
Qed.

Definition alabels_ok (ls : list alabel) : Prop :=
  Forall (fun l => match l with AL (LServe e _ | LStore _ e _) => env_ok e | _ => True end) ls.

Lemma upd_any c w ls s evs : alabels_ok ls -> arun c (m_init w) ls = Some (s, evs) -> upd_inv c s (of_manager evs) /\ send_inv s (of_manager evs).
Proof.
  intros Hl Hr. change evs with ([] ++ evs).
  apply (run_inv (astep c) (fun s evs => upd_inv c s (of_manager evs) /\ send_inv s (of_manager evs)) _ (m_init w) [] ls s evs) with (3 := Hl) (4 := Hr).
  - split.
    + exists [], []. simpl. repeat (split; [done|]). split; [lia|]. split; [constructor|done].
    + exists []. cbn. split; [done|]. split; [lia|]. split; [done|constructor].
  - intros s1 evs1 l s' ev [H1 H2] Hq Hs. split; [by eapply upd_any_step|by eapply send_any_step].
Qed.

(** ** A pass *)

(** From here on: the rest of the store being asked, then the others. *)
Definition rest (q : list nat) (tok : string) (asks : list (nat * string * lres)) (ms : list mmsg) : Prop :=
  match q with
  | [] => asks = [] /\ ms = []
  | i :: q' => exists a1 a2 m1 m2, asks = a1 ++ a2 /\ ms = m1 ++ m2 /\ paged i tok a1 m1 /\ passes q' a2 m2
  end.

Lemma rest_begin q asks ms : rest q "" asks ms -> passes q asks ms.
Proof. destruct q as [|i q]; [intros [-> ->]; constructor|]. intros (a1 & a2 & m1 & m2 & -> & -> & H1 & H2). by constructor. Qed.

Lemma is_serve l : (exists e a, l = LServe e a) \/ (forall e a, l <> LServe e a).
Proof. destruct l; try (by right). left. by eexists _, _. Qed.

Lemma serve_other c s l s' e : mstep c s l = Some (s', e) -> (forall en a, l <> LServe en a) ->
  m_serve s' = m_serve s /\ flush_msgs e = [] /\ MPassEnd ∉ e.
Proof.
  intros H Hn. unfold mstep in H. destruct (m_crashed s); [done|].
  assert (forall ev, MPassEnd ∉ ev <-> Forall (fun x => x <> MPassEnd) ev) as HF.
  { intros ev. rewrite Forall_forall. split; [by intros Hx x Hin ->|intros Hx Hin; by apply (Hx MPassEnd)]. }
  rewrite HF. destruct l; try (by exfalso; eapply Hn).
  - destruct (_ <? 256)%Z; [|done]. injection H as <- <-. split; [done|]. split; [done|]. by repeat constructor.
  - destruct (m_listening s); [|done]. injection H as <- <-. unfold recv_step. cbn [fst snd]. split; [by destruct (_ <? 8)%Z|]. split; [by destruct ok|]. constructor; [by destruct ok|constructor].
  - destruct (_ && _); [|done]. injection H as <- <-. split; [done|]. split; [done|constructor].
  - destruct (m_sending s); [|done]. unfold send_step in H. destruct (m_sends s); [done|]. destruct (encode_record_msg _); injection H as <- <-; (split; [done|]; split; [done|]; by repeat constructor).
  - destruct (_ && _); [|done]. injection H as <- <-. split; [done|]. split; [done|constructor].
  - injection H as <- <-. split; [done|]. split; [done|constructor].
  - destruct (run_op _ _ _ _) as [[s1 ?] ?]. injection H as <- <-. split; [done|]. split; [done|constructor].
Qed.

Lemma pass_any c ls : forall s s' evs ev1 ev2 pre q tok,
  arun c s ls = Some (s', evs) -> evs = ev1 ++ AM MPassEnd :: ev2 -> AM MPassEnd ∉ ev1 ->
  (m_serve s = SPass q tok /\ pre = [] \/ exists m, m_serve s = SPassSend m q tok /\ pre = [m]) ->
  exists ms, flush_msgs (of_manager ev1) = pre ++ ms /\ rest q tok (asked ev1) ms.
Proof.
  induction ls as [|l ls IH]; intros s s' evs ev1 ev2 pre q tok Hr Ee Hn Hs.
  { unfold arun in Hr. cbn [run] in Hr. injection Hr as <- <-. by destruct ev1. }
  unfold arun in *. cbn [run] in Hr. destruct (astep c s l) as [[s1 e1]|] eqn:E1; [|done]. destruct (run (astep c) s1 ls) as [[s2 e2]|] eqn:E2; [|done].
  injection Hr as <- <-.
  (* when the step does not end the pass *)
  assert (AM MPassEnd ∉ e1 -> exists ev1', ev1 = e1 ++ ev1' /\ e2 = ev1' ++ AM MPassEnd :: ev2 /\ AM MPassEnd ∉ ev1') as Hsplit.
  { intros Hne. apply app_eq_app in Ee as [k [[-> Ek]|[-> Ek]]].
    - destruct k as [|x k]; [exists []; rewrite !app_nil_r; cbn in Ek; split; [done|]; split; [by rewrite <- Ek|by intros ?%elem_of_nil]|].
      injection Ek as <- Ek. exfalso. apply Hne. apply elem_of_app. right. left.
    - exists k. split; [done|]. split; [done|]. intros Hin. apply Hn. apply elem_of_app. by right. }
  destruct (astep_cases _ _ _ _ _ E1) as [r i q0 tok0 -> Hc Es -> ->|l0 e -> Hm -> Hnot].
  - (* List *)
    destruct Hs as [[Es' ->]|(m & Es' & _)]; [|congruence]. assert (q = i :: q0 /\ tok = tok0) as [-> ->] by (split; congruence).
    destruct Hsplit as (ev1' & -> & -> & Hn'); [intros Hin; apply elem_of_list_singleton in Hin; discriminate Hin|].
    rewrite of_manager_app, asked_app. change (of_manager [AAsked i (mc_flush_batch c) tok0 r]) with (@nil mev).
    change (asked [AAsked i (mc_flush_batch c) tok0 r]) with [(i, tok0, r)]. cbn [app].
    destruct r as [l tok'|ctx|].
    + set (q1 := if bool_decide (tok' = ""%string) then q0 else i :: q0).
      assert (exists ms, flush_msgs (of_manager ev1') = page l ++ ms /\ rest q1 tok' (asked ev1') ms) as (ms & E & Hrest).
      { eapply (IH _ _ _ ev1' ev2 (page l) q1 tok' E2 eq_refl Hn'). unfold listed. fold q1. destruct l as [|x l]; [left; done|right; by eexists]. }
      exists (page l ++ ms). split; [done|]. cbn [rest]. unfold q1 in Hrest. case_bool_decide as Et.
      * subst tok'. exists [(i, tok0, LOk l "")], (asked ev1'), (page l), ms. split; [done|]. split; [done|]. split; [constructor|]. by apply rest_begin.
      * destruct Hrest as (a1 & a2 & m1 & m2 & -> & -> & Hp & Hps). exists ((i, tok0, LOk l tok') :: a1), a2, (page l ++ m1), m2.
        split; [done|]. split; [by rewrite app_assoc|]. split; [by constructor|done].
    + unfold listed in E2. destruct (ctx && m_cancelled s) eqn:Ec.
      * (* stopped: the pass does not end *)
        exfalso. assert (forall ls s0 s3 evs, run (astep c) s0 ls = Some (s3, evs) -> m_serve s0 = SStopped -> AM MPassEnd ∉ evs) as Hstop.
        { clear. intros ls. induction ls as [|l ls IH]; intros s0 s3 evs Hr H0; cbn [run] in Hr; [injection Hr as <- <-; by intros ?%elem_of_nil|].
          destruct (astep c s0 l) as [[s1 e1]|] eqn:E1; [|done]. destruct (run (astep c) s1 ls) as [[s2 e2]|] eqn:E2; [|done]. injection Hr as <- <-.
          destruct (astep_cases _ _ _ _ _ E1) as [r i q tok -> Hc Es -> ->|l0 e -> Hm -> _]; [congruence|].
          assert (forall en a, l0 <> LServe en a) as Hno.
          { intros en a ->. unfold mstep in Hm. destruct (m_crashed s0); [done|]. unfold serve_step in Hm. rewrite H0 in Hm. by destruct a. }
          destruct (serve_other _ _ _ _ _ Hm Hno) as (Hsv & _ & Hne). rewrite H0 in Hsv. intros Hin. apply elem_of_app in Hin as [Hin|Hin]; [|by eapply (IH _ _ _ E2)].
          apply elem_of_list_fmap in Hin as (y & Ey & Hin). injection Ey as <-. done. }
        eapply (Hstop _ _ _ _ E2); [done|]. apply elem_of_app. right. left.
      * destruct (IH _ _ _ ev1' ev2 [] (i :: q0) tok0 E2 eq_refl Hn') as (ms & E & Hrest); [by left|]. exists ms. split; [done|].
        destruct Hrest as (a1 & a2 & m1 & m2 & -> & -> & Hp & Hps). exists ((i, tok0, LErr ctx) :: a1), a2, m1, m2.
        split; [done|]. split; [done|]. split; [by constructor|done].
    + (* crashed *)
      exfalso. unfold listed in E2. destruct ls as [|l ls]; cbn [run] in E2.
      * injection E2 as _ E2. by destruct ev1'.
      * assert (astep c (set_crashed s) l = None) as En.
        { unfold astep. destruct l as [l|]; [|done]. unfold mstep. cbn [m_crashed set_crashed]. destruct l; try done. destruct a; try done. by destruct (m_serve (set_crashed s)) as [| | | |[|]| |]. }
        by rewrite En in E2.
  - destruct (is_serve l0) as [(en & a & ->)|Hno'].
    2: { destruct (serve_other _ _ _ _ _ Hm Hno') as (Hsv & Hf & Hne).
         destruct Hsplit as (ev1' & -> & -> & Hn'); [intros Hin; apply elem_of_list_fmap in Hin as (y & Ey & Hin); injection Ey as <-; done|].
         rewrite of_manager_app, asked_app, of_manager_AM, asked_AM. unfold flush_msgs. rewrite omap_app. fold (flush_msgs e). rewrite Hf. cbn [app].
         eapply (IH _ _ _ ev1' ev2 pre q tok E2 eq_refl Hn'). by rewrite Hsv. }
    unfold mstep in Hm. destruct (m_crashed s); [done|]. unfold serve_step in Hm.
    destruct Hs as [[Es ->]|(m & Es & ->)]; rewrite Es in Hm.
    + destruct q as [|i q]; [|by destruct a; try done; exfalso; eapply Hnot].
      destruct a; try done. injection Hm as <- <-. exists []. 
      assert (ev1 = []) as ->. { destruct ev1 as [|x ev1]; [done|]. cbn in Ee. injection Ee as <- Ee. exfalso. apply Hn. left. }
      done.
    + destruct a; try done.
      * (* stopped *)
        exfalso. destruct (m_cancelled s); [|done]. injection Hm as <- <-.
        assert (forall ls s0 s3 evs, run (astep c) s0 ls = Some (s3, evs) -> m_serve s0 = SStopped -> AM MPassEnd ∉ evs) as Hstop.
        { clear. intros ls. induction ls as [|l ls IH]; intros s0 s3 evs Hr H0; cbn [run] in Hr; [injection Hr as <- <-; by intros ?%elem_of_nil|].
          destruct (astep c s0 l) as [[s1 e1]|] eqn:E1; [|done]. destruct (run (astep c) s1 ls) as [[s2 e2]|] eqn:E2; [|done]. injection Hr as <- <-.
          destruct (astep_cases _ _ _ _ _ E1) as [r i q tok -> Hc Es -> ->|l0 e -> Hm -> _]; [congruence|].
          assert (forall en a, l0 <> LServe en a) as Hno.
          { intros en a ->. unfold mstep in Hm. destruct (m_crashed s0); [done|]. unfold serve_step in Hm. rewrite H0 in Hm. by destruct a. }
          destruct (serve_other _ _ _ _ _ Hm Hno) as (Hsv & _ & Hne). rewrite H0 in Hsv. intros Hin. apply elem_of_app in Hin as [Hin|Hin]; [|by eapply (IH _ _ _ E2)].
          apply elem_of_list_fmap in Hin as (y & Ey & Hin). injection Ey as <-. done. }
        cbn in Ee. eapply (Hstop _ _ _ _ E2); [done|]. rewrite Ee. apply elem_of_app. right. left.
      * destruct (_ <? 256)%Z; [|done]. injection Hm as <- <-.
        destruct Hsplit as (ev1' & -> & -> & Hn'); [intros Hin; apply elem_of_list_singleton in Hin; discriminate Hin|].
        destruct (IH _ _ _ ev1' ev2 [] q tok E2 eq_refl Hn') as (ms & E & Hrest); [by left|]. exists ms. split; [|exact Hrest].
        cbn. f_equal. exact E.
Qed.

(** ** A store that fails *)

Lemma spin_step c s l s' ev i q tok : m_serve s = SPass (i :: q) tok -> (forall r, l = AListed r -> r = LErr false) -> astep c s l = Some (s', ev) ->
  m_serve s' = SPass (i :: q) tok /\ queued (of_manager ev) = [] /\ AM MPassEnd ∉ ev.
Proof.
  intros Hs Hl Ha. destruct (astep_cases _ _ _ _ _ Ha) as [r i0 q0 tok0 -> Hc Es -> ->|l0 e -> Hm -> Hnot].
  - rewrite (Hl r eq_refl). split; [done|]. split; [done|]. intros Hin. apply elem_of_list_singleton in Hin. discriminate Hin.
  - assert (forall en a, l0 <> LServe en a) as Hno.
    { intros en a ->. unfold mstep in Hm. destruct (m_crashed s); [done|]. unfold serve_step in Hm. rewrite Hs in Hm. destruct a; try done. by eapply Hnot. }
    destruct (serve_other _ _ _ _ _ Hm Hno) as (Hsv & _ & Hne). split; [congruence|]. rewrite of_manager_AM. split.
    + revert Hm Hno. clear. intros H Hn. unfold mstep in H. destruct (m_crashed s); [done|]. destruct l0; try (by exfalso; eapply Hn).
      * destruct (_ <? 256)%Z; [|done]. by injection H as <- <-.
      * destruct (m_listening s); [|done]. injection H as <- <-. by destruct ok.
      * destruct (_ && _); [|done]. by injection H as <- <-.
      * destruct (m_sending s); [|done]. unfold send_step in H. destruct (m_sends s); [done|]. destruct (encode_record_msg _); by injection H as <- <-.
      * destruct (_ && _); [|done]. by injection H as <- <-.
      * by injection H as <- <-.
      * destruct (run_op _ _ _ _) as [[s1 ?] ?]. by injection H as <- <-.
    + intros Hin. apply elem_of_list_fmap in Hin as (y & Ey & Hin). injection Ey as <-. done.
Qed.

Lemma spin_run c s ls s' evs i q tok : m_serve s = SPass (i :: q) tok -> (forall r, AListed r ∈ ls -> r = LErr false) -> arun c s ls = Some (s', evs) ->
  m_serve s' = SPass (i :: q) tok /\ queued (of_manager evs) = [] /\ AM MPassEnd ∉ evs.
Proof.
  intros Hs Hl Hr.
  apply (run_inv (astep c) (fun s' evs => m_serve s' = SPass (i :: q) tok /\ queued (of_manager evs) = [] /\ AM MPassEnd ∉ evs)
    (fun l => forall r, l = AListed r -> r = LErr false) s [] ls s' evs) with (4 := Hr).
  - split; [done|]. split; [done|]. by intros ?%elem_of_nil.
  - intros s1 evs1 l s2 ev (H1 & H2 & H3) Hq Hstep. destruct (spin_step _ _ _ _ _ _ _ _ H1 Hq Hstep) as (G1 & G2 & G3). split; [done|].
    rewrite of_manager_app. unfold queued in *. rewrite omap_app, H2, G2. split; [done|]. intros Hin. by apply elem_of_app in Hin as [Hin|Hin].
  - apply Forall_forall. intros l Hin r ->. by apply Hl.
Qed.

(** ** The package's own stores are a case *)

(** What such a store answers. *)
Definition own (c : mcfg) (e : env) (s : mstate) (i : nat) (tok : string) : lres :=
  match (run_op (mc_store_cfg c i) e (store_at (m_stores s) i) (OList (Some (Selector 0 (mc_flush_batch c) tok Ascending)))).1.2 with
  | OutSet l tok' None => LOk (e_rec <$> l) tok'
  | OutPanic => LPanics
  | _ => LErr false
  end.

Lemma own_step c s l s' ev : mstep c s l = Some (s', ev) ->
  exists l' ev', astep c s l' = Some (s', ev') /\ of_manager ev' = ev /\
    (forall i lim tok r, AAsked i lim tok r ∈ ev' -> exists e, l = LServe e ADo /\ r = own c e s i tok /\ lim = mc_flush_batch c).
Proof.
  intros H.
  assert ((exists e i q tok, l = LServe e ADo /\ m_serve s = SPass (i :: q) tok) \/ ~ (exists e i q tok, l = LServe e ADo /\ m_serve s = SPass (i :: q) tok))
    as [(e & i & q & tok & -> & Es)|Hno].
  { destruct l as [| e []| | | | | |]; try (right; by intros (? & ? & ? & ? & ? & _)).
    destruct (m_serve s) as [| | | |[|i q] tok| |] eqn:Es; try (right; by intros (? & ? & ? & ? & _ & ?)). left. by eexists _, _, _, _. }
  - exists (AListed (own c e s i tok)), [AAsked i (mc_flush_batch c) tok (own c e s i tok)].
    assert (m_crashed s = false) as Hc by (unfold mstep in H; by destruct (m_crashed s)).
    unfold mstep in H. rewrite Hc in H. unfold serve_step in H. rewrite Es in H. injection H as <- <-. cbn [astep]. rewrite Hc, Es.
    split; [|split; [done|]].
    + f_equal. f_equal. unfold listed, list_next, own. destruct (run_op _ _ _ _).1.2 as [? |? ?|l tok' [er|]|? ?|]; try done. by destruct l.
    + intros i' lim tok' r Hin. apply elem_of_list_singleton in Hin. injection Hin as -> -> -> ->. by exists e.
  - exists (AL l), (AM <$> ev). split; [|split; [apply of_manager_AM|]].
    + unfold astep. rewrite H. destruct l; try done. destruct a; try done. destruct (m_serve s) as [| | | |[|i q] tok| |] eqn:Es; try done. exfalso. apply Hno. by eexists _, _, _, _.
    + intros i lim tok r Hin. apply elem_of_list_fmap in Hin as (y & Ey & _). discriminate Ey.
Qed.

Lemma own_run c s ls s' evs : mrun c s ls = Some (s', evs) -> exists ls' evs', arun c s ls' = Some (s', evs') /\ of_manager evs' = evs.
Proof.
  unfold arun. revert s evs. induction ls as [|l ls IH]; intros s evs H; cbn [mrun] in H; [injection H as <- <-; by exists [], []|].
  destruct (mstep c s l) as [[s1 e1]|] eqn:E1; [|done]. destruct (mrun c s1 ls) as [[s2 e2]|] eqn:E2; [|done]. injection H as <- <-.
  destruct (own_step _ _ _ _ _ E1) as (l' & e1' & H1 & H2 & _). destruct (IH _ _ E2) as (ls' & e2' & H3 & H4).
  exists (l' :: ls'), (e1' ++ e2'). cbn [run]. rewrite H1, H3. split; [done|]. by rewrite of_manager_app, H2, H4.
Qed.

(** ** The beginning of a pass *)

Lemma start_step c s l s' ev : astep c s l = Some (s', ev) -> AM MPassStart ∈ ev -> ev = [AM MPassStart] /\ m_serve s' = SPass (mc_stores c) "".
Proof.
  intros Ha Hin. destruct (astep_cases _ _ _ _ _ Ha) as [r i q tok -> Hc Es -> ->|l0 e -> Hm -> _].
  { apply elem_of_list_singleton in Hin. discriminate Hin. }
  assert (MPassStart ∈ e) as Hin' by (apply elem_of_list_fmap in Hin as (y & Ey & Hy); injection Ey as <-; done). clear Hin.
  assert (e = [MPassStart] /\ m_serve s' = SPass (mc_stores c) "") as [-> H]; [|done].
  unfold mstep in Hm. destruct (m_crashed s); [done|].
  assert (forall s1 e1, Some (s1, e1) = Some (s', e) -> MPassStart ∉ e1 -> False) as Hno by (intros s1 e1 E Hn; injection E as -> ->; done).
  assert (forall y, y <> MPassStart -> MPassStart ∉ [y]) as H1 by (intros y Hy Hin; apply elem_of_list_singleton in Hin; by subst y).
  pose proof (not_elem_of_nil MPassStart) as H0.
  destruct l0; cbn [mstep] in Hm.
  - destruct (_ <? 256)%Z; [|done]. destruct (Hno _ _ Hm). by apply H1.
  - unfold serve_step in Hm. destruct (m_serve s) as [|buf|m|n|[|i q] tok|m q tok|], a; try done;
      try (destruct (m_cancelled s); [|done]; by destruct (Hno _ _ Hm)).
    + destruct (m_changes s); [done|]. destruct (_ && _); by destruct (Hno _ _ Hm).
    + destruct (_ <? _)%Z; [|done]. destruct (mc_delays c); [by destruct (Hno _ _ Hm)|]. by injection Hm as <- <-.
    + destruct (m_changes s); [done|]. destruct (_ =? _)%Z; by destruct (Hno _ _ Hm).
    + by destruct (Hno _ _ Hm).
    + destruct (_ <? _)%Z; [|done]. destruct (Hno _ _ Hm). by apply H1.
    + destruct (_ <? _)%Z; [|done]. destruct (_ =? _)%Z; [|by destruct (Hno _ _ Hm)]. unfold drained in Hm. destruct (m_cancelled (set_flushes _ s)); [by destruct (Hno _ _ Hm)|]. by injection Hm as <- <-.
    + unfold drained in Hm. destruct (m_cancelled s); [by destruct (Hno _ _ Hm)|]. by injection Hm as <- <-.
    + destruct (Hno _ _ Hm). by apply H1.
    + by destruct (Hno _ _ Hm).
    + destruct (_ <? _)%Z; [|done]. destruct (Hno _ _ Hm). by apply H1.
  - destruct (m_listening s); [|done]. unfold recv_step in Hm. destruct (Hno _ _ Hm). apply H1. by destruct ok.
  - destruct (_ && _); [|done]. by destruct (Hno _ _ Hm).
  - destruct (m_sending s); [|done]. unfold send_step in Hm. destruct (m_sends s); [done|].
    destruct (encode_record_msg _); [| |]; first [by destruct (Hno _ _ Hm)|destruct (Hno _ _ Hm); by apply H1].
  - destruct (_ && _); [|done]. by destruct (Hno _ _ Hm).
  - by destruct (Hno _ _ Hm).
  - destruct (run_op _ _ _ _) as [[s1 ?] ?]. by destruct (Hno _ _ Hm).
Qed.

Lemma start_run c ls : forall s s' evs ev0 ev1, arun c s ls = Some (s', evs) -> evs = ev0 ++ AM MPassStart :: ev1 ->
  exists s1 ls1, m_serve s1 = SPass (mc_stores c) "" /\ arun c s1 ls1 = Some (s', ev1).
Proof.
  unfold arun. induction ls as [|l ls IH]; intros s s' evs ev0 ev1 Hr Ee; cbn [run] in Hr.
  { injection Hr as <- <-. by destruct ev0. }
  destruct (astep c s l) as [[s1 e1]|] eqn:E1; [|done]. destruct (run (astep c) s1 ls) as [[s2 e2]|] eqn:E2; [|done]. injection Hr as <- <-.
  apply app_eq_app in Ee as [k [[-> Ek]|[-> Ek]]].
  - destruct k as [|x k]; [cbn in Ek; by eapply (IH _ _ _ [] ev1 E2)|]. injection Ek as <- Ek.
    destruct (start_step _ _ _ _ _ E1) as [He Hs]; [apply elem_of_app; right; left|].
    destruct ev0 as [|y ev0]; [|by destruct ev0]. injection He as ->. cbn in Ek. subst ev1. by exists s1, ls.
  - by eapply (IH _ _ _ k ev1 E2).
Qed.

Lemma pass_whole c s ls s' evs ev0 ev1 ev2 : arun c s ls = Some (s', evs) -> evs = ev0 ++ AM MPassStart :: ev1 ++ AM MPassEnd :: ev2 -> AM MPassEnd ∉ ev1 ->
  passes (mc_stores c) (asked ev1) (flush_msgs (of_manager ev1)).
Proof.
  intros Hr Ee Hn. destruct (start_run _ _ _ _ _ _ _ Hr Ee) as (s1 & ls1 & Hs & Hr1).
  destruct (pass_any c ls1 s1 s' _ ev1 ev2 [] (mc_stores c) ""%string Hr1 eq_refl Hn) as (ms & -> & Hrest); [by left|]. by apply rest_begin.
Qed.
