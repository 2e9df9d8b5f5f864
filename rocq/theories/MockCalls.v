(** Facts about the calls of Send on the mock router. *)
From Coq Require Import ZArith NArith Ascii String Lia.
From stdpp Require Import base gmap strings list.
From Verif Require Import GoBase Run Mock MockFacts.

Local Open Scope list_scope.

Definition holding (p : mpc) : bool := match p with SEach _ _ _ | SPut _ _ _ => true | _ => false end.

Definition no_puts (i : nat) (evs : list mev) : Prop := forall ad r m, EvPut i ad r m ∉ evs.
Definition handed (s : mst) (evs : list mev) (i : nat) (c : mcall) (dn rem : list nat) : Prop :=
  t_subs (topic_of s (k_addr c)) = dn ++ rem /\ (forall r, r ∈ dn -> EvPut i (k_addr c) r (k_msg c) ∈ evs \/ EvCloseR r ∈ evs) /\
  (forall ad' r m', EvPut i ad' r m' ∈ evs -> r ∈ dn) /\ unbroken i (k_addr c) evs.
Definition at_pc (s : mst) (evs : list mev) (i : nat) (c : mcall) : Prop :=
  match k_pc c with
  | SStart | SLock => no_puts i evs
  | SWait v => v = 0 /\ no_puts i evs
  | SEach v b rem => v = t_ver (topic_of s (k_addr c)) /\ exists dn, handed s evs i c dn rem /\ (b = true <-> dn <> [])
  | SPut v r rem => v = t_ver (topic_of s (k_addr c)) /\ exists dn, handed s evs i c dn (r :: rem)
  | SDone r => EvSent i (k_addr c) r ∈ evs
  end.
Definition call_ok (s : mst) (evs : list mev) (i : nat) (c : mcall) : Prop :=
  (exists n, EvSend i n (k_addr c) (k_msg c) ∈ evs) /\ (forall n ad m, EvSend i n ad m ∈ evs -> ad = k_addr c /\ m = k_msg c) /\
  (match k_pc c with SDone _ => True | _ => forall ad x, EvSent i ad x ∉ evs end) /\ at_pc s evs i c.

Record CInv (s : mst) (evs : list mev) : Prop := {
  ci_r : RInv s evs;
  ci_law : meach mlaw evs;
  ci_lock : forall ad, t_lock (topic_of s ad) = true -> exists i c, m_calls s !! i = Some c /\ k_addr c = ad /\ holding (k_pc c) = true;
  ci_held : forall i c, m_calls s !! i = Some c -> holding (k_pc c) = true -> t_lock (topic_of s (k_addr c)) = true;
  ci_one : forall i i' c c', m_calls s !! i = Some c -> m_calls s !! i' = Some c' -> holding (k_pc c) = true -> holding (k_pc c') = true -> k_addr c = k_addr c' -> i = i';
  ci_call : forall i c, m_calls s !! i = Some c -> call_ok s evs i c;
  ci_none : forall i, m_calls s !! i = None -> no_puts i evs /\ (forall n ad m, EvSend i n ad m ∉ evs) /\ (forall ad x, EvSent i ad x ∉ evs) }.

Lemma unbroken_snoc i ad evs e : unbroken i ad evs -> (forall j r m, e = EvPut j ad r m -> j = i \/ no_puts i evs) -> unbroken i ad (evs ++ [e]).
Proof.
  intros H He a1 ad1 r1 m1 a2 E j r2 m2 Hin. apply split_snoc in E as [(-> & _ & _)|(b' & -> & E)]; [by apply elem_of_nil in Hin|].
  apply elem_of_app in Hin as [Hin|Hin%elem_of_list_singleton]; [by eapply H|]. destruct (He j r2 m2 (eq_sym Hin)) as [->|Hn]; [done|].
  destruct (Hn ad1 r1 m1). rewrite E. apply elem_of_app. right. left.
Qed.

(** Other steps do not disturb a call. *)
Definition foreign (i : nat) (ad : string) (e : mev) : Prop :=
  match e with EvSend j _ _ _ | EvSent j _ _ => j <> i | EvPut j ad' _ _ => j <> i /\ ad' <> ad | _ => True end.
Lemma call_ok_frame s evs s2 e i c c2 : call_ok s evs i c -> k_addr c2 = k_addr c -> k_msg c2 = k_msg c -> k_pc c2 = k_pc c ->
  (holding (k_pc c) = true -> t_subs (topic_of s2 (k_addr c)) = t_subs (topic_of s (k_addr c)) /\ t_ver (topic_of s2 (k_addr c)) = t_ver (topic_of s (k_addr c))) ->
  (match e with EvSend j _ _ _ | EvSent j _ _ => j <> i | EvPut j ad' _ _ => j <> i /\ (holding (k_pc c) = true -> ad' <> k_addr c) | _ => True end) ->
  call_ok s2 (evs ++ [e]) i c2.
Proof.
  intros (H1 & H2 & H3 & H4) Ea Em Ep Ht He. unfold call_ok, at_pc. rewrite Ea, Em, Ep.
  assert (Hmono : forall x, x ∈ evs -> x ∈ evs ++ [e]) by (intros; apply elem_of_app; by left).
  assert (Hnp : no_puts i evs -> no_puts i (evs ++ [e])).
  { intros Hn ad r m [Hin|Hin%elem_of_list_singleton]%elem_of_app; [by eapply Hn|]. subst e. naive_solver. }
  assert (Hh : forall dn rem, holding (k_pc c) = true -> handed s evs i c dn rem -> handed s2 (evs ++ [e]) i c2 dn rem).
  { intros dn rem Hp (Q1 & Q2 & Q3 & Q4). unfold handed. rewrite Ea, Em. destruct (Ht Hp) as [-> _]. split; [done|]. split; [|split].
    - intros r Hin. destruct (Q2 r Hin); [left|right]; by apply Hmono.
    - intros ad' r m' [Hin|Hin%elem_of_list_singleton]%elem_of_app; [by eapply Q3|]. subst e. naive_solver.
    - apply unbroken_snoc; [done|]. intros j r m ->. destruct He as [_ He]. by destruct (He Hp). }
  split; [|split; [|split]].
  - destruct H1 as [n Hn]. exists n. by apply Hmono.
  - intros n ad m [Hin|Hin%elem_of_list_singleton]%elem_of_app; [by eapply H2|]. subst e. naive_solver.
  - destruct (k_pc c); try done; intros ad x [Hin|Hin%elem_of_list_singleton]%elem_of_app; try (by eapply H3); subst e; naive_solver.
  - unfold at_pc in H4. destruct (k_pc c) eqn:Epc; try (by apply Hnp); try (by destruct H4 as [-> ?]; split; [|apply Hnp]); [| |by apply Hmono].
    + destruct H4 as [-> (dn & Hd & Hb)]. destruct (Ht eq_refl) as [_ ->]. split; [done|]. exists dn. split; [by apply Hh|done].
    + destruct H4 as [-> (dn & Hd)]. destruct (Ht eq_refl) as [_ ->]. split; [done|]. exists dn. by apply Hh.
Qed.
Lemma call_ok_silent s evs s2 i c c2 : call_ok s evs i c -> k_addr c2 = k_addr c -> k_msg c2 = k_msg c -> k_pc c2 = k_pc c ->
  (holding (k_pc c) = true -> t_subs (topic_of s2 (k_addr c)) = t_subs (topic_of s (k_addr c)) /\ t_ver (topic_of s2 (k_addr c)) = t_ver (topic_of s (k_addr c))) ->
  call_ok s2 evs i c2.
Proof.
  intros (H1 & H2 & H3 & H4) Ea Em Ep Ht. unfold call_ok, at_pc. rewrite Ea, Em, Ep. split; [done|]. split; [done|]. split; [done|].
  unfold at_pc in H4. destruct (k_pc c) eqn:Epc; try done; destruct (Ht eq_refl) as [E1 E2]; unfold handed; rewrite ?Ea, ?Em, ?E1, ?E2; done.
Qed.

Definition silent (e : mev) : bool := match e with EvPut _ _ _ _ | EvSend _ _ _ _ | EvSent _ _ _ => false | _ => true end.
Lemma call_ok_silents s evs s2 ev i c c2 : call_ok s evs i c -> k_addr c2 = k_addr c -> k_msg c2 = k_msg c -> k_pc c2 = k_pc c ->
  (holding (k_pc c) = true -> t_subs (topic_of s2 (k_addr c)) = t_subs (topic_of s (k_addr c)) /\ t_ver (topic_of s2 (k_addr c)) = t_ver (topic_of s (k_addr c))) ->
  ev = [] \/ (exists e, ev = [e] /\ silent e = true) -> call_ok s2 (evs ++ ev) i c2.
Proof.
  intros Hok Ea Em Ep Ht [->|(e & -> & He)]; [rewrite app_nil_r; by eapply call_ok_silent|]. eapply call_ok_frame; try done. by destruct e.
Qed.

Lemma none_silents evs ev i : no_puts i evs /\ (forall n ad m, EvSend i n ad m ∉ evs) /\ (forall ad x, EvSent i ad x ∉ evs) ->
  ev = [] \/ (exists e, ev = [e] /\ match e with EvPut j _ _ _ | EvSend j _ _ _ | EvSent j _ _ => j <> i | _ => True end) ->
  no_puts i (evs ++ ev) /\ (forall n ad m, EvSend i n ad m ∉ evs ++ ev) /\ (forall ad x, EvSent i ad x ∉ evs ++ ev).
Proof.
  intros (H1 & H2 & H3) [->|(e & -> & He)]; [by rewrite app_nil_r|]. unfold no_puts in *.
  split_and!; intros; rewrite elem_of_app, elem_of_list_singleton; intros [?|<-]; naive_solver.
Qed.

(** The state of calls and locks is as before, but for contexts. *)
Lemma CInv_quiet s evs s2 ev : CInv s evs -> RInv s2 (evs ++ ev) ->
  (forall i c2, m_calls s2 !! i = Some c2 -> exists c, m_calls s !! i = Some c /\ k_addr c2 = k_addr c /\ k_msg c2 = k_msg c /\ k_pc c2 = k_pc c) ->
  (forall i c, m_calls s !! i = Some c -> exists c2, m_calls s2 !! i = Some c2 /\ k_addr c2 = k_addr c /\ k_pc c2 = k_pc c) ->
  (forall ad, t_lock (topic_of s2 ad) = t_lock (topic_of s ad)) ->
  (forall ad, t_lock (topic_of s ad) = true -> t_subs (topic_of s2 ad) = t_subs (topic_of s ad) /\ t_ver (topic_of s2 ad) = t_ver (topic_of s ad)) ->
  ev = [] \/ (exists e, ev = [e] /\ silent e = true) -> CInv s2 (evs ++ ev).
Proof.
  intros [H0 H1 H2 H3 H4 H5 H6] HR Hc Hc' El Et He. split; [done| | | | | |].
  - destruct He as [->|(e & -> & He)]; [by rewrite app_nil_r|]. apply meach_snoc; [done|]. by destruct e.
  - intros ad. rewrite El. intros Hl. destruct (H2 ad Hl) as (i & c & Hi & Ha & Hp). destruct (Hc' _ _ Hi) as (c2 & Hi2 & Ea & Ep). exists i, c2. split; [done|]. split; congruence.
  - intros i c2 Hi Hp. destruct (Hc _ _ Hi) as (c & Hi1 & Ea & _ & Ep). rewrite El, Ea. eapply H3; [done|congruence].
  - intros i i' c c' Hi Hi' Hp Hp' Ha. destruct (Hc _ _ Hi) as (d & Hd & Ea & _ & Ep). destruct (Hc _ _ Hi') as (d' & Hd' & Ea' & _ & Ep').
    apply (H4 i i' d d'); congruence.
  - intros i c2 Hi. destruct (Hc _ _ Hi) as (c & Hi1 & Ea & Em & Ep). apply (call_ok_silents s evs s2 ev i c c2); [by apply H5|done|done|done| |done]. intros Hp. apply Et. by eapply H3.
  - intros i Hi. assert (m_calls s !! i = None) as Hn. { destruct (m_calls s !! i) as [c|] eqn:E; [|done]. destruct (Hc' _ _ E) as (? & ? & _). congruence. }
    apply none_silents; [by apply H6|]. destruct He as [->|(e & -> & He)]; [by left|]. right. exists e. split; [done|]. by destruct e.
Qed.

Lemma CInv_init : CInv m_init [].
Proof. split; cbn; try done; [exact RInv_init|apply meach_nil|]. intros i _. split_and!; repeat intro; by eapply elem_of_nil. Qed.

Lemma lookup_set_call s i c p k d : m_calls s !! i = Some c -> m_calls (set_call i c p s) !! k = Some d ->
  (k = i /\ d = MCall (k_snd c) (k_addr c) (k_msg c) (k_ctx c) p) \/ (k <> i /\ m_calls s !! k = Some d).
Proof. intros _ H. cbn in H. apply list_lookup_insert_Some in H as [(-> & <- & _)|[? ?]]; [by left|right; by split]. Qed.
Lemma lookup_set_none s i c p k : m_calls (set_call i c p s) !! k = None -> m_calls s !! k = None.
Proof. cbn. rewrite !lookup_ge_None, insert_length. done. Qed.

Lemma topic_eta t : t = Topic (t_lock t) (t_subs t) (t_ver t).
Proof. by destruct t. Qed.

(** A call moves: the rest is as it was. *)
Lemma CInv_call s evs s2 ev i c p : CInv s evs -> RInv s2 (evs ++ ev) -> m_calls s !! i = Some c ->
  m_calls s2 = <[i := MCall (k_snd c) (k_addr c) (k_msg c) (k_ctx c) p]> (m_calls s) ->
  (forall ad, t_subs (topic_of s2 ad) = t_subs (topic_of s ad) /\ t_ver (topic_of s2 ad) = t_ver (topic_of s ad)) ->
  (forall ad, t_lock (topic_of s2 ad) = if decide (ad = k_addr c) then holding p || (negb (holding (k_pc c)) && t_lock (topic_of s ad)) else t_lock (topic_of s ad)) ->
  (holding p = true -> holding (k_pc c) = true \/ t_lock (topic_of s (k_addr c)) = false) ->
  ev = [] \/ (exists e, ev = [e] /\ match e with EvSent j _ _ => j = i | EvPut j ad _ _ => j = i /\ ad = k_addr c /\ holding (k_pc c) = true | _ => False end /\ mlaw evs e) ->
  (match p with SDone _ => True | _ => forall ad x, EvSent i ad x ∉ ev end) ->
  (match k_pc c with SDone _ => False | _ => True end) ->
  at_pc s2 (evs ++ ev) i (MCall (k_snd c) (k_addr c) (k_msg c) (k_ctx c) p) -> CInv s2 (evs ++ ev).
Proof.
  intros HC HR Hc Ec Et El Hhp He Hdn Hnd Hat. pose proof HC as [H0 H1 H2 H3 H4 H5 H6].
  assert (Hlen : i < length (m_calls s)) by (by eapply lookup_lt_Some).
  assert (Hlook : forall k d, m_calls s2 !! k = Some d -> k = i /\ d = MCall (k_snd c) (k_addr c) (k_msg c) (k_ctx c) p \/ k <> i /\ m_calls s !! k = Some d).
  { intros k d H. rewrite Ec in H. apply list_lookup_insert_Some in H as [(-> & <- & _)|[? ?]]; [by left|by right]. }
  assert (Hown : m_calls s2 !! i = Some (MCall (k_snd c) (k_addr c) (k_msg c) (k_ctx c) p)) by (rewrite Ec; by apply list_lookup_insert).
  assert (Hoth : forall k d, k <> i -> m_calls s !! k = Some d -> m_calls s2 !! k = Some d) by (intros k d Hn Hd; rewrite Ec; by rewrite list_lookup_insert_ne).
  split; [done| | | | | |].
  - destruct He as [->|(e & -> & _ & He)]; [by rewrite app_nil_r|]. by apply meach_snoc.
  - intros ad. rewrite El. destruct (decide (ad = k_addr c)) as [->|Hn].
    + intros [Hh|[Hh Hl]%andb_true_iff]%orb_true_iff; [by exists i, (MCall (k_snd c) (k_addr c) (k_msg c) (k_ctx c) p)|].
      destruct (H2 _ Hl) as (k & d & Hk & Ha & Hp). assert (k <> i). { intros ->. rewrite Hc in Hk. injection Hk as <-. by rewrite Hp in Hh. } exists k, d. split; [by apply Hoth|done].
    + intros Hl. destruct (H2 _ Hl) as (k & d & Hk & Ha & Hp). assert (k <> i). { intros ->. congruence. } exists k, d. split; [by apply Hoth|done].
  - intros k d [[-> ->]|[Hn Hk]]%Hlook Hp; rewrite El; cbn.
    + rewrite decide_True by done. cbn in Hp; by rewrite Hp.
    + destruct (decide (k_addr d = k_addr c)) as [Ea|]; [|by eapply H3]. pose proof (H3 _ _ Hk Hp) as Hl. rewrite Hl.
      destruct (holding (k_pc c)) eqn:Hh; [|by rewrite orb_true_r]. destruct (Hn (H4 _ _ _ _ Hk Hc Hp Hh Ea)).
  - intros k k' d d' [[-> ->]|[Hn Hk]]%Hlook [[-> ->]|[Hn' Hk']]%Hlook Hp Hp' Ea; cbn in *; [done| | |by eapply H4].
    + destruct (Hhp Hp) as [Hh|Hl]; [by eapply H4|]. pose proof (H3 _ _ Hk' Hp'). congruence.
    + destruct (Hhp Hp') as [Hh|Hl]; [by eapply H4|]. pose proof (H3 _ _ Hk Hp). congruence.
  - intros k d [[-> ->]|[Hn Hk]]%Hlook.
    + destruct (H5 _ _ Hc) as (Q1 & Q2 & Q3 & _). unfold call_ok. cbn [k_addr k_msg k_pc k_snd k_ctx] in *. split; [|split; [|split]].
      * destruct Q1 as [n Q1]. exists n. apply elem_of_app. by left.
      * intros n ad m [Hin|Hin]%elem_of_app; [by eapply Q2|]. destruct He as [->|(e & -> & He & _)]; [by apply elem_of_nil in Hin|]. apply elem_of_list_singleton in Hin as <-. done.
      * assert (Q3' : forall ad x, EvSent i ad x ∉ evs) by (by destruct (k_pc c)). destruct p; try done; intros ad x [Hin|Hin]%elem_of_app; first [by eapply Q3'|by eapply Hdn].
      * done.
    + destruct He as [->|(e & -> & He & _)]; [rewrite app_nil_r; apply (call_ok_silent s evs s2 k d d); [by apply H5|done|done|done|intros _; apply Et]|].
      apply (call_ok_frame s evs s2 e k d d); [by apply H5|done|done|done|intros _; apply Et|]. destruct e; try done; [|congruence]. destruct He as (-> & -> & Hh). split; [done|]. intros Hp Ea.
      by destruct (Hn (H4 _ _ _ _ Hk Hc Hp Hh (eq_sym Ea))).
  - intros k Hk. rewrite Ec in Hk. apply lookup_ge_None in Hk. rewrite insert_length in Hk. apply none_silents; [by apply H6, lookup_ge_None|].
    destruct He as [->|(e & -> & He & _)]; [by left|]. right. exists e. split; [done|]. destruct e; try done; [destruct He as (-> & _)|subst]; lia.
Qed.

Lemma CInv_step s evs lb s2 ev : CInv s evs -> mstep s lb = Some (s2, ev) -> CInv s2 (evs ++ ev).
Proof.
  intros HC H. pose proof (RInv_step _ _ _ _ _ (ci_r _ _ HC) H) as HR. pose proof (ci_r _ _ HC) as HR0.
  destruct (mstep_mt _ _ _ _ H) as [Er Et Ec He|a k Hk -> ->|r x Hr Hs Hl -> ->|n a m -> ->|i c Hc -> ->|i c p Hc Hm ->|i c Hc Hp Hl -> ->|i c v b Hc Hp -> ->|i c v r rem x Hc Hp Hr Hlen -> ->|r x m q Hr Hs Hb -> ->|r x Hr Hs -> ->].
  - assert (forall ad, topic_of s2 ad = topic_of s ad) as Etop by (intros; unfold topic_of; by rewrite Et).
    eapply CInv_quiet; try done; rewrite ?Ec; try (by eauto); try (by intros; rewrite Etop). destruct He as [->|[[n ->]|[r ->]]]; [by left|right; by eexists..].
  - eapply CInv_quiet; try done; cbn; try (by eauto).
  - eapply CInv_quiet; try done; cbn; try (by eauto).
    + intros ad. rewrite topic_set. by destruct (decide (ad = r_addr x)) as [->|].
    + intros ad Hlk. rewrite topic_set. destruct (decide (ad = r_addr x)) as [->|]; [congruence|done].
  - pose proof HC as [H0 H1 H2 H3 H4 H5 H6]. set (N := MCall n a m false SStart).
    assert (Hlook : forall k d, (m_calls s ++ [N]) !! k = Some d -> m_calls s !! k = Some d /\ k <> length (m_calls s) \/ k = length (m_calls s) /\ d = N).
    { intros k d Hx. apply lookup_app_Some in Hx as [Hx|[Hge Hx]]; [left; split; [done|apply lookup_lt_Some in Hx; lia]|]. right. apply list_lookup_singleton_Some in Hx as [? ->]. split; [lia|done]. }
    destruct (H6 (length (m_calls s)) ltac:(by apply lookup_ge_None)) as (N1 & N2 & N3).
    split; cbn [m_calls]; [done| | | | | |].
    + by apply meach_snoc.
    + intros ad Hl. destruct (H2 _ Hl) as (k & d & Hk & Ha & Hp). exists k, d. split; [by apply lookup_app_l_Some|done].
    + intros k d [[Hk _]|[-> ->]]%Hlook Hp; [by eapply H3|done].
    + intros k k' d d' [[Hk _]|[-> ->]]%Hlook [[Hk' _]|[-> ->]]%Hlook Hp Hp' Ea; try done. by eapply H4.
    + intros k d [[Hk Hn]|[-> ->]]%Hlook.
      * eapply (call_ok_frame s evs _ _ k d d); [by apply H5|done|done|done|done|cbn; congruence].
      * unfold call_ok, at_pc. cbn. split; [|split; [|split]].
        -- exists n. apply elem_of_app. right. left.
        -- intros n' ad' m' [Hin|Hin%elem_of_list_singleton]%elem_of_app; [by destruct (N2 n' ad' m')|by simplify_eq].
        -- intros ad x [Hin|Hin%elem_of_list_singleton]%elem_of_app; [by destruct (N3 ad x)|done].
        -- intros ad r' m' [Hin|Hin%elem_of_list_singleton]%elem_of_app; [by destruct (N1 ad r' m')|done].
    + intros k Hk. apply lookup_ge_None in Hk. rewrite app_length in Hk. cbn in Hk. apply none_silents; [apply H6, lookup_ge_None; lia|]. right. eexists. split; [done|]. cbn. lia.
  - assert (Hlen : i < length (m_calls s)) by (by eapply lookup_lt_Some). eapply CInv_quiet; try done; cbn; [| |by left].
    + intros k d Hk. apply list_lookup_insert_Some in Hk as [(-> & <- & _)|[? ?]]; [by exists c|by exists d].
    + intros k d Hk. destruct (decide (k = i)) as [->|]; [|exists d; by rewrite list_lookup_insert_ne].
      rewrite Hc in Hk. injection Hk as <-. eexists. by rewrite list_lookup_insert.
  - pose proof (ci_call _ _ HC _ _ Hc) as (Q1 & Q2 & Q3 & Q4). unfold at_pc in Q4.
    assert (Hshape : match k_pc c with SDone _ => False | _ => True end) by (by destruct Hm as [E|? E|? E|? E|? ? ? ? ? E|? ? ? ? ? E]; rewrite E).
    eapply (CInv_call s evs _ ev i c p HC HR Hc); cbn [set_call m_calls]; try done.
    + intros ad. rewrite topic_call. destruct (decide (ad = k_addr c)) as [->|]; [|done].
      destruct Hm as [E|? E|? E|? E|? ? ? ? ? E|? ? ? ? ? E]; rewrite E; cbn; try done; eapply (ci_held _ _ HC); try done; by rewrite E.
    + intros Hp. left. destruct Hm as [E|? E|? E|? E|? ? ? ? ? E|? ? ? ? ? E]; rewrite E; done.
    + destruct Hm as [E|r E Hne|? E|? E|? ? ? ? ? E|? ? ? ? ? E]; try (by left); right; eexists; (split; [done|]); cbn; (split; [done|]); rewrite E in Q4; [destruct r; [done| |]|]; apply Q4.
    + destruct Hm; try done; intros ? ? ?%elem_of_nil; done.
    + unfold at_pc. cbn [k_pc k_addr k_msg]. destruct Hm as [E|r E Hne|v E|v E|v b r rem x E Hx Hcl|v b r rem x E Hx Hcl]; rewrite E in Q4; rewrite ?app_nil_r.
      * done.
      * apply elem_of_app. right. left.
      * apply elem_of_app. right. left.
      * by destruct Q4.
      * destruct Q4 as [-> (dn & (D1 & D2 & D3 & D4) & _)]. split; [done|]. exists (dn ++ [r]). split; [|split; [by destruct dn|done]].
        unfold handed. cbn [k_addr k_msg]. rewrite topic_call. split; [by rewrite D1, <-app_assoc|]. split; [|split; [|done]].
        -- intros r' Hin. apply elem_of_app in Hin as [Hin|Hin]; [by apply D2|]. apply elem_of_list_singleton in Hin as ->. right. by eapply ri_closed.
        -- intros ad' r' m' Hin. apply elem_of_app. left. by eapply D3.
      * destruct Q4 as [-> (dn & Hd & _)]. split; [done|]. by exists dn.
  - pose proof (ci_call _ _ HC _ _ Hc) as (Q1 & Q2 & Q3 & Q4). unfold at_pc in Q4. rewrite Hp in Q4.
    eapply (CInv_call s evs _ [] i c _ HC HR Hc); cbn [set_call m_calls set_top]; try done.
    + intros ad. rewrite topic_call, topic_set. by destruct (decide (ad = _)) as [->|].
    + intros ad. rewrite topic_call, topic_set. by destruct (decide (ad = _)) as [->|].
    + intros _. by right.
    + by left.
    + intros ? ? ?%elem_of_nil. done.
    + by rewrite Hp.
    + unfold at_pc. cbn [k_pc k_addr k_msg]. rewrite topic_call, topic_set, decide_True by done. cbn. rewrite app_nil_r. split; [done|]. exists []. split; [|done].
      unfold handed. cbn [k_addr k_msg]. rewrite topic_call, topic_set, decide_True by done. cbn. split; [done|]. split; [by intros ? ?%elem_of_nil|]. split.
      * intros ad' r m' Hin. by destruct (Q4 ad' r m').
      * intros a1 ad1 r1 m1 a2 E. destruct (Q4 ad1 r1 m1). rewrite E. apply elem_of_app. right. left.
  - pose proof (ci_call _ _ HC _ _ Hc) as (Q1 & Q2 & Q3 & Q4). unfold at_pc in Q4. rewrite Hp in Q4, Q3. destruct Q4 as [Ev (dn & (D1 & D2 & D3 & D4) & Hb)]. rewrite app_nil_r in D1.
    eapply (CInv_call s evs _ _ i c _ HC HR Hc); cbn [set_call m_calls set_top]; try done.
    + intros ad. rewrite topic_call, topic_set. by destruct (decide (ad = _)) as [->|].
    + intros ad. rewrite topic_call, topic_set. destruct (decide (ad = _)) as [->|]; [|done]. rewrite Hp. cbn. by destruct b.
    + intros Hh. by destruct b.
    + destruct b; [|by left]. right. eexists. split; [done|]. cbn. split; [done|].
      split.
      * destruct dn as [|r dn]; [by destruct (proj1 Hb eq_refl)|]. destruct Q1 as [n ?]. exists n, (k_msg c), r. split; [done|]. split; [apply (ri_subs _ _ HR0); rewrite D1; left|]. apply D2. left.
      * intros a1 n m a2 E r Hin. assert (r ∈ dn) as Hr. { rewrite <-D1. apply (ri_subs _ _ HR0). rewrite E. apply elem_of_app. by left. }
        destruct (Q2 n (k_addr c) m) as [_ ->]; [rewrite E; apply elem_of_app; right; left|]. by apply D2.
    + destruct b; [done|]. intros ? ? ?%elem_of_nil. done.
    + by rewrite Hp.
    + unfold at_pc. cbn [k_pc k_addr k_msg]. destruct b; [apply elem_of_app; right; left|]. rewrite app_nil_r.
      assert (dn = []) as -> by (destruct dn; [done|]; by specialize (proj2 Hb ltac:(done))). split.
      * rewrite Ev, (ri_ver _ _ HR0), D1. done.
      * intros ad' r m' Hin. by apply D3, elem_of_nil in Hin.
  - pose proof (ci_call _ _ HC _ _ Hc) as (Q1 & Q2 & Q3 & Q4). unfold at_pc in Q4. rewrite Hp in Q4, Q3. destruct Q4 as [Ev (dn & (D1 & D2 & D3 & D4))].
    assert (Hnew : r ∉ dn). { pose proof (ri_nodup _ _ HR0 (k_addr c)) as Hnd. rewrite D1 in Hnd. apply NoDup_app in Hnd as (_ & Hnd & _). intros Hin. apply (Hnd r Hin). left. }
    eapply (CInv_call s evs _ _ i c _ HC HR Hc); cbn [set_call m_calls set_rcv]; try done.
    + intros ad. rewrite topic_call, topic_rcv. destruct (decide (ad = _)) as [->|]; [|done]. rewrite (ci_held _ _ HC _ _ Hc); [done|by rewrite Hp].
    + intros _. left. by rewrite Hp.
    + right. eexists. split; [done|]. cbn. split; [by rewrite Hp|]. split; [done|]. split; [|split; [|split]]; try done.
      * apply (ri_subs _ _ HR0). rewrite D1. apply elem_of_app. right. left.
      * intros ad' m' Hin. by apply D3 in Hin.
    + intros ad x' Hin%elem_of_list_singleton. done.
    + by rewrite Hp.
    + unfold at_pc. cbn [k_pc k_addr k_msg]. rewrite topic_call, topic_rcv. split; [done|]. exists (dn ++ [r]). split; [|split; [by destruct dn|done]].
      unfold handed. cbn [k_addr k_msg]. rewrite topic_call, topic_rcv. split; [by rewrite D1, <-app_assoc|]. split; [|split].
      * intros r' Hin. apply elem_of_app in Hin as [Hin|Hin]; [|apply elem_of_list_singleton in Hin as ->; left; apply elem_of_app; right; left]. destruct (D2 _ Hin); [left|right]; apply elem_of_app; by left.
      * intros ad' r' m' [Hin|Hin%elem_of_list_singleton]%elem_of_app; apply elem_of_app; [left; by eapply D3|]. right. injection Hin as -> -> ->. left.
      * apply unbroken_snoc; [done|]. intros j r' m' [= <- <- <-]. by left.
  - eapply CInv_quiet; try done; cbn; try (by eauto).
  - eapply CInv_quiet; try done; cbn; try (by eauto).
Qed.

Lemma cinv ls s evs : mrun m_init ls = Some (s, evs) -> CInv s evs.
Proof.
  intros Hr. change evs with ([] ++ evs). eapply (run_inv mstep CInv (fun _ => True) m_init []) with (4 := Hr); [exact CInv_init| |by apply Forall_true].
  intros. by eapply CInv_step.
Qed.
