(** From PublishUpdate to a collector's copy, through the manager with its
    flushes and the wire. *)
From Coq Require Import ZArith NArith Ascii String Lia.
From stdpp Require Import base gmap strings list.
From Verif Require Import GoBase Encoding SpecEncoding Records Messages SpecMessages MessageFacts AccumFacts EventFacts Env SyncMap Tokens Cache SpecStore
  StoreFacts StoreLemmas ListFacts StoreExamples Dispatch DispatchFacts Diff DiffFacts ConvergeFacts Manager ManagerFacts ManagerPass ManagerLive.

Local Open Scope list_scope.
Local Opaque vanflow_registry builtin_types record_types Encode Decode attrs_of.

(** ** Specification *)

(** A record that can be sent and that the collector's stores can take. *)
Definition legit (ty : nat -> string -> gotype) (m : gmap string nat) (r : vrec) : Prop := publishable r /\ typed_as ty m r.

(** The updates about one record; [k] is its type and identity. *)
Definition about (k : string * string) (us : list rec_update) : list rec_update :=
  filter (fun u => rkey <$> ru_curr u = Some k) us.

(** At every moment of the run. *)
Definition at_all_times (c : mcfg) (w : stores) (ls : list mlabel) (P : mstate -> list mev -> Prop) : Prop :=
  forall la lb s ev, ls = la ++ lb -> mrun c (m_init w) la = Some (s, ev) -> P s ev.

(** Only such records are published and kept in the manager's stores. *)
Definition sendable (ty : nat -> string -> gotype) (m : gmap string nat) (c : mcfg) (s : mstate) (ev : list mev) : Prop :=
  (forall u, u ∈ published ev -> exists cu, ru_curr u = Some cu /\ legit ty m cu /\
     forall p, ru_prev u = Some p -> legit ty m p /\ rkey p = rkey cu) /\
  (forall i id x, i ∈ mc_stores c -> entry_at (holds s i) id = Some x -> exists r, e_rec x = Some r /\ legit ty m r).

(** [rs] are the versions of record [k], oldest first, of which the first [o]
    were never published.  The others are published in order, each whole or
    with the version before it as predecessor, and a store that has the record
    has a version not older than the last one published. *)
Definition versions (k : string * string) (rs : list vrec) (o : nat) (c : mcfg) (s : mstate) (ev : list mev) : Prop :=
  (forall j u, about k (published ev) !! j = Some u ->
     ru_curr u = rs !! (o + j) /\ (ru_prev u = None \/ 0 < o + j /\ ru_prev u = rs !! (o + j - 1))) /\
  (forall i id x r, i ∈ mc_stores c -> entry_at (holds s i) id = Some x -> e_rec x = Some r -> rkey r = k ->
     exists n, rs !! n = Some r /\ o + length (about k (published ev)) <= S n).

(** The messages that went out, as they were on the wire. *)
Definition wires (ev : list mev) : list (mmsg * amqp_msg) :=
  omap (fun x => match x with MSent mm am true => Some (mm, am) | _ => None end) ev.

(** A collector takes these messages, with an environment for each call of
    Accumulate. *)
Definition takes (l : list (list env * amqp_msg)) (ws : list (mmsg * amqp_msg)) : Prop :=
  Forall2 (fun x y => Forall env_ok x.1 /\ length x.1 = length y.1 /\ x.2 = y.2) l ws.

(** ** What a manager emits about one record *)

Definition of_key (k : string * string) (l : list vrec) : list vrec := filter (fun r => rkey r = k) l.

Definition delta_of (e : env) (p : option vrec) (c : vrec) : list vrec :=
  match diff_record e (RecUpdate p (Some c)) with DRec (Some r) => [r] | _ => [] end.

(** [h] versions were dealt with before, [h'] after. *)
Inductive emits (rs : list vrec) : nat -> list vrec -> nat -> Prop :=
  | em_nil h : emits rs h [] h
  | em_update h h' e p c l : env_ok e -> rs !! h = Some c -> (p = None \/ 0 < h /\ p = rs !! (h - 1)) ->
      emits rs (S h) l h' -> emits rs h (delta_of e p c ++ l) h'
  | em_whole h h' n r l : rs !! n = Some r -> h <= S n -> emits rs h l h' -> emits rs h (r :: l) h'.

Lemma emits_app rs h l h1 l2 h2 : emits rs h l h1 -> emits rs h1 l2 h2 -> emits rs h (l ++ l2) h2.
Proof.
  induction 1 as [h|h h' e p c l He Hc Hp H IH|h h' n r l Hn Hle H IH]; intros H2; [done|..].
  - rewrite <- app_assoc. eapply em_update; eauto.
  - cbn [app]. eapply em_whole; eauto.
Qed.

Lemma emits_le rs h l h' : emits rs h l h' -> h <= h'.
Proof. induction 1; lia. Qed.

(** What holds of every version from the last one dealt with on, holds of the copy. *)
Definition fresh (rs : list vrec) (h : nat) (a : attrset) : Prop :=
  forall x y, (forall j r, h <= S j -> rs !! j = Some r -> attrs_of r !! x = Some y) -> a !! x = Some y.

Definition versions_ok (k : string * string) (rs : list vrec) : Prop := Forall (fun r => publishable r /\ rkey r = k) rs.

Lemma fresh_whole rs h n r a : rs !! n = Some r -> h <= S n -> fresh rs h (attrs_of r ∪ a).
Proof. intros Hn Hle x y H. apply lookup_union_Some_raw. left. by apply (H n). Qed.

Lemma delta_cases k rs e p c : versions_ok k rs -> env_ok e -> (exists h, rs !! h = Some c) ->
  (forall p', p = Some p' -> exists h, rs !! h = Some p') ->
  (exists r, delta_of e p c = [r] /\ publishable r /\ vr_type r = vr_type c /\ rkey r = k /\
     forall a, (forall p', p = Some p' -> attrs_of p' ⊆ a) -> attrs_of r ∪ a = attrs_of c ∪ a) \/
  (delta_of e p c = [] /\ exists p', p = Some p' /\ attrs_of c ⊆ attrs_of p').
Proof.
  intros HV He [h Hc] Hp. destruct (proj1 (Forall_forall _ _) HV c (elem_of_list_lookup_2 _ _ _ Hc)) as [Pc Kc].
  destruct (update_delta e p c He Pc) as [(r & Hd & Pr & Ht & Hi & Hu)|[Hd Hp']].
  { intros p' Hp'. destruct (Hp p' Hp') as [h' Hh]. rewrite Kc.
    exact (proj1 (Forall_forall _ _) HV p' (elem_of_list_lookup_2 _ _ _ Hh)). }
  - left. exists r. unfold delta_of. rewrite Hd. split; [done|]. split; [exact Pr|]. split; [exact Ht|]. split; [|exact Hu].
    rewrite <- Kc. unfold rkey. by rewrite (same_type_key c r Ht), Hi.
  - right. unfold delta_of. by rewrite Hd.
Qed.

Lemma laid_Some_app a l : exists a', laid (Some a) l = Some a'.
Proof.
  destruct (laid (Some a) l) as [a'|] eqn:E; [eauto|]. apply laid_None in E as [E _]. discriminate E.
Qed.

Lemma emits_fresh k rs h l h' : versions_ok k rs -> emits rs h l h' -> forall a a', fresh rs h a -> laid (Some a) l = Some a' ->
  fresh rs h' a'.
Proof.
  intros HV. induction 1 as [h|h h' e p c l He Hc Hp H IH|h h' n r l Hn Hle H IH]; intros a a' Ha Hl.
  - injection Hl as <-. exact Ha.
  - rewrite laid_app in Hl. destruct (laid_Some_app a (delta_of e p c)) as [a1 Ha1]. rewrite Ha1 in Hl.
    apply (IH a1); [|exact Hl]. intros x y Hx.
    assert (attrs_of c !! x = Some y) as Hcx by (apply (Hx h); [lia|exact Hc]).
    assert (forall p', p = Some p' -> attrs_of p' !! x = Some y -> a !! x = Some y) as Hold.
    { intros p' Hp' Hpx. destruct Hp as [Hp|[Hpos Hp]]; [congruence|]. rewrite Hp' in Hp. apply Ha.
      intros j r Hj Hr. destruct (decide (S j = h)) as [<- |Hne]; [|by apply (Hx j); [lia|]].
      replace (S j - 1) with j in Hp by lia. congruence. }
    destruct (delta_cases k rs e p c HV He) as [(r & Hd & _ & _ & _ & Hu)|(Hd & p' & Hp' & Hs)].
    + by exists h.
    + intros p' Hp'. destruct Hp as [Hp|[_ Hp]]; [congruence|]. exists (h - 1). congruence.
    + rewrite Hd in Ha1. cbn in Ha1. injection Ha1 as <-.
      destruct p as [p|].
      * assert (attrs_of r ∪ attrs_of p = attrs_of c ∪ attrs_of p) as Hup by (apply Hu; by intros ? [= <-]).
        assert ((attrs_of r ∪ attrs_of p) !! x = Some y) as Hrx.
        { rewrite Hup. apply lookup_union_Some_raw. by left. }
        apply lookup_union_Some_raw in Hrx as [Hrx|[Hrn Hpx]]; apply lookup_union_Some_raw; [by left|right].
        split; [exact Hrn|]. by apply (Hold p).
      * assert (attrs_of r ∪ a = attrs_of c ∪ a) as -> by (by apply Hu). apply lookup_union_Some_raw. by left.
    + rewrite Hd in Ha1. cbn in Ha1. injection Ha1 as <-. apply (Hold p' Hp'). by eapply lookup_weaken.
  - apply (IH (attrs_of r ∪ a)); [by apply (fresh_whole rs h n)|exact Hl].
Qed.

(** From nothing: the first thing emitted is whole. *)
Lemma emits_first k rs l h' acc : versions_ok k rs -> emits rs 0 l h' -> 0 < h' ->
  exists a', laid acc l = Some a' /\ fresh rs h' a'.
Proof.
  intros HV H. inversion H as [h|h h1 e p c l1 He Hc Hp H1|h h1 n r l1 Hn Hle H1]; subst; intros Hpos; [lia|..].
  - destruct Hp as [-> |[? _]]; [|lia].
    assert (delta_of e None c = [c]) as -> by reflexivity. cbn [app].
    change (laid acc (c :: l1)) with (laid (Some (attrs_of c ∪ default ∅ acc)) l1).
    destruct (laid_Some_app (attrs_of c ∪ default ∅ acc) l1) as [a' Ha']. exists a'. split; [exact Ha'|].
    eapply (emits_fresh k); [exact HV|exact H1| |exact Ha']. apply (fresh_whole rs 1 0); [exact Hc|lia].
  - change (laid acc (r :: l1)) with (laid (Some (attrs_of r ∪ default ∅ acc)) l1).
    destruct (laid_Some_app (attrs_of r ∪ default ∅ acc) l1) as [a' Ha']. exists a'. split; [exact Ha'|].
    eapply (emits_fresh k); [exact HV|exact H1| |exact Ha']. by apply (fresh_whole rs 0 n).
Qed.

Lemma fresh_last rs r a : last rs = Some r -> fresh rs (length rs) a -> attrs_of r ⊆ a.
Proof.
  intros Hl Hf. apply map_subseteq_spec. intros x y Hx. apply Hf. intros j r' Hj Hr.
  assert (j = length rs - 1) as -> by (apply lookup_lt_Some in Hr; lia).
  rewrite last_lookup in Hl. replace (pred (length rs)) with (length rs - 1) in Hl by lia. congruence.
Qed.

(** ** Nothing but what the versions have *)

Lemma never_clears_mono rs i j r r' x : never_clears rs -> i <= j -> rs !! i = Some r -> rs !! j = Some r' ->
  is_Some (attrs_of r !! x) -> is_Some (attrs_of r' !! x).
Proof.
  intros Hn Hle Hi. revert r'. induction Hle as [|j Hle IH]; intros r' Hj Hx.
  - congruence.
  - destruct (rs !! j) as [r1|] eqn:E1.
    + specialize (IH r1 eq_refl Hx). apply (Hn (take j rs) r1 r' (drop (S (S j)) rs) x); [|exact IH].
      rewrite <- (take_drop_middle rs j r1 E1) at 1. f_equal. f_equal. symmetry.
      rewrite <- (take_drop 0 (drop (S j) rs)). rewrite (drop_S rs r' (S j) Hj). reflexivity.
    + apply lookup_ge_None in E1. apply lookup_lt_Some in Hj. lia.
Qed.

Lemma emits_dom k rs h l h' rl : versions_ok k rs -> never_clears rs -> last rs = Some rl -> emits rs h l h' ->
  Forall (fun r => forall x, is_Some (attrs_of r !! x) -> is_Some (attrs_of rl !! x)) l.
Proof.
  intros HV Hn Hl.
  assert (forall n r x, rs !! n = Some r -> is_Some (attrs_of r !! x) -> is_Some (attrs_of rl !! x)) as Hto.
  { intros n r x Hr. rewrite last_lookup in Hl. eapply never_clears_mono; [exact Hn| |exact Hr|exact Hl].
    apply lookup_lt_Some in Hr. lia. }
  induction 1 as [h|h h' e p c l He Hc Hp H IH|h h' n r l Hr Hle H IH]; [constructor|..].
  - apply Forall_app. split; [|exact IH].
    destruct (delta_cases k rs e p c HV He) as [(r & Hd & _ & _ & _ & Hu)|(Hd & _)].
    + by exists h.
    + intros p' Hp'. destruct Hp as [Hp|[_ Hp]]; [congruence|]. exists (h - 1). congruence.
    + rewrite Hd. constructor; [|constructor]. intros x [y Hx].
      specialize (Hu (default ∅ (attrs_of <$> p))).
      assert ((attrs_of r ∪ default ∅ (attrs_of <$> p)) !! x = Some y) as Hy by (apply lookup_union_Some_raw; by left).
      rewrite Hu in Hy by (by intros p' ->). apply lookup_union_Some_raw in Hy as [Hy|[_ Hy]].
      * apply (Hto h c); [exact Hc|eauto].
      * destruct p as [p|]; simpl in Hy; [|by rewrite lookup_empty in Hy].
        destruct Hp as [Hp|[_ Hp]]; [done|]. apply (Hto (h - 1) p); [by symmetry|eauto].
    + rewrite Hd. constructor.
  - constructor; [|exact IH]. intros x. by apply (Hto n).
Qed.

Lemma laid_dom (d : attrset) l a : laid None l = Some a -> Forall (fun r => forall x, is_Some (attrs_of r !! x) -> is_Some (d !! x)) l ->
  forall x, is_Some (a !! x) -> is_Some (d !! x).
Proof.
  intros Hl HF x [y Hx]. apply (laid_lookup None l a Hl) in Hx as [(l1 & r & l2 & -> & Hr & _)|[_ (a0 & ? & _)]]; [|done].
  apply Forall_app in HF as [_ HF]. apply Forall_cons in HF as [HF _]. apply HF. eauto.
Qed.

(** ** What the manager does *)

(** Invariants of a run, knowing how the state was reached. *)
Lemma mrun_inv_prefix (I : mstate -> list mev -> Prop) c s0 ls s evs : I s0 [] ->
  (forall la l lb s1 ev1 s2 ev, ls = la ++ l :: lb -> mrun c s0 la = Some (s1, ev1) -> mstep c s1 l = Some (s2, ev) ->
     I s1 ev1 -> I s2 (ev1 ++ ev)) ->
  mrun c s0 ls = Some (s, evs) -> I s evs.
Proof.
  intros H0. revert s evs. induction ls as [|l ls IH] using rev_ind; intros s evs Hstep Hr.
  - by injection Hr as <- <-.
  - rewrite mrun_app in Hr. destruct (mrun c s0 ls) as [[s1 ev1]|] eqn:E1; [|done]. cbn [mrun] in Hr.
    destruct (mstep c s1 l) as [[s2 ev2]|] eqn:E2; [|done]. injection Hr as <- <-. rewrite app_nil_r.
    apply (Hstep ls l [] s1 ev1); [done|exact E1|exact E2|]. apply IH; [|done].
    intros la l' lb s3 ev3 s4 ev4 ->. apply (Hstep la l' (lb ++ [l])). by rewrite <- app_assoc.
Qed.

Section emitting.
Context (ty : nat -> string -> gotype) (m : gmap string nat) (c : mcfg) (k : string * string) (rs : list vrec) (o : nat).
Hypothesis HV : versions_ok k rs.

Lemma about_app us vs : about k (us ++ vs) = about k us ++ about k vs.
Proof. apply filter_app. Qed.

Lemma of_key_app l1 l2 : of_key k (l1 ++ l2) = of_key k l1 ++ of_key k l2.
Proof. apply filter_app. Qed.

Definition upd_ok (u : rec_update) : Prop := exists cu, ru_curr u = Some cu /\ legit ty m cu /\
  forall p, ru_prev u = Some p -> legit ty m p /\ rkey p = rkey cu.

Definition sequenced (h : nat) (us : list rec_update) : Prop := forall j u, about k us !! j = Some u ->
  ru_curr u = rs !! (h + j) /\ (ru_prev u = None \/ 0 < h + j /\ ru_prev u = rs !! (h + j - 1)).

Lemma sequenced_skip h us vs : sequenced h (us ++ vs) -> sequenced (h + length (about k us)) vs.
Proof.
  intros H j u Hj. replace (h + length (about k us) + j) with (h + (length (about k us) + j)) by lia. apply H.
  rewrite about_app. rewrite lookup_app_r by lia. by replace (length (about k us) + j - length (about k us)) with j by lia.
Qed.

Lemma sequenced_take h us vs : sequenced h (us ++ vs) -> sequenced h us.
Proof. intros H j u Hj. apply H. rewrite about_app. by apply lookup_app_l_Some. Qed.

Lemma batch_emits e cur mm h : env_ok e -> Forall upd_ok cur -> sequenced h cur -> batch_records e cur = Some mm ->
  exists l, mm = Some <$> l /\ Forall (legit ty m) l /\ emits rs h (of_key k l) (h + length (about k cur)).
Proof.
  intros He HF. revert h mm. induction HF as [|u cur (cu & Hcu & Lc & Hp) HF IH]; intros h mm Hs Hb.
  - injection Hb as <-. exists []. split; [done|]. split; [constructor|]. rewrite Nat.add_0_r. constructor.
  - destruct u as [p c']. cbn [ru_curr ru_prev] in *. subst c'. cbn [batch_records] in Hb.
    assert (sequenced (h + length (about k [RecUpdate p (Some cu)])) cur) as Hs'.
    { apply sequenced_skip. exact Hs. }
    assert (length (about k (RecUpdate p (Some cu) :: cur)) = length (about k [RecUpdate p (Some cu)]) + length (about k cur)) as Hlen.
    { change (RecUpdate p (Some cu) :: cur) with ([RecUpdate p (Some cu)] ++ cur). by rewrite about_app, app_length. }
    rewrite Hlen, Nat.add_assoc.
    assert (forall l, emits rs (h + length (about k [RecUpdate p (Some cu)])) l (h + length (about k [RecUpdate p (Some cu)]) + length (about k cur)) ->
      emits rs h (of_key k (delta_of e p cu) ++ l) (h + length (about k [RecUpdate p (Some cu)]) + length (about k cur))) as Hadd.
    { intros l Hl. destruct (decide (rkey cu = k)) as [Hk|Hk].
      - assert (about k [RecUpdate p (Some cu)] = [RecUpdate p (Some cu)]) as Hab.
        { unfold about. rewrite filter_cons, decide_True; [done|]. cbn. by rewrite Hk. }
        assert (sequenced h [RecUpdate p (Some cu)]) as H1 by (eapply (sequenced_take h [_] cur); exact Hs).
        destruct (H1 0 (RecUpdate p (Some cu))) as [Hc Hpr]; [by rewrite Hab|]. cbn [ru_curr ru_prev] in Hc, Hpr.
        rewrite !Nat.add_0_r in *. rewrite Hab in *. cbn [length] in *.
        assert (of_key k (delta_of e p cu) = delta_of e p cu) as ->.
        { destruct (delta_cases k rs e p cu HV He) as [(r & -> & _ & _ & Hrk & _)|[-> _]]; [by exists h| | |done].
          - intros p' Hp'. destruct Hpr as [Hpr|[_ Hpr]]; [congruence|]. exists (h - 1). congruence.
          - unfold of_key. by rewrite filter_cons, decide_True. }
        eapply em_update; [exact He|by symmetry|exact Hpr|]. replace (S h) with (h + 1) by lia. exact Hl.
      - assert (about k [RecUpdate p (Some cu)] = []) as Hab.
        { unfold about. rewrite filter_cons, decide_False; [done|]. cbn. congruence. }
        rewrite Hab in *. cbn [length] in *. rewrite !Nat.add_0_r in *.
        assert (of_key k (delta_of e p cu) = []) as ->; [|exact Hl].
        destruct (update_delta e p cu He (proj1 Lc)) as [(r & Hd & Pr & Ht & Hi & Hu)|[Hd _]].
        + intros p' Hp'. destruct (Hp p' Hp') as [[? _] ?]. done.
        + unfold delta_of. rewrite Hd. unfold of_key. rewrite filter_cons, decide_False; [done|].
          intros Hr. apply Hk. rewrite <- Hr. unfold rkey. by rewrite (same_type_key cu r Ht), Hi.
        + unfold delta_of. by rewrite Hd. }
    destruct (update_delta e p cu He (proj1 Lc)) as [(r & Hd & Pr & Ht & Hi & Hu)|[Hd _]].
    { intros p' Hp'. destruct (Hp p' Hp') as [[? _] ?]. done. }
    + rewrite Hd in Hb. apply fmap_Some in Hb as (mm' & Hmm & ->). destruct (IH _ _ Hs' Hmm) as (l & -> & Hl & Hem).
      exists (r :: l). split; [done|]. split.
      * constructor; [|exact Hl]. split; [exact Pr|]. intros i. rewrite (same_type_key cu r Ht), Ht, Hi. apply (proj2 Lc).
      * change (r :: l) with ([r] ++ l). rewrite of_key_app.
        assert (delta_of e p cu = [r]) as Hdl by (unfold delta_of; by rewrite Hd). rewrite Hdl in Hadd. by apply Hadd.
    + rewrite Hd in Hb. destruct (IH _ _ Hs' Hb) as (l & -> & Hl & Hem). exists l. split; [done|]. split; [exact Hl|].
      assert (delta_of e p cu = []) as Hdl by (unfold delta_of; by rewrite Hd). rewrite Hdl in Hadd. by apply (Hadd _ Hem).
Qed.

(** What a listed page of a store holds. *)
Lemma list_next_page e i q tok s mm q' tok' : env_ok e -> m_serve (list_next c e i q tok s) = SPassSend mm q' tok' ->
  m_serve s = SPass (i :: q) tok ->
  (q' = q \/ q' = i :: q) /\ exists l, mm = e_rec <$> l /\ Forall (fun x => exists id, entry_at (holds s i) id = Some x) l.
Proof.
  intros He Hm Epc. unfold list_next in Hm. cbn [run_op fst snd] in Hm. unfold list_all in Hm.
  set (l0 := vc_res <$> sm_list e (store_at (m_stores s) i)) in Hm.
  assert (forall x, x ∈ l0 -> exists id, entry_at (holds s i) id = Some x) as Hg.
  { intros x Hx. destruct (enumerates_list e (store_at (m_stores s) i) He) as (ks & _ & Hf & _). fold l0 in Hf.
    apply elem_of_list_lookup in Hx as [n Hn]. destruct (Forall2_lookup_r _ _ _ _ _ Hf Hn) as (id & _ & Hk). by exists id. }
  assert (forall l t, apply_selector (mc_store_cfg c i) e l0 (Selector 0 (mc_flush_batch c) tok Ascending) = OutSet l t None ->
    forall x, x ∈ l -> x ∈ l0) as Hsubl.
  { intros l t Ha x Hx. unfold apply_selector in Ha. cbn [s_ordering s_continue s_offset s_limit] in Ha.
    set (l1 := env_sort e _ _ l0) in Ha. assert (l1 ≡ₚ l0) as Hp by apply (proj2 He). rewrite <- Hp. clearbody l1.
    assert (forall off, take_page e l1 off (mc_flush_batch c) = OutSet l t None -> x ∈ l1) as Htp.
    { intros off. unfold take_page. destruct (_ >=? _)%Z.
      - destruct (_ && _); intros E; injection E as <- _; [by rewrite take_nil in Hx; apply elem_of_nil in Hx|by apply elem_of_nil in Hx].
      - destruct (_ <? 0)%Z; [done|]. destruct (_ && _); intros E; injection E as <- _.
        + apply elem_of_take in Hx as (n & Hn & _). rewrite lookup_drop in Hn. by eapply elem_of_list_lookup_2.
        + apply elem_of_list_lookup in Hx as [n Hn]. rewrite lookup_drop in Hn. by eapply elem_of_list_lookup_2. }
    case_bool_decide; [by eapply Htp|]. destruct (decode_continue tok); [by eapply Htp|done]. }
  destruct (apply_selector _ _ _ _) as [? |? ?|l t [er|]|? ?|] eqn:Ea; flags; try congruence.
  destruct l as [|x l]; flags; [congruence|]. injection Hm as <- <- _. split; [case_bool_decide; auto|].
  exists (x :: l). split; [done|]. apply Forall_forall. intros y Hy. apply Hg. by eapply Hsubl.
Qed.

(** The state of affairs: [l0] was emitted before, with [h0] versions dealt with. *)
Definition whole_at (h : nat) (r : vrec) : Prop := rkey r = k -> exists n, rs !! n = Some r /\ h <= S n.

Definition going (dn cur : list rec_update) (p : spc) : Prop :=
  match p with
  | SBuffer buf => cur = buf
  | SSend mm => exists e, env_ok e /\ batch_records e cur = Some mm
  | SStopped => True
  | SPass q _ => cur = [] /\ (forall i, i ∈ q -> i ∈ mc_stores c)
  | SPassSend mm q _ => cur = [] /\ (forall i, i ∈ q -> i ∈ mc_stores c) /\
      exists lm, mm = Some <$> lm /\ Forall (legit ty m) lm /\ Forall (whole_at (o + length (about k dn))) lm
  | _ => cur = []
  end.

Definition emitted (l0 : list vrec) (h0 : nat) (s : mstate) (evs : list mev) : Prop :=
  exists dn cur l l', published evs = (dn ++ cur) ++ m_changes s /\
    concat (queued evs) = Some <$> l /\ Forall (legit ty m) l /\ of_key k l = l0 ++ l' /\
    emits rs h0 l' (o + length (about k dn)) /\ (m_crashed s = false -> going dn cur (m_serve s)).

Lemma emitted_keep l0 h0 s s' evs ev : emitted l0 h0 s evs -> m_crashed s = false ->
  published ev = [] -> queued ev = [] -> m_changes s' = m_changes s ->
  (m_crashed s' = true \/ forall dn cur, going dn cur (m_serve s) -> going dn cur (m_serve s')) -> emitted l0 h0 s' (evs ++ ev).
Proof.
  intros (dn & cur & l & l' & Hp & Hq & Hl & Hk & He & Hg) Hc Ep Eq Ech Hs. exists dn, cur, l, l'.
  unfold published, queued in *. rewrite !omap_app, Ep, Eq, !app_nil_r, Ech. do 5 (split; [done|]).
  intros Hc'. destruct Hs as [?|Hs]; [congruence|]. apply Hs. by apply Hg.
Qed.

Lemma emitted_finish l0 h0 e s evs dn cur l l' : sendable ty m c s evs -> versions k rs o c s evs ->
  published evs = (dn ++ cur) ++ m_changes s -> concat (queued evs) = Some <$> l -> Forall (legit ty m) l ->
  of_key k l = l0 ++ l' -> emits rs h0 l' (o + length (about k dn)) -> env_ok e -> emitted l0 h0 (finish_batch e cur s) evs.
Proof.
  intros [HU _] [HW _] Hp Hq Hl Hk Hem He. unfold finish_batch. destruct (batch_records e cur) as [mm|] eqn:Eb.
  - destruct mm as [|r mm].
    + exists (dn ++ cur), [], l, l'. flags. rewrite app_nil_r. do 4 (split; [done|]). split; [|done].
      destruct (batch_emits e cur [] (o + length (about k dn)) He) as (l2 & E & _ & H2).
      * apply Forall_forall. intros u Hu. apply HU. rewrite Hp. apply elem_of_app. left. apply elem_of_app. by right.
      * apply sequenced_skip. apply (sequenced_take o (dn ++ cur) (m_changes s)). intros j u Hj. apply HW. by rewrite Hp.
      * exact Eb.
      * destruct l2; [|done]. rewrite about_app, app_length, Nat.add_assoc. rewrite <- (app_nil_r l'). by eapply emits_app.
    + exists dn, cur, l, l'. flags. do 5 (split; [done|]). intros _. exists e. done.
  - exists dn, cur, l, l'. flags. do 5 (split; [done|]). done.
Qed.

Lemma emitted_step l0 h0 s evs lb s' ev : emitted l0 h0 s evs -> sendable ty m c s evs -> versions k rs o c s evs ->
  match lb with LServe e _ | LStore _ e _ => env_ok e | _ => True end ->
  mstep c s lb = Some (s', ev) -> emitted l0 h0 s' (evs ++ ev).
Proof.
  intros Hi HS HW He H. unfold mstep in H. destruct (m_crashed s) eqn:Hc; [done|]. destruct lb.
  - (* publish *)
    destruct (_ <? 256)%Z; [|done]. injection H as <- <-.
    destruct Hi as (dn & cur & l & l' & Hp & Hq & Hl & Hk & Hem & Hg). exists dn, cur, l, l'.
    unfold published, queued in *. rewrite !omap_app. cbn [omap list_omap]. rewrite Hp, app_nil_r. flags.
    split; [by rewrite <- !app_assoc|]. done.
  - unfold serve_step in H. destruct (m_serve s) as [|buf|mm|n|q tok|mm q tok|] eqn:Epc; destruct a; try discriminate H.
    + (* take an update *)
      destruct (m_changes s) as [|u q] eqn:Ech; [done|].
      pose proof Hi as (dn & cur & l & l' & Hp & Hq & Hl & Hk & Hem & Hg). specialize (Hg Hc). rewrite Epc in Hg. cbn in Hg. subst cur.
      rewrite Ech, app_nil_r in Hp.
      destruct (mc_buffers c && (1 <? mc_batch c)%Z); injection H as <- <-; rewrite app_nil_r.
      * exists dn, [u], l, l'. flags. split; [by rewrite <- app_assoc|]. do 4 (split; [done|]). done.
      * eapply (emitted_finish l0 h0 e (set_changes q s) evs dn [u] l l'); try done. flags. by rewrite <- app_assoc.
    + destruct (0 <? m_flushes s)%Z; [|done]. destruct (mc_delays c); injection H as <- <-.
      * apply (emitted_keep l0 h0 s); [done|done|done|done|done|]. right. rewrite Epc. flags. done.
      * apply (emitted_keep l0 h0 s); [done|done|done|done|done|]. right. rewrite Epc. flags. done.
    + destruct (m_cancelled s); [|done]. injection H as <- <-.
      apply (emitted_keep l0 h0 s); [done|done|done|done|done|]. right. flags. done.
    + (* one more update *)
      destruct (m_changes s) as [|u q] eqn:Ech; [done|].
      pose proof Hi as (dn & cur & l & l' & Hp & Hq & Hl & Hk & Hem & Hg). specialize (Hg Hc). rewrite Epc in Hg. cbn in Hg. subst cur.
      rewrite Ech in Hp.
      assert (published evs = (dn ++ (buf ++ [u])) ++ q) as Hp' by (rewrite Hp, <- !app_assoc; reflexivity).
      destruct (_ =? _)%Z; [unfold buffered in H; destruct (m_cancelled _)|]; injection H as <- <-; rewrite app_nil_r.
      * exists dn, (buf ++ [u]), l, l'. flags. do 5 (split; [done|]). done.
      * by eapply (emitted_finish l0 h0 e (set_changes q s) evs dn (buf ++ [u]) l l').
      * exists dn, (buf ++ [u]), l, l'. flags. do 5 (split; [done|]). done.
    + unfold buffered in H. destruct (m_cancelled s); injection H as <- <-.
      * apply (emitted_keep l0 h0 s); [done|done|done|done|done|]. right. flags. done.
      * pose proof Hi as (dn & cur & l & l' & Hp & Hq & Hl & Hk & Hem & Hg). specialize (Hg Hc). rewrite Epc in Hg. cbn in Hg. subst cur.
        rewrite app_nil_r. by eapply (emitted_finish l0 h0 e s evs dn buf l l').
    + destruct (m_cancelled s); [|done]. injection H as <- <-.
      apply (emitted_keep l0 h0 s); [done|done|done|done|done|]. right. flags. done.
    + (* queue an update message *)
      destruct (_ <? 256)%Z; [|done]. injection H as <- <-.
      destruct Hi as (dn & cur & l & l' & Hp & Hq & Hl & Hk & Hem & Hg). specialize (Hg Hc). rewrite Epc in Hg.
      destruct Hg as (e0 & He0 & Hbr).
      destruct (batch_emits e0 cur mm (o + length (about k dn)) He0) as (l2 & -> & Hl2 & H2).
      * apply Forall_forall. intros u Hu. apply (proj1 HS). rewrite Hp. apply elem_of_app. left. apply elem_of_app. by right.
      * apply sequenced_skip. apply (sequenced_take o (dn ++ cur) (m_changes s)). intros j u Hj. apply (proj1 HW). by rewrite Hp.
      * exact Hbr.
      * exists (dn ++ cur), [], (l ++ l2), (l' ++ of_key k l2). flags. rewrite app_nil_r.
        unfold published, queued in *. rewrite !omap_app. cbn [omap list_omap]. rewrite app_nil_r.
        split; [done|]. split. { rewrite concat_app, Hq, fmap_app. cbn [concat]. by rewrite app_nil_r. }
        split; [by apply Forall_app|]. split. { by rewrite of_key_app, Hk, app_assoc. }
        split; [|done]. rewrite about_app, app_length, Nat.add_assoc. by eapply emits_app.
    + (* drain *)
      destruct (0 <? m_flushes s)%Z; [|done]. destruct (_ =? 2048)%Z.
      * unfold drained in H. destruct (m_cancelled _); injection H as <- <-;
          (apply (emitted_keep l0 h0 s); [done|done|done|done|done|]); right; rewrite Epc; flags; done.
      * injection H as <- <-. apply (emitted_keep l0 h0 s); [done|done|done|done|done|]. right. rewrite Epc. flags. done.
    + unfold drained in H. destruct (m_cancelled _); injection H as <- <-;
        (apply (emitted_keep l0 h0 s); [done|done|done|done|done|]); right; rewrite Epc; flags; done.
    + destruct q; discriminate H.
    + destruct q; discriminate H.
    + destruct q; discriminate H.
    + destruct q; discriminate H.
    + destruct q; discriminate H.
    + (* a store is listed, or the pass ends *)
      destruct q as [|i q]; injection H as <- <-.
      * apply (emitted_keep l0 h0 s); [done|done|done|done|done|]. right. rewrite Epc. flags. intros ? ? [-> _]. done.
      * destruct Hi as (dn & cur & l & l' & Hp & Hq & Hl & Hk & Hem & Hg). specialize (Hg Hc). rewrite Epc in Hg.
        destruct Hg as [-> Hsub]. rewrite app_nil_r.
        assert (m_changes (list_next c e i q tok s) = m_changes s) as Ech.
        { unfold list_next. destruct (run_op _ _ _ _).1.2 as [? |? ?|? ? [?|]|? ?|]; try done. by destruct l1. }
        exists dn, [], l, l'. rewrite Ech. do 5 (split; [done|]). intros Hcr.
        destruct (m_serve (list_next c e i q tok s)) as [|buf|mm|n|q' tok'|mm q' tok'|] eqn:Es; try done.
        -- exfalso. unfold list_next in Es. destruct (run_op _ _ _ _).1.2 as [? |? ?|l1 ? [?|]|? ?|]; flags; try congruence.
           destruct l1; flags; congruence.
        -- exfalso. unfold list_next in Es. destruct (run_op _ _ _ _).1.2 as [? |? ?|l1 ? [?|]|? ?|]; flags; try congruence.
           destruct l1; flags; congruence.
        -- split; [done|]. unfold list_next in Es. destruct (run_op _ _ _ _).1.2 as [? |? ?|l1 tk [?|]|? ?|]; flags.
           all: try (rewrite Epc in Es; injection Es as <- <-; exact Hsub).
           destruct l1; flags; [|congruence]. injection Es as <- _. intros j Hj. apply Hsub. case_bool_decide; [by right|done].
        -- destruct (list_next_page e i q tok s mm q' tok' He Es Epc) as [Hq' (pg & -> & HF)].
           split; [done|]. split; [intros j Hj; apply Hsub; destruct Hq' as [-> | ->]; [by right|done]|].
           assert (i ∈ mc_stores c) as Hin by (apply Hsub; left).
           clear Es. induction HF as [|x pg [id Hx] HF IH].
           ++ exists []. split; [done|]. split; constructor.
           ++ destruct IH as (lm & Em & H1 & H2). destruct (proj2 HS i id x Hin Hx) as (r & Er & Lr).
              exists (r :: lm). rewrite !fmap_cons, Em, Er. split; [done|]. split; [by constructor|]. constructor; [|exact H2].
              intros Hrk. destruct (proj2 HW i id x r Hin Hx Er Hrk) as (n & Hn & Hle). exists n. split; [exact Hn|].
              rewrite Hp, !about_app, !app_length in Hle. lia.
    + destruct (m_cancelled s); [|done]. injection H as <- <-.
      apply (emitted_keep l0 h0 s); [done|done|done|done|done|]. right. flags. done.
    + (* queue a flush message *)
      destruct (_ <? 256)%Z; [|done]. injection H as <- <-.
      destruct Hi as (dn & cur & l & l' & Hp & Hq & Hl & Hk & Hem & Hg). specialize (Hg Hc). rewrite Epc in Hg.
      destruct Hg as (-> & Hsub & lm & -> & Hlm & Hw).
      exists dn, [], (l ++ lm), (l' ++ of_key k lm). flags.
      unfold published, queued in *. rewrite !omap_app. cbn [omap list_omap]. rewrite app_nil_r.
      split; [by rewrite app_nil_r in Hp |- *|]. split. { rewrite concat_app, Hq, fmap_app. cbn [concat]. by rewrite app_nil_r. }
      split; [by apply Forall_app|]. split. { by rewrite of_key_app, Hk, app_assoc. }
      split; [|done]. eapply emits_app; [exact Hem|]. clear -Hw. induction Hw as [|r lm Hr HF IH]; [constructor|].
      unfold of_key in *. rewrite filter_cons. case_decide as Hd; [|exact IH]. destruct (Hr Hd) as (n & Hn & Hle).
      by eapply em_whole.
  - destruct (m_listening s); [|done]. injection H as <- <-. unfold recv_step. cbn [fst snd].
    apply (emitted_keep l0 h0 s); [done|done|by destruct ok|by destruct ok|by destruct (_ <? 8)%Z|].
    right. by destruct (_ <? 8)%Z.
  - destruct (_ && _); [|done]. injection H as <- <-.
    apply (emitted_keep l0 h0 s); [done|done|done|done|done|]. by right.
  - destruct (m_sending s); [|done]. unfold send_step in H. destruct (m_sends s); [done|].
    destruct (encode_record_msg _); injection H as <- <-;
      (apply (emitted_keep l0 h0 s); [done|done|done|done|done|]); by (right || left).
  - destruct (_ && _); [|done]. injection H as <- <-.
    apply (emitted_keep l0 h0 s); [done|done|done|done|done|]. by right.
  - injection H as <- <-. apply (emitted_keep l0 h0 s); [done|done|done|done|done|]. by right.
  - destruct (run_op _ _ _ _) as [[s1 ?] ?]. injection H as <- <-.
    apply (emitted_keep l0 h0 s); [done|done|done|done|done|]. by right.
Qed.

End emitting.

(** ** Whole runs *)

Lemma emitted_run ty m c k rs o w la lb s ev s' ev' l0 h0 : versions_ok k rs -> labels_ok (la ++ lb) ->
  at_all_times c w (la ++ lb) (sendable ty m c) -> at_all_times c w (la ++ lb) (versions k rs o c) ->
  mrun c (m_init w) la = Some (s, ev) -> emitted ty m c k rs o l0 h0 s ev -> mrun c s lb = Some (s', ev') ->
  emitted ty m c k rs o l0 h0 s' (ev ++ ev').
Proof.
  intros HV Hok HS HW Hla Hi Hlb.
  apply (mrun_inv_prefix (fun s2 ev2 => emitted ty m c k rs o l0 h0 s2 (ev ++ ev2)) c s lb s' ev'); [by rewrite app_nil_r| |exact Hlb].
  intros l1 l l2 s1 ev1 s2 ev2 -> Hr Hs Hem.
  assert (mrun c (m_init w) (la ++ l1) = Some (s1, ev ++ ev1)) as Hr1 by (by rewrite mrun_app, Hla, Hr).
  assert (la ++ l1 ++ l :: l2 = (la ++ l1) ++ l :: l2) as Eq by (by rewrite <- app_assoc).
  rewrite app_assoc. eapply emitted_step; [exact HV|exact Hem| | | |exact Hs].
  - by apply (HS (la ++ l1) (l :: l2)).
  - by apply (HW (la ++ l1) (l :: l2)).
  - rewrite Eq in Hok. apply Forall_app in Hok as [_ Hok]. by apply Forall_cons in Hok as [Hok _].
Qed.

Lemma emitted_init ty m c k rs o w : emitted ty m c k rs o [] o (m_init w) [].
Proof.
  exists [], [], [], []. split; [done|]. split; [done|]. split; [constructor|]. split; [done|]. split; [|done].
  cbn. rewrite Nat.add_0_r. constructor.
Qed.

(** The step at which something happened. *)
Lemma mrun_event c s ls s' ev x : mrun c s ls = Some (s', ev) -> x ∈ ev ->
  exists la l lb sa eva sb evb evc, ls = la ++ l :: lb /\ mrun c s la = Some (sa, eva) /\ mstep c sa l = Some (sb, evb) /\
    x ∈ evb /\ mrun c sb lb = Some (s', evc) /\ ev = eva ++ evb ++ evc.
Proof.
  revert s ev. induction ls as [|l ls IH]; intros s ev Hr Hx.
  - injection Hr as <- <-. by apply elem_of_nil in Hx.
  - cbn [mrun] in Hr. destruct (mstep c s l) as [[s1 ev1]|] eqn:E1; [|done].
    destruct (mrun c s1 ls) as [[s2 ev2]|] eqn:E2; [|done]. injection Hr as <- <-.
    apply elem_of_app in Hx as [Hx|Hx].
    + exists [], l, ls, s, [], s1, ev1, ev2. done.
    + destruct (IH s1 ev2 E2 Hx) as (la & l' & lb & sa & eva & sb & evb & evc & -> & Hla & Hst & Hin & Hlb & ->).
      exists (l :: la), l', lb, sa, (ev1 ++ eva), sb, evb, evc. split; [done|]. split; [cbn [mrun]; by rewrite E1, Hla|].
      split; [done|]. split; [done|]. split; [done|]. by rewrite <- app_assoc.
Qed.

Lemma flush_step c s l s' ev mm : mstep c s l = Some (s', ev) -> MQueued false mm ∈ ev ->
  exists q tok, m_serve s = SPassSend mm q tok /\ ev = [MQueued false mm] /\ m_crashed s = false /\
    s' = set_serve (SPass q tok) (set_sends (m_sends s ++ [mm]) s).
Proof.
  intros H Hin. unfold mstep in H. destruct (m_crashed s) eqn:Hc; [done|].
  assert (forall x y, [x] = ev -> MQueued false y ∈ ev -> x = MQueued false y) as Hone.
  { intros x y <- Hy. by apply elem_of_list_singleton in Hy. }
  assert (forall y, [] = ev -> MQueued false y ∈ ev -> False) as Hnone by (intros y <- Hy; by apply elem_of_nil in Hy).
  destruct l.
  - destruct (_ <? 256)%Z; [|done]. injection H as _ H. by specialize (Hone _ _ H Hin).
  - unfold serve_step, start_pass, drained, start_pass in H. destruct (m_serve s) as [|buf|m0|n|q tok|m0 q tok|] eqn:Epc; destruct a; try discriminate H;
      repeat match type of H with
      | context [match ?x with _ => _ end] => destruct x eqn:?
      end; try discriminate H; injection H as Hs' H;
      first [ exfalso; exact (Hnone _ H Hin)
            | specialize (Hone _ _ H Hin); try discriminate Hone ].
    injection Hone as ->. exists q, tok. done.
  - destruct (m_listening s); [|done]. unfold recv_step in H. injection H as _ H. specialize (Hone _ _ H Hin). by destruct ok.
  - destruct (_ && _); [|done]. injection H as _ H. by specialize (Hnone _ H Hin).
  - destruct (m_sending s); [|done]. unfold send_step in H. destruct (m_sends s); [done|].
    destruct (encode_record_msg _); injection H as _ H; first [by specialize (Hone _ _ H Hin)|by specialize (Hnone _ H Hin)].
  - destruct (_ && _); [|done]. injection H as _ H. by specialize (Hnone _ H Hin).
  - injection H as _ H. by specialize (Hnone _ H Hin).
  - destruct (run_op _ _ _ _) as [[s1 ?] ?]. injection H as _ H. by specialize (Hnone _ H Hin).
Qed.

(** Messages of legitimate records encode; what was sent is what the collector takes. *)
Lemma legit_encodable ty m l : Forall (legit ty m) l -> encodable (Some <$> l).
Proof.
  intros H. apply (encodable_iff (Some <$> l) l eq_refl).
  - eapply Forall_impl; [exact H|]. by intros r [[? _] _].
  - eapply Forall_impl; [exact H|]. intros r [[_ ?] _]. eauto.
Qed.

Lemma split_some (ms : list mmsg) (l : list vrec) : concat ms = Some <$> l ->
  exists bs : list (list vrec), ms = (fun b : list vrec => Some <$> b) <$> bs /\ concat bs = l.
Proof.
  revert l. induction ms as [|x ms IH]; intros l H.
  - destruct l; [|done]. exists []. done.
  - cbn [concat] in H. symmetry in H. apply fmap_app_inv in H as (l1 & l2 & -> & H2 & ->).
    destruct (IH l2 H2) as (bs & -> & <-). exists (l1 :: bs). done.
Qed.

Lemma wires_deliver ev : Forall (fun x => match x with
      | MSent mm am _ => encode_mmsg mm = Ok am
      | MSkipped mm => exists er, encode_mmsg mm = Err er
      | _ => True end) ev -> (forall mm am, MSent mm am false ∉ ev) ->
  forall bs l, processed ev = (fun b : list vrec => Some <$> b) <$> bs -> Forall (fun b => encodable (Some <$> b)) bs -> takes l (wires ev) -> Forall2 delivers l bs.
Proof.
  intros HF Hok. induction HF as [|x ev Hx HF IH]; intros bs l Hb He Ht.
  - destruct bs; [|done]. inversion Ht. constructor.
  - assert (forall mm am, MSent mm am false ∉ ev) as Hok' by (intros mm am Hin; apply (Hok mm am); by right).
    specialize (IH Hok'). unfold processed, wires in *. destruct x as [u|b0 mm| | | | |mm am ok|mm]; cbn [omap list_omap] in *; try (by apply IH).
    + destruct bs as [|b bs]; [done|]. rewrite fmap_cons in Hb. injection Hb as -> Hb. apply Forall_cons in He as [_ He].
      destruct ok; [|exfalso; eapply Hok; left]. inversion Ht as [|[es am'] y l' ws (H1 & H2 & H3) Ht' E1 E2]; subst.
      constructor; [|by apply IH]. cbn [fst snd] in *. subst am'. split; [exact H1|]. split; [by rewrite fmap_length in H2|].
      exists (MsgProps "" "" ""). exact Hx.
    + destruct bs as [|b bs]; [done|]. rewrite fmap_cons in Hb. injection Hb as -> Hb. apply Forall_cons in He as [[am He] _].
      destruct Hx as [er Her]. exfalso. unfold encode_mmsg in *. rewrite He in Her. discriminate Her.
Qed.

Lemma concerning_of_key ty m i k l : Forall (typed_as ty m) l -> m !! k.1 = Some i ->
  (exists r0, typed_as ty m r0 /\ rkey r0 = k) -> concerning m i k.2 l = of_key k l.
Proof.
  intros HF Hm (r0 & T0 & <-). unfold concerning, of_key. induction HF as [|r l Hr HF IH]; [done|]. rewrite !filter_cons, IH.
  destruct (decide (rkey r = rkey r0)) as [Hk|Hk].
  - rewrite decide_True; [done|]. injection Hk as -> ->. done.
  - rewrite decide_False; [done|]. intros [H1 H2]. apply Hk. unfold rkey in *. cbn [fst snd] in *. f_equal; [|done].
    apply same_type_key. rewrite (Hr i H1), (T0 i Hm), H2. done.
Qed.

Lemma flushed_in ev r : Some r ∈ concat (flush_msgs ev) -> exists mm, MQueued false mm ∈ ev /\ Some r ∈ mm.
Proof.
  intros H. apply elem_of_list_In, in_concat in H as (mm & Hm & Hr). apply elem_of_list_In in Hm, Hr. exists mm. split; [|exact Hr].
  unfold flush_msgs in Hm. apply elem_of_list_omap in Hm as (x & Hx & Hin). destruct x as [|[] ?| | | | | |]; try done.
  by injection Hin as ->.
Qed.

Lemma fmap_Some_inj (l1 l2 : list vrec) : Some <$> l1 = Some <$> l2 -> l1 = l2.
Proof. apply (inj (fun l : list vrec => Some <$> l)). Qed.

(** What the collector has taken: the end of everything emitted, from a whole
    record on. *)
Lemma taken ty m c k rs o w ls1 ls2 s1 ev1 s2 ev2 : versions_ok k rs -> labels_ok (ls1 ++ ls2) ->
  at_all_times c w (ls1 ++ ls2) (sendable ty m c) -> at_all_times c w (ls1 ++ ls2) (versions k rs o c) ->
  mrun c (m_init w) ls1 = Some (s1, ev1) -> mrun c s1 ls2 = Some (s2, ev2) -> m_crashed s2 = false -> resting s2 ->
  o + length (about k (published (ev1 ++ ev2))) = length rs ->
  exists bs l1, processed ev2 = (fun b : list vrec => Some <$> b) <$> bs /\ Forall (legit ty m) (concat bs) /\
    emits rs o (l1 ++ of_key k (concat bs)) (length rs) /\ (ev1 = [] -> l1 = []) /\
    ((exists r, Some r ∈ concat (flush_msgs ev2) /\ rkey r = k) ->
     exists l2 r n h l3, of_key k (concat bs) = l2 ++ r :: l3 /\ rs !! n = Some r /\ h <= S n /\ emits rs h l3 (length rs)).
Proof.
  intros HV Hok HS HW Hr1 Hr2 Hc (Hi1 & Hi2 & Hi3 & Hi4) Hn.
  assert (mrun c (m_init w) (ls1 ++ ls2) = Some (s2, ev1 ++ ev2)) as Hr by (by rewrite mrun_app, Hr1, Hr2).
  assert (forall l0 h0, emitted ty m c k rs o l0 h0 s2 (ev1 ++ ev2) -> exists l l', concat (queued (ev1 ++ ev2)) = Some <$> l /\
    Forall (legit ty m) l /\ of_key k l = l0 ++ l' /\ emits rs h0 l' (length rs)) as Hend.
  { intros l0 h0 (dn & cur & l & l' & Hp & Hq & Hl & Hk & Hem & Hg). specialize (Hg Hc). rewrite Hi1 in Hg. cbn in Hg. subst cur.
    exists l, l'. split; [exact Hq|]. split; [exact Hl|]. split; [exact Hk|].
    rewrite Hp, Hi2, !app_nil_r in Hn. by rewrite Hn in Hem. }
  destruct (send_inv_run c w (ls1 ++ ls2) s2 (ev1 ++ ev2) Hr) as (lost & Hq & _ & Hlost & _).
  rewrite (Hlost Hc), Hi4, !app_nil_r in Hq.
  assert (processed (ev1 ++ ev2) = processed ev1 ++ processed ev2) as Hpa by (unfold processed; by rewrite omap_app).
  destruct (Hend [] o) as (l & l' & Hcq & Hl & Hk & Hem).
  { apply (emitted_run ty m c k rs o w [] (ls1 ++ ls2) (m_init w) [] s2 (ev1 ++ ev2)); try done. apply emitted_init. }
  rewrite Hq, Hpa, concat_app in Hcq. symmetry in Hcq. apply fmap_app_inv in Hcq as (A & B & HA & HB & ->).
  destruct (split_some _ _ HB) as (bs & Hbs & <-).
  exists bs, (of_key k A). split; [exact Hbs|]. apply Forall_app in Hl as [HlA HlB]. split; [exact HlB|].
  split. { rewrite <- of_key_app, Hk. exact Hem. }
  split. { intros ->. cbn in HA. destruct A; [done|discriminate HA]. }
  intros (r & Hfl & Hrk). destruct (flushed_in ev2 r Hfl) as (mm & Hmq & Hrm).
  destruct (mrun_event c s1 ls2 s2 ev2 _ Hr2 Hmq) as (la & lb & lc & sa & eva & sb & evb & evc & Els & Hla & Hst & Hin & Hlc & Eev).
  destruct (flush_step c sa lb sb evb mm Hst Hin) as (q & tok & Epc & -> & Hca & Esb).
  assert (mrun c (m_init w) (ls1 ++ la) = Some (sa, ev1 ++ eva)) as Hra by (by rewrite mrun_app, Hr1, Hla).
  assert (mrun c (m_init w) (ls1 ++ la ++ [lb]) = Some (sb, ev1 ++ eva ++ [MQueued false mm])) as Hrb.
  { rewrite mrun_app, Hr1, mrun_app, Hla. cbn [mrun]. rewrite Hst. by rewrite ?app_nil_r. }
  assert (ls1 ++ ls2 = (ls1 ++ la) ++ (lb :: lc)) as El1 by (by rewrite Els, <- app_assoc).
  assert (ls1 ++ ls2 = (ls1 ++ la ++ [lb]) ++ lc) as El2 by (by rewrite Els, <- !app_assoc).
  assert (emitted ty m c k rs o [] o sa (ev1 ++ eva)) as Hea.
  { apply (emitted_run ty m c k rs o w [] (ls1 ++ la) (m_init w) [] sa (ev1 ++ eva)); try done.
    - cbn [app]. rewrite El1 in Hok. by apply Forall_app in Hok as [? _].
    - intros x y s3 ev3 E. apply (HS x (y ++ lb :: lc)). cbn [app] in E. by rewrite El1, E, <- app_assoc.
    - intros x y s3 ev3 E. apply (HW x (y ++ lb :: lc)). cbn [app] in E. by rewrite El1, E, <- app_assoc.
    - apply emitted_init. }
  destruct Hea as (dn & cur & la0 & l'0 & Hp & Hqa & Hla0 & Hka & Hema & Hg). specialize (Hg Hca). rewrite Epc in Hg.
  destruct Hg as (-> & Hsub & lm & -> & Hlm & Hw).
  assert (r ∈ lm) as Hrl. { apply elem_of_list_fmap in Hrm as (r' & [= ->] & ?). done. }
  apply elem_of_list_split in Hrl as (lm1 & lm2 & ->).
  apply Forall_app in Hw as [_ Hw]. apply Forall_cons in Hw as [Hr0 Hw]. destruct (Hr0 Hrk) as (n & Hrn & Hle).
  set (h := o + length (about k dn)) in *.
  assert (emitted ty m c k rs o (of_key k (la0 ++ lm1 ++ [r])) h sb (ev1 ++ eva ++ [MQueued false (Some <$> lm1 ++ r :: lm2)])) as Heb.
  { exists dn, [], (la0 ++ lm1 ++ r :: lm2), (of_key k lm2). subst sb. flags.
    rewrite !(assoc_L (++) ev1). unfold published, queued in *. rewrite !(omap_app _ (ev1 ++ eva)). cbn [omap list_omap].
    split; [by rewrite app_nil_r|].
    split. { rewrite concat_app, Hqa. cbn [concat]. by rewrite app_nil_r, !fmap_app. }
    split; [by apply Forall_app|]. split. { rewrite <- of_key_app. f_equal. by rewrite <- !app_assoc. }
    split; [|done]. fold h. clear -Hw. induction Hw as [|r lm Hr HF IH]; [constructor|].
    unfold of_key in *. rewrite filter_cons. case_decide as Hd; [|exact IH]. destruct (Hr Hd) as (n & Hn & Hle). by eapply em_whole. }
  assert (emitted ty m c k rs o (of_key k (la0 ++ lm1 ++ [r])) h s2 (ev1 ++ ev2)) as Hes.
  { rewrite Eev. replace (ev1 ++ eva ++ [MQueued false (Some <$> lm1 ++ r :: lm2)] ++ evc)
      with ((ev1 ++ eva ++ [MQueued false (Some <$> lm1 ++ r :: lm2)]) ++ evc) by (by rewrite <- !app_assoc).
    apply (emitted_run ty m c k rs o w (ls1 ++ la ++ [lb]) lc sb _ s2 evc); try done; by rewrite <- El2. }
  destruct (Hend _ _ Hes) as (lf & l3 & Hqf & _ & Hkf & Hemf).
  assert (lf = A ++ concat bs) as ->.
  { apply fmap_Some_inj. rewrite <- Hqf, Hq, Hpa, concat_app, HA. rewrite fmap_app. f_equal. by symmetry. }
  destruct (send_inv_run c w (ls1 ++ la) sa (ev1 ++ eva) Hra) as (lost' & Hqa' & _ & _ & _).
  assert (exists rest, la0 = A ++ rest) as [rest ->].
  { unfold processed in Hqa'. rewrite omap_app in Hqa'. fold (processed ev1) in Hqa'. fold (processed eva) in Hqa'.
    rewrite Hqa', <- !app_assoc, concat_app, HA in Hqa. symmetry in Hqa. apply fmap_app_inv in Hqa as (x & y & Hx & _ & ->).
    exists y. f_equal. by apply fmap_Some_inj. }
  exists (of_key k (rest ++ lm1)), r, n, h, l3. split; [|done].
  rewrite !of_key_app, <- !app_assoc in Hkf. apply app_inv_head in Hkf. rewrite Hkf, of_key_app.
  assert (of_key k [r] = [r]) as -> by (unfold of_key; by rewrite filter_cons, decide_True).
  by rewrite <- !app_assoc.
Qed.

(** The collector's copy in the end. *)
Lemma arrives ty m c k rs o w ls1 ls2 s1 ev1 s2 ev2 cfs src l w0 i r :
  Forall (fun x => legit ty m x /\ rkey x = k) rs -> labels_ok (ls1 ++ ls2) ->
  at_all_times c w (ls1 ++ ls2) (sendable ty m c) -> at_all_times c w (ls1 ++ ls2) (versions k rs o c) ->
  mrun c (m_init w) ls1 = Some (s1, ev1) -> mrun c s1 ls2 = Some (s2, ev2) -> m_crashed s2 = false -> resting s2 ->
  o + length (about k (published (ev1 ++ ev2))) = length rs -> last rs = Some r ->
  (exists r, Some r ∈ concat (flush_msgs ev2) /\ rkey r = k) \/ ev1 = [] /\ o = 0 ->
  (forall mm am, MSent mm am false ∉ ev2) -> (forall i, usual_key (cfs i)) -> sound ty w0 -> m !! k.1 = Some i ->
  takes l (wires ev2) ->
  exists w' a, collect cfs m src l w0 = (w', false) /\ sound ty w' /\ copy_at w' i k.2 = Some a /\ attrs_of r ⊆ a /\
    (copy_at w0 i k.2 = None -> never_clears rs -> a = attrs_of r).
Proof.
  intros HF Hok HS HW Hr1 Hr2 Hc Hrest Hn Hlast Hor Hsent Hk Hs0 Hm Ht.
  assert (versions_ok k rs) as HV. { eapply Forall_impl; [exact HF|]. intros x [[? _] ?]. done. }
  destruct (taken ty m c k rs o w ls1 ls2 s1 ev1 s2 ev2 HV Hok HS HW Hr1 Hr2 Hc Hrest Hn) as (bs & l1 & Hbs & Hleg & Hem & Hnil & Hfl).
  assert (mrun c (m_init w) (ls1 ++ ls2) = Some (s2, ev1 ++ ev2)) as Hr by (by rewrite mrun_app, Hr1, Hr2).
  destruct (send_inv_run c w (ls1 ++ ls2) s2 (ev1 ++ ev2) Hr) as (lost & _ & _ & _ & Hfa).
  apply Forall_app in Hfa as [_ Hfa].
  assert (Forall2 delivers l bs) as Hdel.
  { eapply wires_deliver; [exact Hfa|exact Hsent|exact Hbs| |exact Ht].
    clear -Hleg. induction bs as [|b bs IH]; [constructor|]. cbn [concat] in Hleg. apply Forall_app in Hleg as [H1 H2].
    constructor; [by eapply legit_encodable|by apply IH]. }
  destruct (collect_copy ty cfs m src l bs w0 Hk Hdel Hs0) as (w' & Hcol & Hs' & Hcopy).
  { eapply Forall_impl; [exact Hleg|]. by intros x [? _]. }
  { eapply Forall_impl; [exact Hleg|]. by intros x [_ ?]. }
  specialize (Hcopy i k.2). rewrite (concerning_of_key ty m i k) in Hcopy; [|eapply Forall_impl; [exact Hleg|by intros x [_ ?]]|exact Hm|].
  2: { exists r. apply last_Some_elem_of in Hlast. apply (proj1 (Forall_forall _ _) HF) in Hlast as [[_ ?] ?]. done. }
  assert (exists a, laid (copy_at w0 i k.2) (of_key k (concat bs)) = Some a /\ fresh rs (length rs) a) as (a & Ha & Hfr).
  { destruct Hor as [Hf|[-> ->]].
    - destruct (Hfl Hf) as (l2 & r1 & n & h & l3 & -> & Hrn & Hle & Hem3). rewrite laid_app.
      set (acc := laid (copy_at w0 i k.2) l2).
      change (laid acc (r1 :: l3)) with (laid (Some (attrs_of r1 ∪ default ∅ acc)) l3).
      destruct (laid_Some_app (attrs_of r1 ∪ default ∅ acc) l3) as [a Ha]. exists a. split; [exact Ha|].
      eapply (emits_fresh k); [exact HV|exact Hem3| |exact Ha]. by apply (fresh_whole rs h n).
    - rewrite (Hnil eq_refl) in Hem. apply (emits_first k); [exact HV|exact Hem|]. destruct rs; [done|simpl; lia]. }
  exists w', a. split; [exact Hcol|]. split; [exact Hs'|]. split; [by rewrite Hcopy|].
  pose proof (fresh_last rs r a Hlast Hfr) as Hsub. split; [exact Hsub|].
  intros Hnone Hnc. rewrite Hnone in Ha.
  pose proof (emits_dom k rs o _ _ r HV Hnc Hlast Hem) as Hdom. apply Forall_app in Hdom as [_ Hdom].
  pose proof (laid_dom (attrs_of r) _ a Ha Hdom) as Hd.
  apply map_eq. intros x. apply option_eq. intros y. split.
  - intros Hx. destruct (Hd x) as [z Hz]; [eauto|]. pose proof (lookup_weaken _ _ _ _ Hz Hsub). congruence.
  - intros Hx. by eapply lookup_weaken.
Qed.
