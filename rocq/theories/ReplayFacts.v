(** Managers of a fixture and the replay of flows. *)
From Coq Require Import ZArith NArith Ascii String Lia.
From stdpp Require Import base gmap strings list pretty.
From Verif Require Import GoBase Encoding SpecEncoding EncodingFacts Records Messages SpecMessages MessageFacts AccumFacts
  Env SyncMap Tokens Cache SpecStore StoreFacts StoreLemmas ListFacts EventFacts HistFacts StoreExamples Dispatch DispatchFacts Diff
  DiffFacts ConvergeFacts Tool ToolFacts.

Local Open Scope list_scope.
Local Opaque vanflow_registry builtin_types record_types Encode Decode attrs_of.

(** ** Managers *)

Lemma managers_some l n s : managers_by_name l !! n = Some s -> exists src, (src, s) ∈ l /\ sr_name src = n.
Proof.
  unfold managers_by_name. induction l as [|[src u] l IH] using rev_ind; [done|].
  rewrite fold_left_app. cbn [fold_left]. destruct (decide (sr_name src = n)) as [<-|Hne].
  - rewrite lookup_insert. intros [= <-]. exists src. split; [apply elem_of_app; right; left|done].
  - rewrite lookup_insert_ne by done. intros H. destruct (IH H) as (src' & Hin & Hn). exists src'. split; [apply elem_of_app; by left|done].
Qed.

Lemma managers_cover l src s : (src, s) ∈ l -> is_Some (managers_by_name l !! sr_name src).
Proof.
  unfold managers_by_name. induction l as [|[src' u] l IH] using rev_ind; [by intros ?%elem_of_nil|].
  rewrite fold_left_app. cbn [fold_left]. intros Hin. destruct (decide (sr_name src' = sr_name src)) as [E|Hne].
  - rewrite E, lookup_insert. by eexists.
  - rewrite lookup_insert_ne by done. apply IH. apply elem_of_app in Hin as [?|Hin]; [done|].
    apply elem_of_list_singleton in Hin. congruence.
Qed.

(** The managers made for the stores of a fixture, in any order. *)
Definition managers_of (ss : gmap source_ref items) (ms : gmap string items) : Prop :=
  exists l, l ≡ₚ map_to_list ss /\ ms = managers_by_name l.

Lemma managers_known ss ms n s : managers_of ss ms -> ms !! n = Some s -> exists src, ss !! src = Some s /\ sr_name src = n.
Proof.
  intros (l & Hl & ->) H. destruct (managers_some _ _ _ H) as (src & Hin & Hn). exists src. split; [|done].
  apply elem_of_map_to_list. by rewrite <-Hl.
Qed.

Lemma managers_all ss ms src s : managers_of ss ms -> ss !! src = Some s -> is_Some (ms !! sr_name src).
Proof. intros (l & Hl & ->) H. eapply managers_cover. rewrite Hl. by apply elem_of_map_to_list. Qed.

Lemma managers_distinct ss ms src : managers_of ss ms ->
  (forall a b, is_Some (ss !! a) -> is_Some (ss !! b) -> sr_name a = sr_name b -> a = b) ->
  is_Some (ss !! src) -> ms !! sr_name src = ss !! src.
Proof.
  intros Hm Hd [s Hs]. destruct (managers_all _ _ _ _ Hm Hs) as [s' Hs'].
  destruct (managers_known _ _ _ _ Hm Hs') as (src' & H' & Hn). rewrite Hs'.
  by rewrite (Hd src' src (ex_intro _ _ H') (ex_intro _ _ Hs) Hn) in H'.
Qed.

(** ** Finding the pairs *)

(** The flows a set of stores holds: a FlowRecord, held by pointer, with its
    identity and counterflow. *)
Definition holds_flow (ms : gmap string items) (x : entry) (id : string) (counter : option string) : Prop :=
  exists n s k v val, ms !! n = Some s /\ contents s !! k = Some (x, v) /\ e_rec x = Some (VRec true FlowRecord val) /\
    fl_id val = id /\ fl_counterflow val = counter.

Lemma as_flow_some r v : as_flow r = Some v <-> r = Some (VRec true FlowRecord v).
Proof.
  unfold as_flow. destruct r as [[[] t w]|]; [|done..].
  destruct (gotype_eqb t FlowRecord) eqn:E.
  - apply gotype_eqb_eq in E as ->. split; [by intros [= ->]|by intros [= ->]].
  - split; [done|]. intros [= -> ->]. by rewrite gotype_eqb_refl in E.
Qed.

(** What the scan has found: [entries] maps the identities met to one of the
    flows with it, [ids] to one of their counterflows. *)
Definition scan_inv (seen : entry -> Prop) (acc : gmap string entry * gmap string string) : Prop :=
  (forall id x, acc.1 !! id = Some x -> seen x /\ exists v, as_flow (e_rec x) = Some v /\ fl_id v = id) /\
  (forall x v, seen x -> as_flow (e_rec x) = Some v -> is_Some (acc.1 !! fl_id v)) /\
  (forall id c, acc.2 !! id = Some c -> exists x v, seen x /\ as_flow (e_rec x) = Some v /\ fl_id v = id /\ fl_counterflow v = Some c /\ c <> ""%string) /\
  (forall x v c, seen x -> as_flow (e_rec x) = Some v -> fl_counterflow v = Some c -> c <> ""%string -> is_Some (acc.2 !! fl_id v)).

Lemma scan_flows_inv l : forall seen acc, scan_inv seen acc -> (forall x, x ∈ l -> is_Some (as_flow (e_rec x))) ->
  exists acc', scan_flows l acc = Ok acc' /\ scan_inv (fun x => seen x \/ x ∈ l) acc'.
Proof.
  induction l as [|x l IH]; intros seen acc HI Hall.
  { exists acc. split; [done|]. destruct HI as (H1 & H2 & H3 & H4). split; [|split; [|split]].
    - intros id y Hy. destruct (H1 _ _ Hy) as [? ?]. eauto.
    - intros y v [Hy|Hy]; [eauto|by apply elem_of_nil in Hy].
    - intros id c Hc. destruct (H3 _ _ Hc) as (y & v & Hy & ?). exists y, v. eauto.
    - intros y v c [Hy|Hy]; [eauto|by apply elem_of_nil in Hy]. }
  cbn [scan_flows]. destruct (Hall x) as [v Hv]; [left|]. rewrite Hv.
  set (pairs := match fl_counterflow v with Some c => if bool_decide (c = ""%string) then acc.2 else <[fl_id v := c]> acc.2 | None => acc.2 end).
  assert (scan_inv (fun y => seen y \/ y = x) (<[fl_id v := x]> acc.1, pairs)) as HI'.
  { destruct HI as (H1 & H2 & H3 & H4). unfold scan_inv. cbn [fst snd]. split; [|split; [|split]].
    - intros id y. destruct (decide (fl_id v = id)) as [<-|Hne].
      + rewrite lookup_insert. intros [= <-]. split; [by right|]. by exists v.
      + rewrite lookup_insert_ne by done. intros Hy. destruct (H1 _ _ Hy) as [? ?]. eauto.
    - intros y w Hy Hw. destruct (decide (fl_id v = fl_id w)) as [E|Hne]; [rewrite E, lookup_insert; by eexists|].
      rewrite lookup_insert_ne by done. destruct Hy as [Hy| ->]; [by apply (H2 y)|congruence].
    - intros id c Hc.
      assert (acc.2 !! id = Some c \/ (id = fl_id v /\ fl_counterflow v = Some c /\ c <> ""%string)) as [Hc'|(-> & ? & ?)].
      { unfold pairs in Hc. destruct (fl_counterflow v) as [d|]; [|by left].
        destruct (bool_decide (d = ""%string)) eqn:Eb; [by left|]. apply bool_decide_eq_false in Eb.
        destruct (decide (fl_id v = id)) as [<-|Hne]; [rewrite lookup_insert in Hc; right; naive_solver|].
        rewrite lookup_insert_ne in Hc by done. by left. }
      + destruct (H3 _ _ Hc') as (y & w & Hy & ?). exists y, w. eauto.
      + exists x, v. eauto 10.
    - intros y w c Hy Hw Hcw Hne.
      assert (is_Some (acc.2 !! fl_id w) \/ fl_counterflow v = Some c /\ fl_id w = fl_id v) as [[d Hd]|[Ec Ei]].
      { destruct Hy as [Hy| ->]; [left; by eapply H4|]. right. by assert (w = v) as -> by congruence. }
      + unfold pairs. destruct (fl_counterflow v) as [c'|]; [|by eexists]. destruct (bool_decide _); [by eexists|].
        destruct (decide (fl_id v = fl_id w)) as [E|Hn]; [rewrite E, lookup_insert; by eexists|]. rewrite lookup_insert_ne by done. by eexists.
      + unfold pairs. rewrite Ec, bool_decide_false by done. rewrite Ei, lookup_insert. by eexists. }
  destruct (IH _ _ HI') as (acc' & Hacc & HI2). { intros y Hy. apply Hall. by right. }
  exists acc'. split; [done|]. destruct HI2 as (H1 & H2 & H3 & H4). split; [|split; [|split]].
  - intros id y Hy. destruct (H1 _ _ Hy) as [[[?| ->]|?] ?]; (split; [|done]); [by left|right; left|right; by right].
  - intros y w Hy. apply H2. destruct Hy as [?|Hy]; [by do 2 left|]. apply elem_of_cons in Hy as [->|?]; [left; by right|by right].
  - intros id c Hc. destruct (H3 _ _ Hc) as (y & w & Hy & ?). exists y, w. split; [|done].
    destruct Hy as [[?| ->]|?]; [by left|right; left|right; by right].
  - intros y w c Hy. apply H4. destruct Hy as [?|Hy]; [by do 2 left|]. apply elem_of_cons in Hy as [->|?]; [left; by right|by right].
Qed.

(** A store as ServeFixture makes it: records by pointer, labelled with their
    type. *)
Definition typed_store (s : items) : Prop :=
  reachable fixture_config s /\
  forall k x v, contents s !! k = Some (x, v) -> exists t val, e_rec x = Some (VRec true t val) /\ get_type_meta t = Some (e_tm x).

Local Transparent record_types.
Lemma flow_meta : get_type_meta FlowRecord = Some (e_tm flow_exemplar).
Proof. vm_compute. reflexivity. Qed.
Local Opaque record_types.

Lemma found_flows e s : env_ok e -> typed_store s ->
  exists l, index_of fixture_config e s "ByType" flow_exemplar None = OutSet l "" None /\
    forall x, x ∈ l <-> (exists k v, contents s !! k = Some (x, v)) /\ is_Some (as_flow (e_rec x)).
Proof.
  intros He (Hr & Ht). destruct (index_exact fixture_config e s "ByType" by_type flow_exemplar Hr He eq_refl) as (l & Hrun & ks & Hnd & Hl & Hks).
  exists l. split; [cbn [run_op] in Hrun; congruence|]. intros x. split.
  - intros Hx. apply elem_of_list_lookup in Hx as [i Hi]. destruct (Forall2_lookup_r _ _ _ _ _ Hl Hi) as (k & Hk & Ex).
    assert (k ∈ ks) as Hin by (by eapply elem_of_list_lookup_2). apply Hks in Hin as (y & Ey & b & Hb1 & Hb2).
    assert (y = x) as -> by congruence. unfold entry_at in Ex. destruct (contents s !! k) as [[x' v]|] eqn:Ec; [|done]. injection Ex as ->.
    split; [by exists k, v|]. destruct (Ht _ _ _ Ec) as (t & val & Hrec & Hm). exists val. apply as_flow_some. rewrite Hrec.
    unfold by_type in *. apply elem_of_list_singleton in Hb1 as ->. apply elem_of_list_singleton in Hb2.
    pose proof (type_string_inj _ _ _ _ flow_meta Hm Hb2) as E. rewrite <-E in Hm. by rewrite (meta_inj _ _ _ Hm flow_meta).
  - intros ((k & v & Hk) & val & Hval). apply as_flow_some in Hval. destruct (Ht _ _ _ Hk) as (t & val' & Hrec & Hm).
    rewrite Hval in Hrec. injection Hrec as <- <-.
    assert (k ∈ ks) as Hin.
    { apply Hks. exists x. unfold entry_at. rewrite Hk. split; [done|]. exists (type_meta_string (e_tm flow_exemplar)). split; [left|].
      unfold by_type. apply elem_of_list_singleton. f_equal. pose proof flow_meta. congruence. }
    apply elem_of_list_lookup in Hin as [i Hi]. destruct (Forall2_lookup_l _ _ _ _ _ Hl Hi) as (y & Hy & Ey).
    unfold entry_at in Ey. rewrite Hk in Ey. injection Ey as ->. by eapply elem_of_list_lookup_2.
Qed.

Definition held (s : items) (x : entry) : Prop := exists k v, contents s !! k = Some (x, v).

Lemma scan_stores_inv l : forall seen acc, scan_inv seen acc -> Forall (fun '(e, s) => env_ok e /\ typed_store s) l ->
  exists acc', scan_stores l acc = Ok acc' /\
    scan_inv (fun x => seen x \/ exists e s, (e, s) ∈ l /\ held s x /\ is_Some (as_flow (e_rec x))) acc'.
Proof.
  induction l as [|[e s] l IH]; intros seen acc HI Hall.
  { exists acc. split; [done|]. destruct HI as (H1 & H2 & H3 & H4). split; [|split; [|split]].
    - intros id y Hy. destruct (H1 _ _ Hy) as [? ?]. eauto.
    - intros y v [Hy|(? & ? & Hy & _)]; [eauto|by apply elem_of_nil in Hy].
    - intros id c Hc. destruct (H3 _ _ Hc) as (y & v & Hy & ?). exists y, v. eauto.
    - intros y v c [Hy|(? & ? & Hy & _)]; [eauto|by apply elem_of_nil in Hy]. }
  apply Forall_cons in Hall as [[He Hs] Hall]. destruct (found_flows e s He Hs) as (fl & Hfl & Hin).
  cbn [scan_stores]. rewrite Hfl. cbn.
  destruct (scan_flows_inv fl seen acc HI) as (acc1 & -> & HI1). { intros x Hx. by apply Hin in Hx as [_ ?]. }
  cbn [res_bind]. destruct (IH _ _ HI1 Hall) as (acc2 & -> & HI2). exists acc2. split; [done|].
  assert (forall x, ((seen x \/ x ∈ fl) \/ (exists e0 s0, (e0, s0) ∈ l /\ held s0 x /\ is_Some (as_flow (e_rec x)))) <->
    (seen x \/ (exists e0 s0, (e0, s0) ∈ (e, s) :: l /\ held s0 x /\ is_Some (as_flow (e_rec x))))) as Heq.
  { intros x. rewrite (Hin x). split.
    - intros [[?|[? ?]]|(e0 & s0 & ? & ?)]; [by left| |].
      + right. exists e, s. split; [left|done].
      + right. exists e0, s0. split; [by right|done].
    - intros [?|(e0 & s0 & Hi & ? & ?)]; [by do 2 left|]. apply elem_of_cons in Hi as [[= -> ->]|Hi]; [left; by right|right; eauto]. }
  destruct HI2 as (H1 & H2 & H3 & H4). split; [|split; [|split]].
  - intros id y Hy. destruct (H1 _ _ Hy) as [Hs1 ?]. by rewrite Heq in Hs1.
  - intros y w Hy. apply H2. by apply Heq.
  - intros id c Hc. destruct (H3 _ _ Hc) as (y & w & Hy & ?). exists y, w. by rewrite <-Heq.
  - intros y w c Hy. apply H4. by apply Heq.
Qed.

(** The managers of a fixture: typed stores, each with its source's name. *)
Definition fixture_managers (ms : gmap string items) : Prop :=
  forall n s, ms !! n = Some s -> typed_store s /\ forall k x v, contents s !! k = Some (x, v) -> sr_name (m_source (e_meta x)) = n.

Lemma fixture_managers_ok parse types es data ms : (forall z, env_ok (es z)) ->
  managers_of (stores_for parse types es data) ms -> fixture_managers ms.
Proof.
  intros He Hm n s Hs. destruct (managers_known _ _ _ _ Hm Hs) as (src & Hsrc & <-).
  destruct (group_spec parse types data src) as [Hg _].
  destruct (store_contents _ _ _ _ _ _ _ He Hg Hsrc) as [Hr Hc].
  assert (forall k x v, contents s !! k = Some (x, v) -> exists p, m_source (pe_meta p) = src /\ makes parse types p x) as Hmk.
  { intros k x v Hx. apply Hc in Hx as [(b & a & E & _) _].
    destruct (entries_of_makes _ _ _ _ _ x Hg) as (p & _ & ? & ?); [rewrite E; apply elem_of_app; right; left|]. eauto. }
  split; [split; [done|]|].
  - intros k x v Hx. destruct (Hmk _ _ _ Hx) as (p & _ & t & val & _ & Ht & _ & ->). by exists t, val.
  - intros k x v Hx. destruct (Hmk _ _ _ Hx) as (p & <- & t & val & _ & Ht & _ & ->). done.
Qed.

(** The pairs, as they depend on the flows held. *)
Definition pair_for (ms : gmap string items) (p : flow_pair) : Prop :=
  exists id c x1, c <> ""%string /\ holds_flow ms x1 id (Some c) /\ (exists c2, holds_flow ms (fp_server p) id c2) /\
    ((exists c3, holds_flow ms (fp_client p) c c3) \/ (fp_client p = zero_entry /\ forall x c3, ~ holds_flow ms x c c3)).

Lemma flow_pairs_spec e es ms : env_ok e -> (forall n, env_ok (es n)) -> fixture_managers ms ->
  exists ps, flow_pairs e es ms = Ok ps /\ (forall p, p ∈ ps -> pair_for ms p) /\
    forall x id c, holds_flow ms x id (Some c) -> c <> ""%string -> exists p c2, p ∈ ps /\ holds_flow ms (fp_server p) id c2.
Proof.
  intros He Hes Hms. unfold flow_pairs.
  set (l := (fun '(n, s) => (es n, s)) <$> env_iter e "stores" (string * items) (map_to_list ms)).
  assert (Forall (fun '(e, s) => env_ok e /\ typed_store s) l) as Hl.
  { unfold l. rewrite Forall_fmap, Forall_forall. intros [n s] Hin. rewrite (proj1 He) in Hin. apply elem_of_map_to_list in Hin. cbn.
    split; [done|]. by apply (Hms n s). }
  assert (scan_inv (fun _ => False) (∅, ∅)) as HI0.
  { split; [|split; [|split]]; cbn; intros *; rewrite ?lookup_empty; done. }
  destruct (scan_stores_inv l _ _ HI0 Hl) as ([entries ids] & Hscan & HI). rewrite Hscan. cbn [res_bind].
  assert (forall x v, (exists e0 s0, (e0, s0) ∈ l /\ held s0 x /\ is_Some (as_flow (e_rec x))) -> as_flow (e_rec x) = Some v ->
    holds_flow ms x (fl_id v) (fl_counterflow v)) as Hto.
  { intros x v (e0 & s0 & Hin & (k & w & Hk) & _) Hv. unfold l in Hin. apply elem_of_list_fmap in Hin as ([n s] & [= -> ->] & Hin).
    rewrite (proj1 He) in Hin. apply elem_of_map_to_list in Hin. exists n, s, k, w, v. apply as_flow_some in Hv. done. }
  assert (forall x id c, holds_flow ms x id c -> exists v, as_flow (e_rec x) = Some v /\ fl_id v = id /\ fl_counterflow v = c /\
    exists e0 s0, (e0, s0) ∈ l /\ held s0 x /\ is_Some (as_flow (e_rec x))) as Hfrom.
  { intros x id c (n & s & k & w & v & Hn & Hk & Hrec & Hid & Hc). exists v. assert (as_flow (e_rec x) = Some v) as Hv by (by apply as_flow_some).
    split; [done|]. split; [done|]. split; [done|]. exists (es n), s. split; [|split; [by exists k, w|by eexists]].
    unfold l. apply elem_of_list_fmap. exists (n, s). split; [done|]. rewrite (proj1 He). by apply elem_of_map_to_list. }
  destruct HI as (H1 & H2 & H3 & H4). cbn [fst snd] in *.
  eexists. split; [reflexivity|]. split.
  - intros p Hp. apply elem_of_list_fmap in Hp as ([sid cid] & -> & Hp). rewrite (proj1 He) in Hp. apply elem_of_map_to_list in Hp.
    destruct (H3 _ _ Hp) as (x & v & [[]|Hseen] & Hv & Hid & Hc & Hne).
    destruct (H2 x v) as [y Hy]; [by right|done|]. rewrite Hid in Hy.
    exists sid, cid, x. split; [done|]. split.
    { pose proof (Hto _ _ Hseen Hv) as H. by rewrite Hid, Hc in H. }
    cbn [fp_server fp_client]. split.
    { rewrite Hy. cbn. destruct (H1 _ _ Hy) as [[[]|Hseen2] (v2 & Hv2 & Hid2)]. exists (fl_counterflow v2). rewrite <-Hid2. by apply Hto. }
    destruct (entries !! cid) as [z|] eqn:Ez; cbn.
    + left. destruct (H1 _ _ Ez) as [[[]|Hseen2] (v2 & Hv2 & Hid2)]. exists (fl_counterflow v2). rewrite <-Hid2. by apply Hto.
    + right. split; [done|]. intros z c3 Hz. destruct (Hfrom _ _ _ Hz) as (v3 & Hv3 & Hid3 & _ & Hs3).
      destruct (H2 z v3) as [? Hw]; [by right|done|]. rewrite Hid3 in Hw. congruence.
  - intros x id c Hx Hne. destruct (Hfrom _ _ _ Hx) as (v & Hv & Hid & Hc & Hseen).
    destruct (H4 x v c) as [c2 Hc2]; [by right|done|done|done|]. destruct (H2 x v) as [y Hy]; [by right|done|].
    rewrite Hid in Hc2, Hy. destruct (H1 _ _ Hy) as [[[]|Hseen2] (v2 & Hv2 & Hid2)].
    exists (FlowPair y (default zero_entry (entries !! c2))), (fl_counterflow v2). split.
    + apply elem_of_list_fmap. exists (id, c2). split; [by rewrite Hy|]. rewrite (proj1 He). by apply elem_of_map_to_list.
    + cbn [fp_server]. rewrite <-Hid2. by apply Hto.
Qed.

(** ** When a POST crashes the process *)

(** The outcome of all the replays together. *)
Definition all_replays (l : list (res unit (list publish))) : res unit (list (list publish)) :=
  fold_right (fun r acc => res_bind r (fun l => res_bind acc (fun ll => Ok (l :: ll)))) (Ok []) l.

Lemma all_replays_ok l : Forall (fun r => exists x, r = Ok x) l -> exists ll, all_replays l = Ok ll /\ l = Ok <$> ll.
Proof.
  induction 1 as [|r l [x ->] _ (ll & IH & ->)]; [by exists []|]. exists (x :: ll). split; [|done].
  unfold all_replays in *. cbn. by rewrite IH.
Qed.

Lemma all_replays_panic l : Forall (fun r => r = Panic \/ exists x, r = Ok x) l -> Panic ∈ l -> all_replays l = Panic.
Proof.
  unfold all_replays. induction 1 as [|r l Hr Hl IH]; [by intros ?%elem_of_nil|]. intros [Hi|Hi]%elem_of_cons.
  - subst r. done.
  - cbn. destruct Hr as [-> |[x ->]]; [done|]. cbn. by rewrite (IH Hi).
Qed.

Lemma fake_flow_cases d p a b flows n : fake_flow d p a b flows n = Panic \/ exists l, fake_flow d p a b flows n = Ok l.
Proof. unfold fake_flow. repeat case_match; eauto. Qed.

Lemma fake_flow_ok d p s c flows n : as_flow (e_rec (fp_server p)) = Some s -> as_flow (e_rec (fp_client p)) = Some c ->
  (0 <= flows)%Z -> exists l, fake_flow d p true true flows n = Ok l.
Proof. intros Hs Hc Hf. unfold fake_flow. rewrite Hs, Hc. destruct (Z.ltb_spec flows 0); [lia|]. cbn. eauto. Qed.

Lemma fake_flow_negative d p a b flows n : (flows < 0)%Z -> fake_flow d p a b flows n = Panic.
Proof. intros Hf. unfold fake_flow. destruct (Z.ltb_spec flows 0); [|lia]. by repeat case_match. Qed.

Lemma fake_flow_dangling d p a b flows n : fp_client p = zero_entry -> fake_flow d p a b flows n = Panic.
Proof. intros E. unfold fake_flow. rewrite E. cbn. by case_match. Qed.

Lemma holds_as_flow ms x id c : holds_flow ms x id c -> exists v, as_flow (e_rec x) = Some v /\ fl_id v = id /\ fl_counterflow v = c.
Proof. intros (n & s & k & w & v & _ & _ & Hv & ? & ?). exists v. split; [by apply as_flow_some|done]. Qed.

Lemma holds_manager ms x id c : fixture_managers ms -> holds_flow ms x id c -> manager_of ms x = true.
Proof.
  intros Hm (n & s & k & w & v & Hn & Hk & _). destruct (Hm _ _ Hn) as [_ Hname]. unfold manager_of.
  by rewrite (Hname _ _ _ Hk), Hn.
Qed.

(** Every counterflow named is the identity of a flow held. *)
Definition resolved (ms : gmap string items) : Prop :=
  forall x id c, holds_flow ms x id (Some c) -> c <> ""%string -> exists y c2, holds_flow ms y c c2.

Lemma post_ok e es ds ms flows : env_ok e -> (forall n, env_ok (es n)) -> fixture_managers ms -> resolved ms -> (0 <= flows)%Z ->
  exists ps ll, flow_pairs e es ms = Ok ps /\ post_flows e es ds ms flows = Ok ll /\ length ll = length ps /\
    forall i p, ps !! i = Some p -> exists l, ll !! i = Some l /\ fake_flow (ds i) p true true flows 4 = Ok l.
Proof.
  intros He Hes Hms Hres Hf. destruct (flow_pairs_spec e es ms He Hes Hms) as (ps & Hps & Hsnd & _).
  assert (forall i p, ps !! i = Some p -> exists l, fake_flow (ds i) p true true flows 4 = Ok l /\
    manager_of ms (fp_server p) = true /\ manager_of ms (fp_client p) = true) as Hall.
  { intros i p Hp. destruct (Hsnd p) as (id & c & x1 & Hne & Hx1 & [c2 Hsrv] & Hcli); [by eapply elem_of_list_lookup_2|].
    destruct Hcli as [[c3 Hcli]|[_ Hno]].
    - destruct (holds_as_flow _ _ _ _ Hsrv) as (v & Hv & _), (holds_as_flow _ _ _ _ Hcli) as (w & Hw & _).
      destruct (fake_flow_ok (ds i) p v w flows 4 Hv Hw Hf) as [l Hl]. exists l. split; [done|].
      split; by eapply holds_manager.
    - destruct (Hres _ _ _ Hx1 Hne) as (y & c3 & Hy). by destruct (Hno _ _ Hy). }
  assert (replays_of ms ds ps flows = imap (fun i p => fake_flow (ds i) p true true flows 4) ps) as Hrep.
  { unfold replays_of. apply list_eq. intros i. rewrite !list_lookup_imap. destruct (ps !! i) as [p|] eqn:Ep; [|done]. cbn.
    destruct (Hall _ _ Ep) as (l & _ & -> & ->). done. }
  destruct (all_replays_ok (replays_of ms ds ps flows)) as (ll & Hll & Heq).
  { rewrite Hrep. apply Forall_lookup. intros i r. rewrite list_lookup_imap. destruct (ps !! i) as [p|] eqn:Ep; [|done].
    intros [= <-]. destruct (Hall _ _ Ep) as (l & ? & _). eauto. }
  exists ps, ll. split; [done|]. split; [unfold post_flows; rewrite Hps; exact Hll|]. rewrite Hrep in Heq. split.
  { apply (f_equal length) in Heq. by rewrite imap_length, fmap_length in Heq. }
  intros i p Hp. destruct (Hall _ _ Hp) as (l & Hl & _). exists l. split; [|done].
  apply (f_equal (lookup i)) in Heq. rewrite list_lookup_imap, list_lookup_fmap, Hp in Heq. cbn in Heq. rewrite Hl in Heq.
  destruct (ll !! i); [by injection Heq as ->|done].
Qed.

Lemma post_panics e es ds ms flows ps i p : flow_pairs e es ms = Ok ps -> ps !! i = Some p ->
  fake_flow (ds i) p (manager_of ms (fp_server p)) (manager_of ms (fp_client p)) flows 4 = Panic ->
  post_flows e es ds ms flows = Panic.
Proof.
  intros Hps Hp Hpan. unfold post_flows. rewrite Hps. cbn [res_bind]. apply (all_replays_panic (replays_of ms ds ps flows)).
  - apply Forall_lookup. intros j r. unfold replays_of. rewrite list_lookup_imap. destruct (ps !! j); [|done]. intros [= <-]. apply fake_flow_cases.
  - apply elem_of_list_lookup. exists i. unfold replays_of. by rewrite list_lookup_imap, Hp; cbn; rewrite Hpan.
Qed.

Lemma post_negative e es ds ms flows x id c : env_ok e -> (forall n, env_ok (es n)) -> fixture_managers ms ->
  holds_flow ms x id (Some c) -> c <> ""%string -> (flows < 0)%Z -> post_flows e es ds ms flows = Panic.
Proof.
  intros He Hes Hms Hx Hne Hf. destruct (flow_pairs_spec e es ms He Hes Hms) as (ps & Hps & _ & Hcov).
  destruct (Hcov _ _ _ Hx Hne) as (p & _ & Hp & _). apply elem_of_list_lookup in Hp as [i Hp].
  eapply post_panics; [done|done|]. by apply fake_flow_negative.
Qed.

Lemma post_dangling e es ds ms flows x id c : env_ok e -> (forall n, env_ok (es n)) -> fixture_managers ms ->
  holds_flow ms x id (Some c) -> c <> ""%string -> (forall y c2, ~ holds_flow ms y c c2) ->
  (forall y c2, holds_flow ms y id c2 -> c2 = Some c) -> post_flows e es ds ms flows = Panic.
Proof.
  intros He Hes Hms Hx Hne Hno Huniq. destruct (flow_pairs_spec e es ms He Hes Hms) as (ps & Hps & Hsnd & Hcov).
  destruct (Hcov _ _ _ Hx Hne) as (p & c2 & Hp & Hsrv). destruct (Hsnd _ Hp) as (id' & c' & x1 & Hne' & Hx1 & [c3 Hsrv'] & Hcli).
  assert (id' = id) as ->.
  { destruct (holds_as_flow _ _ _ _ Hsrv) as (v & Hv & <- & _), (holds_as_flow _ _ _ _ Hsrv') as (w & Hw & <- & _). congruence. }
  pose proof (Huniq _ _ Hx1) as [= ->]. destruct Hcli as [[c4 Hcli]|[Hz _]]; [by destruct (Hno _ _ Hcli)|].
  apply elem_of_list_lookup in Hp as [i Hp]. eapply post_panics; [done|done|]. by apply fake_flow_dangling.
Qed.

(** ** The updates of a replay *)

(** The updates published to one side, in order. *)
Definition published_to (sd : side) (l : list publish) : list rec_update :=
  omap (fun '(s, u) => match sd, s with Srv, Srv | Cli, Cli => Some u | _, _ => None end) l.

(** Those about the record with an identity. *)
Definition about (id : string) (l : list rec_update) : list rec_update :=
  filter (fun u => match ru_curr u with Some r => vrec_identity r | None => ""%string end = id) l.

(** The updates that take a record through the states [f :: fs]. *)
Fixpoint steps_from (f : rflow) (fs : list rflow) : list rec_update :=
  match fs with
  | [] => []
  | g :: fs' => RecUpdate (Some (rflow_rec f)) (Some (rflow_rec g)) :: steps_from g fs'
  end.
Definition life (f : rflow) (fs : list rflow) : list rec_update := RecUpdate None (Some (rflow_rec f)) :: steps_from f fs.

(** The states of the i-th flow in its [k] increments. *)
Fixpoint states_from (fin : gotime) (i k : nat) (f : rflow) : list rflow :=
  match k with
  | O => []
  | S k' => let g := next_flow (if bool_decide (k' = 0) then Some fin else None) i f in g :: states_from fin i k' g
  end.

Lemma numbered_inj a i j : numbered a i = numbered a j -> i = j.
Proof.
  unfold numbered. intros H. assert (pretty i = pretty j) as H2; [|by apply (inj pretty) in H2].
  induction a as [|c a IH]; cbn in H; [by injection H|]. injection H as H. by apply IH.
Qed.

Lemma rflow_identity f : vrec_identity (rflow_rec f) = rf_id f.
Proof. done. Qed.

Lemma about_app id l1 l2 : about id (l1 ++ l2) = about id l1 ++ about id l2.
Proof. apply filter_app. Qed.
Lemma published_app sd l1 l2 : published_to sd (l1 ++ l2) = published_to sd l1 ++ published_to sd l2.
Proof. apply omap_app. Qed.

(** Rows of flows numbered from [n]. *)
Definition row (a : string) (n : nat) (l : list rflow) : Prop := forall j f, l !! j = Some f -> rf_id f = numbered a (n + j).

Lemma about_row (upd : nat -> rflow -> rec_update) a i :
  (forall j f, exists g, ru_curr (upd j f) = Some (rflow_rec g) /\ rf_id g = rf_id f) ->
  forall l n, row a n l -> about (numbered a i) (imap (fun j => upd (n + j)) l) =
    match (if decide (n <= i) then l !! (i - n) else None) with Some f => [upd i f] | None => [] end.
Proof.
  intros Hid. induction l as [|f l IH]; intros n Hrow; [by destruct (decide _)|].
  rewrite imap_cons. unfold about. rewrite filter_cons. fold (about (numbered a i)).
  assert (row a (S n) l) as Hrow'. { intros j g Hg. rewrite (Hrow (S j) g Hg). f_equal. lia. }
  assert (imap ((fun j => upd (n + j)) ∘ S) l = imap (fun j => upd (S n + j)) l) as ->.
  { apply list_eq. intros j. rewrite !list_lookup_imap. destruct (l !! j); [|done]. cbn. do 2 f_equal. lia. }
  change (filter _ (imap (fun j => upd (S n + j)) l)) with (about (numbered a i) (imap (fun j => upd (S n + j)) l)).
  rewrite (IH (S n) Hrow'). rewrite Nat.add_0_r. destruct (Hid n f) as (g & Hg & Eg). rewrite Hg, rflow_identity, Eg, (Hrow 0 f eq_refl), Nat.add_0_r.
  destruct (decide (numbered a n = numbered a i)) as [E|E].
  - apply numbered_inj in E as ->. rewrite !decide_False, decide_True by lia. by rewrite Nat.sub_diag.
  - assert (n <> i) by congruence. destruct (decide (S n <= i)); [|by rewrite decide_False by lia].
    rewrite decide_True by lia. by replace (i - n) with (S (i - S n)) by lia.
Qed.

Definition mine (sd : side) (s c : list rflow) : list rflow := match sd with Srv => s | Cli => c end.

Lemma published_created sd s l : published_to sd (created s l) =
  match sd, s with Srv, Srv | Cli, Cli => (fun f => RecUpdate None (Some (rflow_rec f))) <$> l | _, _ => [] end.
Proof. unfold created, published_to. induction l as [|f l IH]; [by destruct sd, s|]. cbn in *. rewrite IH. by destruct sd, s. Qed.

Lemma published_imap {X} sd s (l : list X) : forall g, published_to sd (imap (fun i f => (s, g i f)) l) =
  match sd, s with Srv, Srv | Cli, Cli => imap g l | _, _ => [] end.
Proof.
  induction l as [|f l IH]; intros g; [by destruct sd, s|]. rewrite !imap_cons.
  change (published_to sd ((s, g 0 f) :: ?t)) with (published_to sd ([(s, g 0 f)] ++ t)). rewrite published_app.
  pose proof (IH (g ∘ S)) as H. unfold compose in *. rewrite H. by destruct sd, s.
Qed.

Lemma published_stepped sd s fin l : published_to sd (stepped s fin l) =
  match sd, s with
  | Srv, Srv | Cli, Cli => imap (fun i f => RecUpdate (Some (rflow_rec f)) (Some (rflow_rec (next_flow fin i f)))) l
  | _, _ => [] end.
Proof. apply published_imap. Qed.

Lemma row_next a fin l : row a 0 l -> row a 0 (imap (next_flow fin) l).
Proof.
  intros H j f. rewrite list_lookup_imap. destruct (l !! j) as [g|] eqn:Eg; [|done]. cbn. intros [= <-]. cbn. by apply H.
Qed.

Lemma increments_about sd d a i f k : forall s c, row a 0 (mine sd s c) -> mine sd s c !! i = Some f ->
  about (numbered a i) (published_to sd (increments d k s c)) = steps_from f (states_from (dr_end d) i k f).
Proof.
  revert f. induction k as [|k IH]; intros f s c Hrow Hf; [done|]. cbn [increments states_from steps_from].
  set (fin := if bool_decide (k = 0) then Some (dr_end d) else None).
  rewrite !published_app, !about_app.
  rewrite (IH (next_flow fin i f)); [|destruct sd; by apply row_next|destruct sd; cbn in *; by rewrite list_lookup_imap, Hf].
  change (RecUpdate (Some (rflow_rec f)) (Some (rflow_rec (next_flow fin i f))) :: ?x)
    with ([RecUpdate (Some (rflow_rec f)) (Some (rflow_rec (next_flow fin i f)))] ++ x).
  rewrite (app_assoc (about _ _)). f_equal. rewrite !published_stepped.
  assert (forall l, row a 0 l -> l !! i = Some f ->
    about (numbered a i) (imap (fun j f => RecUpdate (Some (rflow_rec f)) (Some (rflow_rec (next_flow fin j f)))) l) =
    [RecUpdate (Some (rflow_rec f)) (Some (rflow_rec (next_flow fin i f)))]) as Hone.
  { intros l Hl Hi. pose proof (about_row (fun j f => RecUpdate (Some (rflow_rec f)) (Some (rflow_rec (next_flow fin j f)))) a i) as H.
    specialize (H ltac:(intros j g; by exists (next_flow fin j g)) l 0 Hl). rewrite decide_True in H by lia.
    rewrite Nat.sub_0_r, Hi in H. exact H. }
  destruct sd; cbn [mine] in *; rewrite (Hone _ Hrow Hf); [by rewrite app_nil_r|done].
Qed.

Lemma created_about a i l f : row a 0 l -> l !! i = Some f ->
  about (numbered a i) ((fun f => RecUpdate None (Some (rflow_rec f))) <$> l) = [RecUpdate None (Some (rflow_rec f))].
Proof.
  intros Hl Hi. pose proof (about_row (fun _ f => RecUpdate None (Some (rflow_rec f))) a i ltac:(intros j g; by exists g) l 0 Hl) as H.
  rewrite decide_True in H by lia. rewrite Nat.sub_0_r, Hi in H. rewrite <-H. f_equal.
  apply list_eq. intros j. rewrite list_lookup_imap, list_lookup_fmap. done.
Qed.

(** The published identifiers of a side. *)
Definition drawn (d : draw) (sd : side) : string := match sd with Srv => dr_srv d | Cli => dr_cli d end.
Definition first_state (d : draw) (n : nat) (sd : side) (s c : goval) (i : nat) : rflow :=
  match sd with Srv => server_flow d (N.of_nat n) s i | Cli => client_flow d (N.of_nat n) c i end.

Lemma fake_flow_shape d p flows n l : fake_flow d p true true flows n = Ok l ->
  exists s c, as_flow (e_rec (fp_server p)) = Some s /\ as_flow (e_rec (fp_client p)) = Some c /\ (0 <= flows)%Z /\
    l = created Srv (server_flow d (N.of_nat n) s <$> seq 0 (Z.to_nat flows)) ++
        created Cli (client_flow d (N.of_nat n) c <$> seq 0 (Z.to_nat flows)) ++
        increments d n (server_flow d (N.of_nat n) s <$> seq 0 (Z.to_nat flows)) (client_flow d (N.of_nat n) c <$> seq 0 (Z.to_nat flows)).
Proof.
  unfold fake_flow. destruct (as_flow _) as [s|]; [|done]. destruct (as_flow _) as [c|]; [|done].
  destruct (Z.ltb_spec flows 0); [done|]. cbn. intros [= <-]. eauto 10.
Qed.

Lemma seq_row d n sd s c k : row (drawn d sd) 0 (first_state d n sd s c <$> seq 0 k).
Proof.
  intros j f. rewrite list_lookup_fmap. destruct (seq 0 k !! j) as [i|] eqn:E; [|done]. apply lookup_seq in E as [-> _]. intros [= <-]. by destruct sd.
Qed.

Lemma replay_life d p flows n l sd i : fake_flow d p true true flows n = Ok l -> i < Z.to_nat flows ->
  exists s c, as_flow (e_rec (fp_server p)) = Some s /\ as_flow (e_rec (fp_client p)) = Some c /\
    about (numbered (drawn d sd) i) (published_to sd l) =
      life (first_state d n sd s c i) (states_from (dr_end d) i n (first_state d n sd s c i)).
Proof.
  intros Hl Hi. destruct (fake_flow_shape _ _ _ _ _ Hl) as (s & c & Hs & Hc & Hf & ->). exists s, c. split; [done|]. split; [done|].
  set (sf := server_flow d (N.of_nat n) s <$> seq 0 (Z.to_nat flows)). set (cf := client_flow d (N.of_nat n) c <$> seq 0 (Z.to_nat flows)).
  assert (row (drawn d sd) 0 (mine sd sf cf)) as Hrow. { pose proof (seq_row d n sd s c (Z.to_nat flows)). by destruct sd. }
  assert (mine sd sf cf !! i = Some (first_state d n sd s c i)) as Hlook.
  { destruct sd; unfold mine, sf, cf; rewrite list_lookup_fmap, lookup_seq_lt by done; done. }
  rewrite !published_app, !about_app, (increments_about sd d _ i (first_state d n sd s c i) n sf cf Hrow Hlook).
  rewrite !published_created. destruct sd; cbn [mine] in *; rewrite (created_about _ _ _ _ Hrow Hlook); done.
Qed.

(** Nothing else is published. *)
Lemma replay_count d p flows n l sd : fake_flow d p true true flows n = Ok l ->
  length (published_to sd l) = Z.to_nat flows * (1 + n).
Proof.
  intros Hl. destruct (fake_flow_shape _ _ _ _ _ Hl) as (s & c & _ & _ & _ & ->).
  assert (forall k sf cf m, length sf = m -> length cf = m -> length (published_to sd (increments d k sf cf)) = m * k) as Hinc.
  { induction k as [|k IH]; intros sf cf m Hs Hc; [cbn; lia|]. cbn [increments].
    rewrite !published_app, !app_length, (IH _ _ m) by (by rewrite imap_length). rewrite !published_stepped.
    destruct sd; rewrite imap_length; cbn; lia. }
  rewrite !published_app, !app_length, (Hinc n _ _ (Z.to_nat flows)) by (by rewrite fmap_length, seq_length).
  rewrite !published_created. destruct sd; rewrite fmap_length, fmap_length, seq_length; cbn; lia.
Qed.

(** The states of a flow. *)
Lemma states_length fin i k f : length (states_from fin i k f) = k.
Proof. revert f. induction k as [|k IH]; intros f; [done|]. cbn. by rewrite IH. Qed.

Lemma states_lookup fin i k : forall f j g h, (f :: states_from fin i k f) !! j = Some g -> states_from fin i k f !! j = Some h ->
  h = next_flow (if bool_decide (S j = k) then Some fin else None) i g.
Proof.
  induction k as [|k IH]; intros f j g h Hg Hh; [by destruct j|]. cbn [states_from] in *. destruct j as [|j].
  - cbn in *. injection Hg as <-. injection Hh as <-. f_equal. by repeat case_bool_decide; try lia.
  - cbn in Hg, Hh. rewrite (IH _ _ _ _ Hg Hh). f_equal. by repeat case_bool_decide; try lia.
Qed.

Lemma replay_steps d p flows n l sd i : fake_flow d p true true flows n = Ok l -> i < Z.to_nat flows ->
  exists f fs, about (numbered (drawn d sd) i) (published_to sd l) = life f fs /\ length fs = n /\
    (forall j g h, (f :: fs) !! j = Some g -> fs !! j = Some h ->
       rf_id h = rf_id g /\ rf_start h = rf_start g /\ rf_parent h = rf_parent g /\ rf_counter h = rf_counter g /\
       rf_host h = rf_host g /\ rf_port h = rf_port g /\ rf_trace h = rf_trace g /\
       (rf_end h <> None <-> S j = n)) /\ rf_end f = None.
Proof.
  intros Hl Hi. destruct (replay_life _ _ _ _ _ sd _ Hl Hi) as (s & c & _ & _ & Hlife). eexists _, _. split; [exact Hlife|].
  split; [apply states_length|]. split; [|by destruct sd].
  intros j g h Hg Hh. rewrite (states_lookup _ _ _ _ _ _ _ Hg Hh). cbn. repeat (split; [done|]).
  case_bool_decide; split; done.
Qed.

Lemma replay_octets d p flows n l sd i : fake_flow d p true true flows n = Ok l -> i < Z.to_nat flows ->
  exists f fs, about (numbered (drawn d sd) i) (published_to sd l) = life f fs /\
    forall j g h, (f :: fs) !! j = Some g -> fs !! j = Some h ->
      (rf_octets g + rf_octets g / N.of_nat (i + 1) < 2 ^ 64)%N ->
      rf_octets h = (rf_octets g + rf_octets g / N.of_nat (i + 1))%N /\ (rf_octets g <= rf_octets h)%N.
Proof.
  intros Hl Hi. destruct (replay_life _ _ _ _ _ sd _ Hl Hi) as (s & c & _ & _ & Hlife). eexists _, _. split; [exact Hlife|].
  intros j g h Hg Hh Hlt. rewrite (states_lookup _ _ _ _ _ _ _ Hg Hh). cbn [next_flow rf_octets]. unfold grow.
  rewrite N.mod_small by exact Hlt. split; [done|apply N.le_add_r].
Qed.

Lemma replay_first d p flows n l i : fake_flow d p true true flows n = Ok l -> i < Z.to_nat flows ->
  exists s c f fs g gs, e_rec (fp_server p) = Some (VRec true FlowRecord s) /\ e_rec (fp_client p) = Some (VRec true FlowRecord c) /\
    about (numbered (dr_srv d) i) (published_to Srv l) = life f fs /\ about (numbered (dr_cli d) i) (published_to Cli l) = life g gs /\
    rf_counter f = Some (rf_id g) /\ rf_counter g = None /\
    rf_parent f = fl_parent s /\ rf_host f = fl_host s /\ rf_port f = fl_port s /\ rf_trace f = fl_trace s /\
    rf_octets f = default 0%N (fl_octets s) /\
    rf_parent g = fl_parent c /\ rf_host g = fl_host c /\ rf_port g = fl_port c /\ rf_octets g = default 0%N (fl_octets c).
Proof.
  intros Hl Hi. destruct (replay_life _ _ _ _ _ Srv _ Hl Hi) as (s & c & Hs & Hc & H1).
  destruct (replay_life _ _ _ _ _ Cli _ Hl Hi) as (s' & c' & Hs' & Hc' & H2).
  assert (s' = s) as -> by congruence. assert (c' = c) as -> by congruence. apply as_flow_some in Hs, Hc.
  eexists s, c, _, _, _, _. split; [exact Hs|]. split; [exact Hc|]. split; [exact H1|]. split; [exact H2|]. cbn. done.
Qed.

Lemma replay_ids d p flows n l sd : fake_flow d p true true flows n = Ok l ->
  forall u, u ∈ published_to sd l -> exists i r, i < Z.to_nat flows /\ ru_curr u = Some r /\ vrec_identity r = numbered (drawn d sd) i.
Proof.
  intros Hl. destruct (fake_flow_shape _ _ _ _ _ Hl) as (s & c & _ & _ & _ & ->). set (m := Z.to_nat flows).
  set (ok := fun u => exists i r, i < m /\ ru_curr u = Some r /\ vrec_identity r = numbered (drawn d sd) i).
  assert (forall l, row (drawn d sd) 0 l -> length l = m -> forall fin u,
    u ∈ imap (fun i f => RecUpdate (Some (rflow_rec f)) (Some (rflow_rec (next_flow fin i f)))) l -> ok u) as Hstep.
  { intros l Hrow Hlen fin u Hu. apply elem_of_list_lookup in Hu as [j Hj]. rewrite list_lookup_imap in Hj.
    destruct (l !! j) as [f|] eqn:Ef; [|done]. injection Hj as <-. eexists j, _. split; [apply lookup_lt_Some in Ef; lia|].
    split; [reflexivity|]. rewrite rflow_identity. apply (Hrow _ _ Ef). }
  assert (forall l, row (drawn d sd) 0 l -> length l = m -> forall u, u ∈ (fun f => RecUpdate None (Some (rflow_rec f))) <$> l -> ok u) as Hnew.
  { intros l Hrow Hlen u Hu. apply elem_of_list_lookup in Hu as [j Hj]. rewrite list_lookup_fmap in Hj.
    destruct (l !! j) as [f|] eqn:Ef; [|done]. injection Hj as <-. eexists j, _. split; [apply lookup_lt_Some in Ef; lia|].
    split; [reflexivity|]. rewrite rflow_identity. apply (Hrow _ _ Ef). }
  assert (forall k sf cf, row (drawn d sd) 0 (mine sd sf cf) -> length (mine sd sf cf) = m -> forall u, u ∈ published_to sd (increments d k sf cf) -> ok u) as Hinc.
  { induction k as [|k IH]; intros sf cf Hrow Hlen u Hu; [by apply elem_of_nil in Hu|]. cbn [increments] in Hu.
    rewrite !published_app, !elem_of_app, !published_stepped in Hu. destruct Hu as [Hu|[Hu|Hu]].
    - destruct sd; [by eapply (Hstep sf)|by apply elem_of_nil in Hu].
    - destruct sd; [by apply elem_of_nil in Hu|by eapply (Hstep cf)].
    - eapply IH; [| |exact Hu].
      + destruct sd; by apply row_next.
      + destruct sd; cbn [mine] in *; by rewrite imap_length. }
  assert (row (drawn d sd) 0 (first_state d n sd s c <$> seq 0 m)) as Hrow by apply seq_row.
  assert (length (first_state d n sd s c <$> seq 0 m) = m) as Hlen by (by rewrite fmap_length, seq_length).
  intros u Hu. rewrite !published_app, !elem_of_app, !published_created in Hu. destruct Hu as [Hu|[Hu|Hu]].
  - destruct sd; [by eapply (Hnew _ Hrow)|by apply elem_of_nil in Hu].
  - destruct sd; [by apply elem_of_nil in Hu|by eapply (Hnew _ Hrow)].
  - eapply Hinc; [| |exact Hu]; by destruct sd.
Qed.

Lemma stores_exist parse types es data src : is_Some (stores_for parse types es data !! src) <->
  exists p x, p ∈ data /\ m_source (pe_meta p) = src /\ makes parse types p x.
Proof.
  destruct (group_spec parse types data src) as [Hg Hne]. rewrite (stores_for_spec _ _ es _ _ _ Hg).
  set (xs := default [] _) in *. clearbody xs. clear Hne. split.
  - destruct xs as [|x xs]; [by intros [? ?]|]. intros _.
    destruct (entries_of_makes _ _ _ _ _ x Hg) as (p & Hp & Hs & Hm); [left|]. exists p, x. done.
  - intros (p & x & Hp & Hs & Hm). destruct xs as [|y xs]; [|by eexists]. exfalso. remember [] as xs0 eqn:E.
    induction Hg as [|q y l ys Hq Hy Hl IH|q l ys Hno Hl IH]; [by apply elem_of_nil in Hp|done|].
    apply elem_of_cons in Hp as [<-|Hp]; [|by apply IH]. destruct Hno as [Hno|Hno]; [done|by eapply Hno].
Qed.
