(** Witnesses and counterexamples for the manager. *)
From Coq Require Import ZArith NArith Ascii String Lia.
From stdpp Require Import base gmap strings list sorting.
From Verif Require Import GoBase Encoding SpecEncoding Records Messages SpecMessages MessageFacts Env SyncMap SyncMapFacts Tokens TokenFacts Cache SpecStore
  StoreFacts StoreLemmas ListFacts EventFacts StoreExamples Dispatch Diff DiffFacts ConvergeFacts Manager ManagerFacts ManagerPass ManagerLive.

Local Open Scope list_scope.
Local Opaque vanflow_registry builtin_types record_types Encode Decode attrs_of.

(** One store with the sites s1 and s2; batches of two updates, pages of one. *)
Definition ex_mc : mcfg := MCfg [0] (fun _ => ex_cf) true 2 true 1.
Definition ex_mw : stores := {[0 := state_after ex_cf ex_history]}.

Definition ex_serve (a : act) : mlabel := LServe (at_time 9) a.

Definition new_site (id : string) : rec_update := RecUpdate None (Some (ex_site id)).

(** ** Updates *)

(** A site without identity cannot be encoded; it takes the other one with it. *)
Definition ex_bad : list mlabel :=
  [LPublish (new_site "s1"); LPublish (new_site ""); ex_serve ATakeUpdate; ex_serve AMore; ex_serve ADo; LSend true].

Lemma send_ok c s m q ok : m_crashed s = false -> m_sending s = true -> m_sends s = m :: q -> encodable m ->
  exists am, mstep c s (LSend ok) = Some (set_sends q s, [MSent m am ok]).
Proof.
  intros Hc Hs E [am Ham]. exists am. unfold mstep. rewrite Hc, Hs. unfold send_step. rewrite E.
  fold (encode_mmsg m). by rewrite Ham.
Qed.

Lemma send_bad c s m q ok : m_crashed s = false -> m_sending s = true -> m_sends s = m :: q ->
  sane_msg m -> ~ encodable m -> mstep c s (LSend ok) = Some (set_sends q s, [MSkipped m]).
Proof.
  intros Hc Hs E Hm Hn. unfold mstep. rewrite Hc, Hs. unfold send_step. rewrite E. pose proof (sane_encode m Hm) as Hp.
  fold (encode_mmsg m). destruct (encode_mmsg m) as [am|er|] eqn:Ee; [|done|done]. exfalso. apply Hn. by exists am.
Qed.

Lemma site_encodable id : Encode vanflow_registry (vrec_any (ex_site id)) = EncOk (attrs_of (ex_site id)) ->
  encodable [Some (ex_site id)].
Proof.
  intros E. apply (encodable_iff [Some (ex_site id)] [ex_site id]); [done|constructor; [apply ex_site_good|constructor]|].
  constructor; [eauto|constructor].
Qed.

Lemma s2_encodes : Encode vanflow_registry (vrec_any (ex_site "s2")) = EncOk (attrs_of (ex_site "s2")).
Proof. apply attrs_of_ok. vm_compute. reflexivity. Qed.

Lemma bad_batch : exists s evs, mrun ex_mc (m_init ∅) ex_bad = Some (s, evs) /\ resting s /\ m_crashed s = false /\
  published evs = [new_site "s1"; new_site ""] /\ encodable [Some (ex_site "s1")] /\ sent evs = [].
Proof.
  unfold ex_bad. change [LPublish (new_site "s1"); LPublish (new_site ""); ex_serve ATakeUpdate; ex_serve AMore; ex_serve ADo; LSend true]
    with ([LPublish (new_site "s1"); LPublish (new_site ""); ex_serve ATakeUpdate; ex_serve AMore; ex_serve ADo] ++ [LSend true]).
  rewrite mrun_app.
  assert (mrun ex_mc (m_init ∅) [LPublish (new_site "s1"); LPublish (new_site ""); ex_serve ATakeUpdate; ex_serve AMore; ex_serve ADo] =
    Some (MState [] 0 [[Some (ex_site "s1"); Some (ex_site "")]] SIdle true true false false ∅,
          [MPublished (new_site "s1"); MPublished (new_site ""); MQueued true [Some (ex_site "s1"); Some (ex_site "")]])) as ->
    by reflexivity.
  cbn [mrun]. rewrite (send_bad _ _ [Some (ex_site "s1"); Some (ex_site "")] []); [|done|done|done| |].
  - eexists _, _. split; [reflexivity|]. split; [done|]. split; [done|]. split; [done|]. split; [|done].
    apply site_encodable. apply ex_encodes.
  - exists [ex_site "s1"; ex_site ""]. split; [done|]. constructor; [apply ex_site_good|]. constructor; [apply ex_site_good|constructor].
  - intros H. apply (encodable_iff _ [ex_site "s1"; ex_site ""]) in H;
      [|done|constructor; [apply ex_site_good|constructor; [apply ex_site_good|constructor]]].
    inversion H as [|? ? _ H2]. inversion H2 as [|? ? [a Ha] _]. by apply (no_id_unencodable a).
Qed.

Definition ex_good : list mlabel :=
  [LPublish (new_site "s1"); LPublish (new_site "s2"); LPublish (new_site "s1"); ex_serve ATakeUpdate; ex_serve AMore; ex_serve ADo].

Lemma ex_good_ok : labels_ok ex_good.
Proof. repeat constructor; apply at_time_ok. Qed.

Lemma ex_good_run : exists s evs, mrun ex_mc (m_init ∅) ex_good = Some (s, evs) /\
  published evs = [new_site "s1"; new_site "s2"; new_site "s1"] /\ m_changes s = [new_site "s1"] /\
  update_msgs evs = [[Some (ex_site "s1"); Some (ex_site "s2")]] /\ m_crashed s = false /\ m_serve s = SIdle.
Proof. eexists _, _. split; [reflexivity|]. done. Qed.

Lemma ex_good_sent : exists s evs, mrun ex_mc (m_init ∅) (ex_good ++ [LSend false]) = Some (s, evs) /\
  sent evs = [[Some (ex_site "s1"); Some (ex_site "s2")]] /\ sent evs = queued evs.
Proof.
  rewrite mrun_app.
  assert (mrun ex_mc (m_init ∅) ex_good =
    Some (MState [new_site "s1"] 0 [[Some (ex_site "s1"); Some (ex_site "s2")]] SIdle true true false false ∅,
          [MPublished (new_site "s1"); MPublished (new_site "s2"); MPublished (new_site "s1");
           MQueued true [Some (ex_site "s1"); Some (ex_site "s2")]])) as -> by reflexivity.
  cbn [mrun]. destruct (send_ok ex_mc (MState [new_site "s1"] 0 [[Some (ex_site "s1"); Some (ex_site "s2")]] SIdle true true false false ∅)
    [Some (ex_site "s1"); Some (ex_site "s2")] [] false) as [am ->]; [done|done|done| |].
  - apply (encodable_iff _ [ex_site "s1"; ex_site "s2"]); [done|repeat constructor; apply ex_site_good|].
    constructor; [exists (attrs_of (ex_site "s1")); apply ex_encodes|]. constructor; [exists (attrs_of (ex_site "s2")); apply s2_encodes|constructor].
  - eexists _, _. split; [reflexivity|]. done.
Qed.

(** ** Passes *)

Definition ex_flush : list mlabel := [LRecv true; ex_serve ATakeFlush].
Definition ex_page : list mlabel := [ex_serve ADo; ex_serve ADo].

(** A state waiting for the flush delay. *)
Definition ex_waiting : mstate := MState [] 0 [] (SDrain 0) true true false false ex_mw.
Definition ex_started : mstate := MState [] 0 [] (SPass [0] "") true true false false ex_mw.

Lemma ex_waiting_run : mrun ex_mc (m_init ex_mw) ex_flush = Some (ex_waiting, [MFlushReq]).
Proof. reflexivity. Qed.
Lemma ex_begins : begins ex_mc ex_waiting (ex_serve ATimeout) ex_started.
Proof. reflexivity. Qed.

(** What a run published, by identity, and how it ended. *)
Definition is_end (x : mev) : bool := match x with MPassEnd => true | _ => false end.
Definition summary (r : option (mstate * list mev)) : option (list (list string) * bool * bool) :=
  match r with
  | Some (s, evs) =>
      Some (names <$> flush_msgs (removelast evs), match last evs with Some x => is_end x | None => false end,
            forallb (fun x => negb (is_end x)) (removelast evs))
  | None => None
  end.

Lemma summary_spec r p : summary r = Some (p, true, true) ->
  exists s ev1, r = Some (s, ev1 ++ [MPassEnd]) /\ MPassEnd ∉ ev1 /\ names <$> flush_msgs ev1 = p.
Proof.
  destruct r as [[s evs]|]; [|done]. unfold summary. intros [= Hp Hl Hn].
  destruct evs as [|x evs _] using rev_ind; [done|]. rewrite removelast_last in *. rewrite last_snoc in Hl. exists s, evs.
  destruct x; try discriminate Hl. split; [done|]. split; [|done]. intros Hin. rewrite forallb_forall in Hn.
  specialize (Hn MPassEnd). rewrite <- elem_of_list_In in Hn. by specialize (Hn Hin).
Qed.

Lemma ex_pass_run : exists s ev1, mrun ex_mc ex_started (ex_page ++ ex_page ++ [ex_serve ADo]) = Some (s, ev1 ++ [MPassEnd]) /\
  MPassEnd ∉ ev1 /\ names <$> flush_msgs ev1 = [["s1"]; ["s2"]]%string.
Proof. apply summary_spec. vm_compute. reflexivity. Qed.

Lemma ex_started_store : store_at (m_stores ex_started) 0 = state_after ex_cf ex_history.
Proof. reflexivity. Qed.

Lemma ex_mw_sound : sound_stores ex_mc ex_mw.
Proof.
  intros i Hi. apply elem_of_list_singleton in Hi as ->. split; [apply ex_cf_usual|].
  change (store_at ex_mw 0) with (state_after ex_cf ex_history). split; [apply ex_reachable|].
  apply well_keyed_after; [apply ex_cf_usual|apply ex_history_ok|apply ex_history_good].
Qed.

Lemma ex_size : size (contents (state_after ex_cf ex_history)) = 2.
Proof. vm_compute. reflexivity. Qed.

Lemma ex_pass_hyps : exists L, forall i, i ∈ mc_stores ex_mc -> distinct_stored (mc_store_cfg ex_mc i) (holds ex_started i) /\
    ordered (mc_store_cfg ex_mc i) (holds ex_started i) Ascending (fun _ => True) (L i) /\ (Z.of_nat (length (L i)) < 2^31)%Z.
Proof.
  destruct (ordered_list_exists ex_cf (state_after ex_cf ex_history) Ascending ex_distinct) as [l Hl]. exists (fun _ => l).
  intros i Hi. apply elem_of_list_singleton in Hi as ->. split; [apply ex_distinct|]. split; [exact Hl|].
  destruct Hl as [He _]. apply enumerates_size in He. rewrite He, ex_size. done.
Qed.

(** Deleting s1 between the pages hides s2. *)
Definition ex_delete : mlabel := LStore 0 (at_time 10) (ODelete (ex_entry "s1" "r1")).
Definition ex_skip : list mlabel := ex_page ++ [ex_delete; ex_serve ADo; ex_serve ADo].
(** Deleting s2 is fine for s1, adding s3 and s0 as well. *)
Definition ex_add (id : string) : mlabel := LStore 0 (at_time 10) (OAdd (ex_entry id "r1")).
Definition ex_churn : list mlabel :=
  ex_page ++ [ex_add "s0"; ex_add "s3"] ++ ex_page ++ ex_page ++ ex_page ++ [ex_serve ADo].

(** The states of a run. *)
Fixpoint mstates (c : mcfg) (s : mstate) (ls : list mlabel) : list mstate :=
  s :: match ls with
       | [] => []
       | l :: ls' => match mstep c s l with Some (s', _) => mstates c s' ls' | None => [] end
       end.

Lemma mstates_head c s ls : s ∈ mstates c s ls.
Proof. destruct ls; left. Qed.

Lemma consecutive_mstates c s0 ls s1 s2 : consecutive c s0 ls s1 s2 -> s1 ∈ mstates c s0 ls /\ s2 ∈ mstates c s0 ls.
Proof.
  intros (ls1 & l & ls2 & ev1 & ev2 & -> & Hr & Hs). revert s0 ev1 Hr. induction ls1 as [|l1 ls1 IH]; intros s0 ev1 Hr.
  - injection Hr as <- <-. split; [apply mstates_head|]. simpl. rewrite Hs. right. apply mstates_head.
  - cbn [mrun] in Hr. destruct (mstep c s0 l1) as [[s' ev']|] eqn:E; [|done].
    destruct (mrun c s' ls1) as [[s'' ev'']|] eqn:E2; [|done]. injection Hr as <- <-.
    destruct (IH s' ev'' E2) as [H1 H2]. cbn [app mstates]. rewrite E. split; by right.
Qed.

Definition has_key (i : nat) (k : string) (s : mstate) : bool := match holds s i !! k with Some _ => true | None => false end.

Lemma has_key_spec i k s : has_key i k s = true <-> is_Some (entry_at (holds s i) k).
Proof.
  unfold has_key, entry_at. destruct (holds s i !! k) as [[x ?]|]; simpl; split; intros H; try done; by destruct H.
Qed.

Lemma forallb_states (P : mstate -> bool) c s0 ls : forallb P (mstates c s0 ls) = true ->
  forall s1 s2, consecutive c s0 ls s1 s2 -> P s1 = true /\ P s2 = true.
Proof.
  intros H s1 s2 Hc. apply consecutive_mstates in Hc as [H1 H2]. rewrite forallb_forall in H.
  split; apply H; by apply elem_of_list_In.
Qed.

Lemma page_skips : begins ex_mc ex_waiting (ex_serve ATimeout) ex_started /\
  exists s ev1, mrun ex_mc ex_started ex_skip = Some (s, ev1 ++ [MPassEnd]) /\ MPassEnd ∉ ev1 /\
  (forall s1 s2, consecutive ex_mc ex_started ex_skip s1 s2 ->
     is_Some (entry_at (holds s1 0) "s2") /\ is_Some (entry_at (holds s2 0) "s2")) /\
  ~ "s2"%string ∈ names (concat (flush_msgs ev1)).
Proof.
  split; [exact ex_begins|].
  assert (summary (mrun ex_mc ex_started ex_skip) = Some ([["s1"]], true, true)%string) as H by (vm_compute; reflexivity).
  apply summary_spec in H as (s & ev1 & H1 & H2 & H3). exists s, ev1. split; [done|]. split; [done|]. split.
  - intros s1 s2 Hc. apply (forallb_states (has_key 0 "s2")) in Hc as [Hc1 Hc2]; [|vm_compute; reflexivity].
    by split; apply has_key_spec.
  - assert (names (concat (flush_msgs ev1)) = concat (names <$> flush_msgs ev1)) as ->.
    { clear. induction (flush_msgs ev1) as [|m l IH]; [done|]. cbn [concat fmap list_fmap]. by rewrite names_app, IH. }
    rewrite H3. simpl. rewrite elem_of_list_singleton. discriminate.
Qed.

(** The steps of a run. *)
Fixpoint mpairs (c : mcfg) (s : mstate) (ls : list mlabel) : list (mstate * mstate) :=
  match ls with
  | [] => []
  | l :: ls' => match mstep c s l with Some (s', _) => (s, s') :: mpairs c s' ls' | None => [] end
  end.

Lemma consecutive_mpairs c s0 ls s1 s2 : consecutive c s0 ls s1 s2 -> (s1, s2) ∈ mpairs c s0 ls.
Proof.
  intros (ls1 & l & ls2 & ev1 & ev2 & -> & Hr & Hs). revert s0 ev1 Hr. induction ls1 as [|l1 ls1 IH]; intros s0 ev1 Hr.
  - injection Hr as <- <-. simpl. rewrite Hs. left.
  - cbn [mrun] in Hr. destruct (mstep c s0 l1) as [[s' ev']|] eqn:E; [|done].
    destruct (mrun c s' ls1) as [[s'' ev'']|] eqn:E2; [|done]. injection Hr as <- <-.
    cbn [app mpairs]. rewrite E. right. by apply (IH s' ev'').
Qed.

(** No key goes and the store is small. *)
Definition grows (p : mstate * mstate) : bool :=
  Z.ltb (Z.of_nat (size (holds p.1 0))) 100 && forallb (fun x => has_key 0 x.1 p.2) (map_to_list (holds p.1 0)).

Lemma grows_spec s1 s2 : grows (s1, s2) = true -> (Z.of_nat (size (holds s1 0)) < 2^31)%Z /\
  forall k, is_Some (entry_at (holds s1 0) k) -> is_Some (entry_at (holds s2 0) k).
Proof.
  unfold grows. cbn [fst snd]. rewrite andb_true_iff, Z.ltb_lt, forallb_forall. intros [H1 H2]. split; [lia|].
  intros k [x Hx]. unfold entry_at in Hx. apply fmap_Some in Hx as (y & Hy & _). apply (has_key_spec 0 k).
  apply (H2 (k, y)). apply elem_of_list_In. by apply elem_of_map_to_list.
Qed.

Lemma ex_keeps : labels_ok ex_churn /\
  Forall (fun l => match l with LStore j _ o => j = 0 -> good_op good_record o | _ => True end) ex_churn /\
  (forall s1 s2, consecutive ex_mc ex_started ex_churn s1 s2 -> (Z.of_nat (size (holds s1 0)) < 2^31)%Z /\
     forall k', k' = "s2"%string \/ str_lt k' "s2" -> is_Some (entry_at (holds s1 0) k') -> is_Some (entry_at (holds s2 0) k')) /\
  exists s ev1, mrun ex_mc ex_started ex_churn = Some (s, ev1 ++ [MPassEnd]) /\ MPassEnd ∉ ev1 /\
  names <$> flush_msgs ev1 = [["s1"]; ["s1"]; ["s2"]; ["s3"]]%string.
Proof.
  split; [|split; [|split]].
  - unfold ex_churn, ex_page, ex_serve, ex_add. cbn [app]. repeat (constructor; [apply at_time_ok|]). constructor.
  - unfold ex_churn, ex_page, ex_serve, ex_add. cbn [app].
    do 2 (constructor; [exact I|]). do 2 (constructor; [intros _; apply ex_entry_good|]). repeat (constructor; [exact I|]). constructor.
  - intros s1 s2 Hc. apply consecutive_mpairs in Hc.
    assert (forallb grows (mpairs ex_mc ex_started ex_churn) = true) as Hg by (vm_compute; reflexivity).
    rewrite forallb_forall in Hg. apply elem_of_list_In, Hg, grows_spec in Hc as [H1 H2]. split; [done|]. intros k' _. apply H2.
  - apply summary_spec. vm_compute. reflexivity.
Qed.

(** ** Coming to rest *)

Definition ex_full : list mlabel :=
  ex_flush ++ [ex_serve ATimeout] ++ ex_page ++ ex_page ++ [ex_serve ADo].

(** What matters of a state once the pass is over. *)
Definition view (r : option (mstate * list mev)) : option (bool * bool * bool * list rec_update * Z * bool * list mmsg * list mmsg) :=
  match r with
  | Some (s, evs) => Some (m_crashed s, m_sending s, match m_serve s with SIdle => true | _ => false end, m_changes s, m_flushes s,
                         m_cancelled s, m_sends s, sent evs)
  | None => None
  end.

(** The run up to the sends, and with them. *)
Lemma ex_full_run : exists s evs, mrun ex_mc (m_init ex_mw) ex_full = Some (s, evs) /\
  m_crashed s = false /\ m_sending s = true /\ m_serve s = SIdle /\ m_changes s = [] /\ m_flushes s = 0%Z /\ m_cancelled s = false /\
  m_sends s = [[Some (ex_site "s1")]; [Some (ex_site "s2")]] /\ sent evs = [].
Proof.
  assert (view (mrun ex_mc (m_init ex_mw) ex_full) =
    Some (false, true, true, [], 0%Z, false, [[Some (ex_site "s1")]; [Some (ex_site "s2")]], [])) as H by (vm_compute; reflexivity).
  destruct (mrun ex_mc (m_init ex_mw) ex_full) as [[s evs]|]; [|discriminate H]. exists s, evs. split; [done|].
  cbn [view] in H. destruct (m_serve s) eqn:E; try discriminate H. injection H as H1 H2 H3 H4 H5 H6 H7.
  do 7 (split; [done|]). done.
Qed.

Lemma ex_rests : exists s evs, mrun ex_mc (m_init ex_mw) (ex_full ++ [LSend true; LSend true]) = Some (s, evs) /\
  resting s /\ m_crashed s = false /\ MFlushReq ∈ evs /\ sent evs = [[Some (ex_site "s1")]; [Some (ex_site "s2")]].
Proof.
  destruct ex_full_run as (s & evs & Hr & Hc & Hsd & Hsv & Hch & Hf & Hca & Hss & Hn).
  rewrite mrun_app, Hr. cbn [mrun].
  destruct (send_ok ex_mc s _ _ true Hc Hsd Hss (site_encodable _ (proj1 ex_encodes))) as [am1 ->].
  destruct (send_ok ex_mc (set_sends [[Some (ex_site "s2")]] s) _ [] true Hc Hsd eq_refl (site_encodable _ s2_encodes)) as [am2 ->].
  eexists _, _. split; [reflexivity|]. split; [split; [exact Hsv|split; [exact Hch|split; [exact Hf|reflexivity]]]|].
  split; [exact Hc|].
  assert (exists t, evs = MFlushReq :: t) as [t ->].
  { unfold ex_full in Hr. rewrite mrun_app, ex_waiting_run in Hr. destruct (mrun ex_mc ex_waiting _) as [[? ?]|]; [|discriminate Hr].
    injection Hr as _ <-. eauto. }
  split; [left|].
  unfold sent in *. rewrite omap_app, Hn. reflexivity.
Qed.

(** Without store calls the stores stay as they are. *)
Lemma still c i w ls s evs : usual_key (mc_store_cfg c i) -> reachable (mc_store_cfg c i) (store_at w i) ->
  well_keyed (contents (store_at w i)) -> labels_ok ls -> Forall (fun l => forall j e o, l <> LStore j e o) ls ->
  mrun c (m_init w) ls = Some (s, evs) -> m_stores s = w.
Proof.
  intros Hu Hr Hw Hok Hn Hrun.
  apply (mrun_inv_rel (fun s _ => m_stores s = w)
    (fun l => match l with LServe e _ | LStore _ e _ => env_ok e | _ => True end /\ forall j e o, l <> LStore j e o)
    c (m_init w) [] ls s evs) with (4 := Hrun); [reflexivity| |].
  - intros s1 evs1 l s2 ev E [H1 H2] _ Hs. rewrite <- E. eapply (keep_store c i Hu); [exact H1| |exact Hs| | |exact H2].
    + destruct l; try exact I. exfalso. by eapply H2.
    + rewrite E. exact Hr.
    + unfold holds. rewrite E. exact Hw.
  - apply Forall_forall. intros l Hl. split; [exact (proj1 (Forall_forall _ _) Hok l Hl)|exact (proj1 (Forall_forall _ _) Hn l Hl)].
Qed.

Lemma ex_full_ok : labels_ok (ex_full ++ [LSend true; LSend true]) /\ Forall sane_label (ex_full ++ [LSend true; LSend true]) /\
  Forall (fun l => forall j e o, l <> LStore j e o) (ex_full ++ [LSend true; LSend true]).
Proof.
  unfold ex_full, ex_flush, ex_page, ex_serve. cbn [app].
  split; [|split]; repeat (constructor; [first [exact I|apply at_time_ok|discriminate]|]); constructor.
Qed.

Lemma ex_small : small_stores (m_init ex_mw).
Proof.
  intros i. unfold holds. change (m_stores (m_init ex_mw)) with ex_mw. destruct (decide (i = 0)) as [->|Hi].
  - change (store_at ex_mw 0) with (state_after ex_cf ex_history). rewrite ex_size. done.
  - unfold store_at, ex_mw. rewrite lookup_singleton_ne by congruence. done.
Qed.

Lemma ex_full_small s1 s2 : consecutive ex_mc (m_init ex_mw) (ex_full ++ [LSend true; LSend true]) s1 s2 -> small_stores s1.
Proof.
  intros (ls1 & l & ls2 & ev1 & ev2 & E & Hr & _). destruct ex_full_ok as (H1 & _ & H3). rewrite E in H1, H3.
  apply Forall_app in H1 as [H1 _]. apply Forall_app in H3 as [H3 _].
  destruct (ex_mw_sound 0) as (Hu & Hre & Hw); [left|].
  pose proof (still ex_mc 0 ex_mw ls1 s1 ev1 Hu Hre Hw H1 H3 Hr) as Es. intros i. unfold holds. rewrite Es. apply ex_small.
Qed.

Lemma ex_rest_small s evs : mrun ex_mc (m_init ex_mw) (ex_full ++ [LSend true; LSend true]) = Some (s, evs) -> small_stores s.
Proof.
  intros Hr. destruct ex_full_ok as (H1 & _ & H3). destruct (ex_mw_sound 0) as (Hu & Hre & Hw); [left|].
  pose proof (still ex_mc 0 ex_mw _ s evs Hu Hre Hw H1 H3 Hr) as Es. intros i. unfold holds. rewrite Es. apply ex_small.
Qed.

(** A receive error starts a pass. *)
Lemma error_flushes : exists s evs, mrun ex_mc (m_init ∅) [LRecv false; ex_serve ATakeFlush; ex_serve ATimeout] = Some (s, evs) /\
  MPassStart ∈ evs /\ ~ MFlushReq ∈ evs.
Proof.
  eexists _, _. split; [reflexivity|]. split; [right; left|]. intros H.
  apply elem_of_cons in H as [H|H]; [discriminate H|]. apply elem_of_cons in H as [H|H]; [discriminate H|].
  exact (not_elem_of_nil _ H).
Qed.
