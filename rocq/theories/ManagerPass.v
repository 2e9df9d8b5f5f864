(** A pass over the stores: what a flush publishes. *)
From Coq Require Import ZArith NArith Ascii String Lia.
From stdpp Require Import base gmap strings list sorting.
From Verif Require Import GoBase Encoding SpecEncoding Records Messages SpecMessages MessageFacts Env SyncMap SyncMapFacts Tokens TokenFacts Cache SpecStore
  StoreFacts StoreLemmas ListFacts EventFacts StoreExamples Dispatch Diff Manager ManagerFacts.

Local Open Scope list_scope.
Local Opaque vanflow_registry builtin_types record_types Encode Decode.

(** ** Specification *)

(** The step takes the manager into a pass. *)
Definition begins (c : mcfg) (s : mstate) (l : mlabel) (s0 : mstate) : Prop := mstep c s l = Some (s0, [MPassStart]).

(** What a store holds. *)
Definition holds (s : mstate) (i : nat) : plain := contents (store_at (m_stores s) i).

(** The call only reads. *)
Definition reads (o : op) : Prop :=
  match o with OGet _ | OList _ | OIndex _ _ _ | OIndexValues _ => True | _ => False end.

(** Nobody writes to the manager's stores. *)
Definition undisturbed (c : mcfg) (ls : list mlabel) : Prop :=
  Forall (fun l => match l with LStore i _ o => i ∉ mc_stores c \/ reads o | _ => True end) ls.

(** The run of [ls] from [s0] steps from [s1] to [s2]. *)
Definition consecutive (c : mcfg) (s0 : mstate) (ls : list mlabel) (s1 s2 : mstate) : Prop :=
  exists ls1 l ls2 ev1 ev2, ls = ls1 ++ l :: ls2 /\ mrun c s0 ls1 = Some (s1, ev1) /\ mstep c s1 l = Some (s2, ev2).

(** ** Runs *)

Lemma consecutive_cons c s0 l ls s1 ev1 a b : mstep c s0 l = Some (s1, ev1) ->
  consecutive c s1 ls a b -> consecutive c s0 (l :: ls) a b.
Proof.
  intros H (ls1 & l' & ls2 & e1 & e2 & -> & Hr & Hs). exists (l :: ls1), l', ls2, (ev1 ++ e1), e2.
  split; [done|]. split; [|done]. cbn [mrun]. by rewrite H, Hr.
Qed.

Lemma mrun_inv_rel (I : mstate -> list mev -> Prop) (Q : mlabel -> Prop) c s0 ev0 ls s evs : I s0 ev0 ->
  (forall s1 evs l s2 ev, I s1 evs -> Q l -> consecutive c s0 ls s1 s2 -> mstep c s1 l = Some (s2, ev) -> I s2 (evs ++ ev)) ->
  Forall Q ls -> mrun c s0 ls = Some (s, evs) -> I s (ev0 ++ evs).
Proof.
  intros H0 Hstep HQ. revert s0 ev0 H0 evs Hstep. induction HQ as [|l ls Hl HQ IH]; intros s0 ev0 H0 evs Hstep Hrun.
  - injection Hrun as <- <-. by rewrite app_nil_r.
  - cbn [mrun] in Hrun. destruct (mstep c s0 l) as [[s1 ev1]|] eqn:E; [|done].
    destruct (mrun c s1 ls) as [[s2 ev2]|] eqn:E2; [|done]. injection Hrun as <- <-.
    rewrite app_assoc. apply (IH s1); [| |exact E2].
    + apply (Hstep s0 ev0 l s1); [done|done| |done]. exists [], l, ls, [], ev1. done.
    + intros a evs' l' b ev Ha Hq Hcon. apply Hstep; [done|done|]. by eapply consecutive_cons.
Qed.

Lemma mstep_one c s l s' ev : mstep c s l = Some (s', ev) -> length ev <= 1.
Proof.
  intros H. unfold mstep in H. destruct (m_crashed s); [done|]. destruct l.
  - destruct (_ <? 256)%Z; [|done]. injection H as <- <-. simpl. lia.
  - assert (forall s, length (drained c s).2 <= 1) as Hd. { intros s0. unfold drained. destruct (m_cancelled s0); simpl; lia. }
    unfold serve_step in H. destruct (m_serve s) as [|buf|m|n|q tok|m q tok|] eqn:Epc; destruct a; try discriminate H.
    all: try (destruct q; discriminate H).
    all: try (destruct (m_changes s); [done|]).
    all: try (destruct (0 <? m_flushes s)%Z; [|done]).
    all: try (destruct (m_cancelled s); [|done]).
    all: try (destruct (_ <? 256)%Z; [|done]).
    all: try (destruct q).
    all: try (destruct (_ && _)).
    all: try (destruct (mc_delays c)).
    all: try (destruct (_ =? _)%Z).
    all: injection H as <- <- || injection H as H.
    all: try (simpl; lia).
    all: apply (f_equal snd) in H; cbn [snd] in H; rewrite <- H; apply Hd.
  - destruct (m_listening s); [|done]. injection H as <- <-. simpl. lia.
  - destruct (_ && _); [|done]. injection H as <- <-. simpl. lia.
  - destruct (m_sending s); [|done]. unfold send_step in H. destruct (m_sends s); [done|].
    destruct (encode_record_msg _) as [am|er|]; injection H as <- <-; simpl; lia.
  - destruct (_ && _); [|done]. injection H as <- <-. simpl. lia.
  - injection H as <- <-. simpl. lia.
  - destruct (run_op _ _ _ _) as [[s1 ?] ?] eqn:Er. injection H as <- <-. simpl. lia.
Qed.

(** ** One page *)

Lemma page_cases cf e s l lim off tok : env_ok e -> distinct_stored cf (contents s) ->
  ordered cf (contents s) Ascending (fun _ => True) l -> (Z.of_nat (length l) < 2^31)%Z ->
  effective (Selector 0 lim tok Ascending) off -> (0 <= off)%Z ->
  let r := (run_op cf e s (OList (Some (Selector 0 lim tok Ascending)))).1.2 in
  (r = OutSet (drop (Z.to_nat off) l) "" None /\ ((0 < lim)%Z -> (Z.of_nat (length (drop (Z.to_nat off) l)) <= lim)%Z)) \/
  ((0 < lim)%Z /\ (off + lim < Z.of_nat (length l))%Z /\ exists tok', tok' <> ""%string /\
    r = OutSet (take (Z.to_nat lim) (drop (Z.to_nat off) l)) tok' None /\
    effective (Selector 0 lim tok' Ascending) (off + lim)).
Proof.
  intros He Hd Hl Hlen Heff H0 r. unfold r.
  rewrite (list_effective cf e s (Selector 0 lim tok Ascending) l off He Hd Hl Heff). cbn [s_limit]. unfold take_page.
  destruct (Z.geb_spec off (Z.of_nat (length l))) as [Hge|Hlt].
  - assert ((0 <? lim) && (lim <? Z.of_nat (@length entry [])) = false)%Z as ->.
    { apply andb_false_iff. destruct (Z.ltb_spec 0 lim); [|by left]. right. apply Z.ltb_ge. simpl. lia. }
    left. rewrite drop_ge by lia. split; [done|]. simpl. lia.
  - assert ((off <? 0)%Z = false) as -> by lia. rewrite drop_length.
    destruct (Z.ltb_spec 0 lim) as [Hpos|]; cbn [andb]; [|left; split; [done|lia]].
    destruct (Z.ltb_spec lim (Z.of_nat (length l - Z.to_nat off))) as [Hmore|Hlast]; [|left; split; [done|lia]].
    right. split; [done|]. split; [lia|]. exists (make_continue (t_sec (env_now e)) (off + lim)).
    split; [apply make_continue_ne|]. split; [done|]. right. split; [apply make_continue_ne|].
    apply continue_round_trip. lia.
Qed.

(** ** A pass over unchanged stores *)

Section pass.
Context (c : mcfg) (w0 : stores) (L : nat -> list entry).
Context (HL : forall i, i ∈ mc_stores c -> distinct_stored (mc_store_cfg c i) (contents (store_at w0 i)) /\
  ordered (mc_store_cfg c i) (contents (store_at w0 i)) Ascending (fun _ => True) (L i) /\ (Z.of_nat (length (L i)) < 2^31)%Z).

Definition recs (i : nat) : mmsg := e_rec <$> L i.
Definition sized (m : mmsg) : Prop :=
  m <> [] /\ ((0 < mc_flush_batch c)%Z -> (Z.of_nat (length m) <= mc_flush_batch c)%Z).

(** [F] is everything up to queue [q] and token [tok]. *)
Definition upto (q : list nat) (tok : string) (F : mmsg) : Prop :=
  exists pre, mc_stores c = pre ++ q /\
    match q with
    | [] => F = concat (recs <$> pre)
    | i :: _ => exists off, (0 <= off)%Z /\ effective (Selector 0 (mc_flush_batch c) tok Ascending) off /\
        F = concat (recs <$> pre) ++ take (Z.to_nat off) (recs i)
    end.

Definition pass_going (s : mstate) (evs : list mev) : Prop :=
  (forall i, i ∈ mc_stores c -> store_at (m_stores s) i = store_at w0 i) /\ Forall sized (flush_msgs evs) /\
  match m_serve s with
  | SPass q tok => upto q tok (concat (flush_msgs evs))
  | SPassSend m q tok => sized m /\ upto q tok (concat (flush_msgs evs) ++ m)
  | _ => False
  end.

Definition pass_state (s : mstate) (evs : list mev) : Prop :=
  (MPassEnd ∉ evs /\ (pass_going s evs \/ m_crashed s = true \/ m_serve s = SStopped)) \/
  (exists ev1 ev2, evs = ev1 ++ MPassEnd :: ev2 /\ MPassEnd ∉ ev1 /\ Forall sized (flush_msgs ev1) /\
     concat (flush_msgs ev1) = concat (recs <$> mc_stores c)).

Lemma pass_list e i q tok s F : env_ok e -> store_at (m_stores s) i = store_at w0 i -> upto (i :: q) tok F ->
  m_serve (list_next c e i q tok s) = SPass q "" /\ upto q "" F \/
  exists m q' tok', m_serve (list_next c e i q tok s) = SPassSend m q' tok' /\ sized m /\ upto q' tok' (F ++ m).
Proof.
  intros He Hw (pre & Hpre & off & Hoff & Heff & ->).
  assert (i ∈ mc_stores c) as Hi. { rewrite Hpre. apply elem_of_app. right. left. }
  destruct (HL i Hi) as (Hd & Hl & Hlen). rewrite <- Hw in Hd, Hl.
  assert (upto q "" (concat (recs <$> pre) ++ recs i)) as Hnext.
  { exists (pre ++ [i]). split; [by rewrite <- app_assoc|].
    rewrite fmap_app, concat_app. cbn [fmap list_fmap concat]. rewrite app_nil_r.
    destruct q as [|j q]; [done|]. exists 0%Z. split; [lia|]. split; [by left|]. by rewrite app_nil_r. }
  unfold list_next.
  destruct (page_cases (mc_store_cfg c i) e (store_at (m_stores s) i) (L i) (mc_flush_batch c) off tok He Hd Hl Hlen Heff Hoff)
    as [[-> Hsz]|(Hpos & Hmore & tok' & Ht & -> & Heff')].
  - rewrite bool_decide_true by done. destruct (drop (Z.to_nat off) (L i)) as [|x l] eqn:Ed.
    + left. flags. split; [done|]. pose proof Hnext as H. unfold recs.
      rewrite take_ge; [exact H|]. rewrite fmap_length. apply (f_equal length) in Ed. rewrite drop_length in Ed. simpl in Ed. lia.
    + right. exists (e_rec <$> x :: l), q, ""%string. flags. split; [done|]. split.
      { split; [done|]. rewrite fmap_length. done. }
      pose proof Hnext as H. rewrite <- Ed, <- app_assoc. unfold recs in *.
      rewrite <- fmap_take, <- fmap_app, take_drop. exact H.
  - rewrite bool_decide_false by done. right.
    assert (length (take (Z.to_nat (mc_flush_batch c)) (drop (Z.to_nat off) (L i))) = Z.to_nat (mc_flush_batch c)) as Hn.
    { rewrite take_length, drop_length. lia. }
    exists (e_rec <$> take (Z.to_nat (mc_flush_batch c)) (drop (Z.to_nat off) (L i))), (i :: q), tok'.
    destruct (take (Z.to_nat (mc_flush_batch c)) (drop (Z.to_nat off) (L i))) as [|x l] eqn:Et; [simpl in Hn; lia|].
    flags. split; [done|]. split.
    { split; [done|]. intros _. rewrite fmap_length, Hn. lia. }
    exists pre. split; [done|]. exists (off + mc_flush_batch c)%Z. split; [lia|]. split; [done|].
    rewrite <- Et, <- app_assoc. f_equal. unfold recs. rewrite <- !fmap_take, <- fmap_app. f_equal.
    rewrite take_take_drop. f_equal. lia.
Qed.

Lemma pass_state_step s evs l s' ev : pass_state s evs ->
  match l with LServe e _ | LStore _ e _ => env_ok e | _ => True end ->
  match l with LStore i _ o => i ∉ mc_stores c \/ reads o | _ => True end ->
  mstep c s l = Some (s', ev) -> pass_state s' (evs ++ ev).
Proof.
  intros Hi Hok Hq H.
  assert (m_crashed s = false) as Hc. { unfold mstep in H. by destruct (m_crashed s). }
  destruct Hi as [[Hend Hi]|(ev1 & ev2 & -> & Hf)].
  2:{ right. exists ev1, (ev2 ++ ev). by rewrite <- app_assoc. }
  assert (forall ev, MPassEnd ∉ ev -> MPassEnd ∉ evs ++ ev) as Hn.
  { intros ev0 H0 H1. by apply elem_of_app in H1 as [?|?]. }
  assert (MPassEnd ∉ ([] : list mev)) as N0 by apply not_elem_of_nil.
  assert (forall x, x <> MPassEnd -> MPassEnd ∉ [x]) as N1. { intros x Hx. rewrite elem_of_list_singleton. congruence. }
  destruct Hi as [Hg|[?|Hs]]; [|congruence|].
  2:{ assert (MPassEnd ∉ ev /\ (m_serve s' = SStopped \/ m_crashed s' = true)) as [? ?].
    { unfold mstep in H. rewrite Hc in H. destruct l.
      - destruct (_ <? 256)%Z; [|done]. injection H as <- <-. split; [by apply N1|by left].
      - unfold serve_step in H. rewrite Hs in H. by destruct a.
      - destruct (m_listening s); [|done]. injection H as <- <-. split; [by apply N1; destruct ok|left; by destruct (_ <? 8)%Z].
      - destruct (_ && _); [|done]. injection H as <- <-. split; [done|by left].
      - destruct (m_sending s); [|done]. unfold send_step in H. destruct (m_sends s) as [|m q] eqn:Es; [done|].
        destruct (encode_record_msg _) as [am|er|]; injection H as <- <-; (split; [by apply N1 || done|by left]).
      - destruct (_ && _); [|done]. injection H as <- <-. split; [done|by left].
      - injection H as <- <-. split; [done|by left].
      - destruct (run_op _ _ _ _) as [[s1 ?] ?]. injection H as <- <-. split; [done|by left]. }
    left. split; [by apply Hn|]. tauto. }
  (* steps of others *)
  assert (forall s1 ev1, MPassEnd ∉ ev1 -> flush_msgs ev1 = [] -> m_serve s1 = m_serve s ->
    (forall i, i ∈ mc_stores c -> store_at (m_stores s1) i = store_at (m_stores s) i) -> pass_state s1 (evs ++ ev1)) as Hsame.
  { intros s1 ev1 M1 M2 E1 E2. left. split; [by apply Hn|]. left. destruct Hg as (Hw & Hz & Hp). split.
    - intros i Hi. rewrite E2 by done. by apply Hw.
    - rewrite E1. unfold flush_msgs in *. rewrite omap_app, M2, app_nil_r. done. }
  unfold mstep in H. rewrite Hc in H. destruct l.
  - destruct (_ <? 256)%Z; [|done]. injection H as <- <-. by apply Hsame; [apply N1|..].
  - unfold serve_step in H. destruct Hg as (Hw & Hz & Hp).
    destruct (m_serve s) as [|buf|m|n|q tok|m q tok|] eqn:Epc; try done.
    + assert (a = ADo) as -> by (destruct q, a; done). destruct q as [|i q]; injection H as <- <-.
      * right. exists evs, []. split; [done|]. split; [done|]. split; [done|].
        destruct Hp as (pre & Hpre & ->). rewrite app_nil_r in Hpre. by rewrite Hpre.
      * assert (i ∈ mc_stores c) as Hi. { destruct Hp as (pre & -> & _). apply elem_of_app. right. left. }
        assert (m_stores (list_next c e i q tok s) = m_stores s) as Est.
        { unfold list_next. destruct (run_op _ _ _ _).1.2 as [? |? ?|l tok' [er|]|? ?|]; try reflexivity. destruct l; reflexivity. }
        left. split; [by apply Hn|]. rewrite app_nil_r. left. unfold pass_going. rewrite Est. split; [done|]. split; [done|].
        destruct (pass_list e i q tok s (concat (flush_msgs evs)) Hok (Hw i Hi) Hp) as [[-> H]|(m & q' & tok' & -> & H)]; done.
    + destruct a; try done.
      * destruct (m_cancelled s); [|done]. injection H as <- <-. left. split; [by apply Hn|]. right. by right.
      * destruct (_ <? 256)%Z; [|done]. injection H as <- <-. left. split; [by apply Hn, N1|]. left. flags.
        unfold flush_msgs in *. destruct Hp as [Hm Hp]. unfold pass_going. flags. split; [done|]. unfold flush_msgs.
        rewrite !omap_app. cbn [omap list_omap]. split; [by apply Forall_app; split; [|constructor]|].
        rewrite concat_app. cbn [concat]. by rewrite app_nil_r.
  - destruct (m_listening s); [|done]. injection H as <- <-. cbn [fst snd recv_step].
    apply Hsame; [apply N1; by destruct ok|by destruct ok|by destruct (_ <? 8)%Z|by destruct (_ <? 8)%Z].
  - destruct (_ && _); [|done]. injection H as <- <-. by apply Hsame.
  - destruct (m_sending s); [|done]. unfold send_step in H. destruct (m_sends s) as [|m q] eqn:Es; [done|].
    destruct (encode_record_msg _) as [am|er|]; injection H as <- <-; (apply Hsame; [by apply N1 || done|done|done|done]).
  - destruct (_ && _); [|done]. injection H as <- <-. by apply Hsame.
  - injection H as <- <-. by apply Hsame.
  - destruct (run_op _ _ _ _) as [[s1 ?] ?] eqn:Er. injection H as <- <-. apply Hsame; [done|done|done|].
    intros j Hj. flags. unfold store_at. destruct (decide (j = i)) as [->|Hne].
    + destruct Hq as [?|Hr]; [done|]. rewrite lookup_insert. simpl. destruct o; try done; cbn [run_op] in Er;
        unfold store_at in Er; simplify_eq; done.
    + by rewrite lookup_insert_ne by congruence.
Qed.
End pass.

Lemma first_end (a b c d : list mev) : MPassEnd ∉ a -> MPassEnd ∉ c -> a ++ MPassEnd :: b = c ++ MPassEnd :: d -> a = c.
Proof.
  revert c. induction a as [|x a IH]; intros [|y c] Ha Hc E; try done; simpl in E; simplify_eq.
  - exfalso. apply Hc. left.
  - exfalso. apply Ha. left.
  - f_equal. apply IH; [intros ?; apply Ha; by right|intros ?; apply Hc; by right|done].
Qed.

Lemma begins_state c s l s0 : begins c s l s0 -> m_serve s0 = SPass (mc_stores c) "" /\ m_stores s0 = m_stores s.
Proof.
  unfold begins, mstep. intros H. destruct (m_crashed s); [done|]. destruct l; try (by case_match).
  - unfold serve_step in H. destruct (m_serve s) as [|buf|m|n|q tok|m q tok|] eqn:Epc; destruct a; try discriminate H.
    all: repeat (case_match; try discriminate H); simplify_eq; try done.
    + unfold start_pass in H. by simplify_eq.
    + unfold drained, start_pass in H. case_match; by simplify_eq.
    + unfold drained, start_pass in H. case_match; by simplify_eq.
  - destruct (m_listening s); [|done]. unfold recv_step in H. destruct ok; simplify_eq.
  - destruct (m_sending s); [|done]. unfold send_step in H. destruct (m_sends s) as [|m q]; [done|].
    destruct (encode_record_msg _); simplify_eq.
  - simplify_eq.
  - destruct (run_op _ _ _ _) as [[? ?] ?]. simplify_eq.
Qed.

(** With unchanged stores a pass publishes every record once, in order. *)
Lemma pass_complete c s l s0 ls s' ev1 ev2 L : begins c s l s0 ->
  (forall i, i ∈ mc_stores c -> distinct_stored (mc_store_cfg c i) (holds s0 i) /\
    ordered (mc_store_cfg c i) (holds s0 i) Ascending (fun _ => True) (L i) /\ (Z.of_nat (length (L i)) < 2^31)%Z) ->
  labels_ok ls -> undisturbed c ls -> mrun c s0 ls = Some (s', ev1 ++ MPassEnd :: ev2) -> MPassEnd ∉ ev1 ->
  concat (flush_msgs ev1) = concat ((fun i => e_rec <$> L i) <$> mc_stores c) /\
  Forall (fun m => m <> [] /\ ((0 < mc_flush_batch c)%Z -> (Z.of_nat (length m) <= mc_flush_batch c)%Z)) (flush_msgs ev1).
Proof.
  intros Hb HL Hok Hu Hrun Hn. destruct (begins_state _ _ _ _ Hb) as [Hs _].
  assert (pass_state c (m_stores s0) L s' ([] ++ (ev1 ++ MPassEnd :: ev2))) as Hp.
  { apply (mrun_inv (pass_state c (m_stores s0) L)
      (fun l => match l with LServe e _ | LStore _ e _ => env_ok e | _ => True end /\
                match l with LStore i _ o => i ∉ mc_stores c \/ reads o | _ => True end) c s0 [] ls s') with (4 := Hrun).
    - left. split; [apply not_elem_of_nil|]. left. split; [done|]. split; [constructor|]. rewrite Hs.
      exists []. split; [done|]. destruct (mc_stores c) as [|i q] eqn:E; [done|]. exists 0%Z. split; [lia|]. split; [by left|]. done.
    - intros s1 evs l1 s2 ev Hi [H1 H2] Hst. by eapply pass_state_step.
    - apply Forall_and. done. }
  destruct Hp as [[H _]|(a & b & E & Ha & Hz & Hc)].
  - exfalso. apply H. simpl. apply elem_of_app. right. left.
  - simpl in E. assert (ev1 = a) as -> by (by eapply first_end). done.
Qed.

(** ** A pass while stores change *)

(** The identities listed, in order. *)
Lemma ordered_ids cf st l : usual_key cf -> well_keyed st -> ordered cf st Ascending (fun _ => True) l ->
  StronglySorted str_lt (id_of <$> l) /\ forall k, k ∈ id_of <$> l <-> is_Some (entry_at st k).
Proof.
  intros Hu Hw [(ks & Hnd & Hf & Hks) Hs].
  assert (forall x, x ∈ l -> has_sort_key cf x (id_of x) /\ entry_at st (id_of x) = Some x) as Hin.
  { intros x Hx. apply elem_of_list_lookup in Hx as [n Hn]. destruct (Forall2_lookup_r _ _ _ _ _ Hf Hn) as (k & _ & Hk).
    destruct (Hw _ _ Hk) as [Hid (r & Er & _)]. rewrite Hid. split; [|done]. left. rewrite Hu. unfold key_by_record_id.
    rewrite Er. unfold id_of in Hid. rewrite Er in Hid. by rewrite Hid. }
  split.
  - clear Hf. induction Hs as [|x l Hs IH HF]; [constructor|]. rewrite fmap_cons. constructor.
    + apply IH. intros y Hy. apply Hin. by right.
    + apply Forall_fmap. rewrite Forall_forall in *. intros y Hy. destruct (HF y Hy) as (kx & ky & H1 & H2 & H3).
      destruct (Hin x) as [H4 _]; [left|]. destruct (Hin y) as [H5 _]; [by right|]. simpl.
      apply sort_key_has in H1, H2, H4, H5. assert (id_of x = kx) as -> by congruence.
      assert (id_of y = ky) as -> by congruence. done.
  - intros k. rewrite elem_of_list_fmap. split.
    + intros (x & -> & Hx). destruct (Hin x Hx) as [_ ->]. eauto.
    + intros [x Hx]. assert (k ∈ ks) as Hk by (apply Hks; eauto). apply elem_of_list_lookup in Hk as [n Hn].
      destruct (Forall2_lookup_l _ _ _ _ _ Hf Hn) as (y & Hy & Hy'). exists y. destruct (Hw _ _ Hy') as [Hid _].
      split; [done|]. by eapply elem_of_list_lookup_2.
Qed.

(** The identities of the records in a message. *)
Definition names (m : mmsg) : list string := omap (fun r => vrec_identity <$> r) m.

Lemma names_entries (st : plain) l : well_keyed st -> Forall (fun x => exists k, entry_at st k = Some x) l ->
  names (e_rec <$> l) = id_of <$> l.
Proof.
  intros Hw. induction 1 as [|x l [k Hk] HF IH]; [done|]. unfold names in *. rewrite !fmap_cons. cbn [omap list_omap].
  destruct (Hw _ _ Hk) as [_ (r & Er & _)]. rewrite Er. cbn [fmap option_fmap option_map]. f_equal; [|exact IH].
  unfold id_of. by rewrite Er.
Qed.

(** [off] keys below [k] are there. *)
Definition passed (st : plain) (k : string) (off : Z) : Prop :=
  exists ks, NoDup ks /\ Z.of_nat (length ks) = off /\ forall k', k' ∈ ks -> is_Some (entry_at st k') /\ str_lt k' k.

(** A page either has [k] or stops before it. *)
Lemma page_keeps cf st l k off lim : usual_key cf -> well_keyed st -> ordered cf st Ascending (fun _ => True) l ->
  is_Some (entry_at st k) -> passed st k off -> (0 <= lim)%Z ->
  k ∈ id_of <$> drop (Z.to_nat off) l /\
  (k ∈ id_of <$> take (Z.to_nat lim) (drop (Z.to_nat off) l) \/ passed st k (off + lim)).
Proof.
  intros Hu Hw Ho Hk (ks & Hnd & <- & Hks) Hlim. destruct (ordered_ids cf st l Hu Hw Ho) as [Hs Hin].
  rewrite !fmap_drop, !fmap_take, !fmap_drop. apply Hin in Hk. set (ids := id_of <$> l) in *. clearbody ids.
  apply elem_of_list_split in Hk as (a & b & ->).
  assert (forall k', k' ∈ a -> str_lt k' k) as Ha.
  { intros k' Hk'. eapply (elem_of_StronglySorted_app str_lt a (k :: b)); [exact Hs|exact Hk'|left]. }
  assert (NoDup a) as Hna.
  { assert (NoDup (a ++ k :: b)) as H; [|by apply NoDup_app in H as [? _]]. clear -Hs.
    induction Hs as [|y l Hs IH HF]; constructor; [|done]. intros Hy. rewrite Forall_forall in HF. by apply HF, str_lt_irrefl in Hy. }
  assert (length ks <= length a) as Hlen.
  { apply submseteq_length, NoDup_submseteq; [done|]. intros k' Hk'. destruct (Hks k' Hk') as [H1 H2].
    apply Hin, elem_of_app in H1 as [H1|H1]; [done|]. exfalso. apply elem_of_cons in H1 as [->|H1]; [by apply str_lt_irrefl in H2|].
    assert (str_lt k k') as H3.
    { eapply (elem_of_StronglySorted_app str_lt (a ++ [k]) b); [by rewrite <- app_assoc|apply elem_of_app; right; left|done]. }
    by apply (str_lt_irrefl k), (str_lt_trans k k' k). }
  rewrite Nat2Z.id, drop_app_le by done. split; [apply elem_of_app; right; left|].
  destruct (decide (length a < length ks + Z.to_nat lim)) as [Hlt|Hge].
  - left. rewrite take_app_ge by (rewrite drop_length; lia). apply elem_of_app. right. rewrite drop_length.
    destruct (Z.to_nat lim - (length a - length ks)) eqn:E; [lia|]. left.
  - right. exists (take (length ks + Z.to_nat lim) a). split.
    + rewrite <- (take_drop (length ks + Z.to_nat lim) a) in Hna. by apply NoDup_app in Hna as [? _].
    + rewrite take_length. split; [lia|]. intros k' Hk'.
      assert (k' ∈ a) as H. { rewrite <- (take_drop (length ks + Z.to_nat lim) a). apply elem_of_app. by left. }
      split; [|by apply Ha]. apply Hin. apply elem_of_app. by left.
Qed.

Lemma names_app a b : names (a ++ b) = names a ++ names b.
Proof. apply omap_app. Qed.

Lemma enumerates_size (st : plain) l : enumerates st (fun _ => True) l -> length l = size st.
Proof.
  intros (ks & Hnd & Hf & Hks). rewrite <- (Forall2_length _ _ _ Hf), <- (size_dom (D:=gset string) st), <- (size_list_to_set (C:=gset string) ks) by done.
  f_equal. apply leibniz_equiv. intros k. rewrite elem_of_list_to_set, Hks, elem_of_dom. unfold entry_at. split.
  - intros (x & H & _). apply fmap_Some in H as (y & -> & _). eauto.
  - intros [y ->]. eexists. split; [reflexivity|done].
Qed.

Section keeps.
Context (c : mcfg) (i : nat) (k : string).
Context (Hu : usual_key (mc_store_cfg c i)).

(** [k] is still to come. *)
Definition coming (s : mstate) (q : list nat) (tok : string) : Prop :=
  match q with
  | [] => False
  | j :: q' => i ∈ q' \/ (j = i /\ exists off, effective (Selector 0 (mc_flush_batch c) tok Ascending) off /\
      (0 <= off)%Z /\ passed (holds s i) k off)
  end.

Definition keep_going (s : mstate) (evs : list mev) : Prop :=
  k ∈ names (concat (flush_msgs evs)) \/ m_crashed s = true \/ m_serve s = SStopped \/
  match m_serve s with
  | SPass q tok => coming s q tok
  | SPassSend m q tok => k ∈ names m \/ coming s q tok
  | _ => False
  end.

Definition keep_state (s : mstate) (evs : list mev) : Prop :=
  reachable (mc_store_cfg c i) (store_at (m_stores s) i) /\ well_keyed (holds s i) /\ is_Some (entry_at (holds s i) k) /\
  ((MPassEnd ∉ evs /\ keep_going s evs) \/
   exists ev1 ev2, evs = ev1 ++ MPassEnd :: ev2 /\ MPassEnd ∉ ev1 /\ k ∈ names (concat (flush_msgs ev1))).

(** The writes of this step remove neither [k] nor a smaller key. *)
Definition spares (s s' : mstate) : Prop :=
  forall k', k' = k \/ str_lt k' k -> is_Some (entry_at (holds s i) k') -> is_Some (entry_at (holds s' i) k').

Lemma coming_spared s s' q tok : spares s s' -> coming s q tok -> coming s' q tok.
Proof.
  intros Hs. destruct q as [|j q]; [done|]. intros [H|(-> & off & He & H0 & ks & H1 & H2 & H3)]; [by left|]. right.
  split; [done|]. exists off. split; [done|]. split; [done|]. exists ks. split; [done|]. split; [done|].
  intros k' Hk'. destruct (H3 k' Hk') as [H4 H5]. split; [|done]. apply Hs; [by right|done].
Qed.

Lemma list_next_stores e j q tok s : m_stores (list_next c e j q tok s) = m_stores s.
Proof. unfold list_next. destruct (run_op _ _ _ _).1.2 as [? |? ?|l tok' [er|]|? ?|]; try reflexivity. destruct l; reflexivity. Qed.

(** The store's part of the invariant. *)
Lemma keep_store s l s' ev : 
  match l with LServe e _ | LStore _ e _ => env_ok e | _ => True end ->
  match l with LStore j _ o => j = i -> good_op good_record o | _ => True end ->
  mstep c s l = Some (s', ev) ->
  reachable (mc_store_cfg c i) (store_at (m_stores s) i) -> well_keyed (holds s i) ->
  reachable (mc_store_cfg c i) (store_at (m_stores s') i) /\ well_keyed (holds s' i) /\
  ((forall j e o, l <> LStore j e o) -> m_stores s' = m_stores s).
Proof.
  intros Hok Hg H Hr Hw. unfold mstep in H. destruct (m_crashed s); [done|].
  assert (m_stores s' = m_stores s ->
    reachable (mc_store_cfg c i) (store_at (m_stores s') i) /\ well_keyed (holds s' i) /\
    ((forall j e o, l <> LStore j e o) -> m_stores s' = m_stores s)) as Hsame.
  { intros E. unfold holds. by rewrite E. }
  destruct l.
  - destruct (_ <? 256)%Z; [|done]. injection H as <- <-. by apply Hsame.
  - apply Hsame. clear -H. unfold serve_step in H.
    assert (forall e buf s, m_stores (finish_batch e buf s) = m_stores s) as Hf.
    { intros. unfold finish_batch. by destruct (batch_records _ _) as [[|]|]. }
    assert (forall s s1 ev1, drained c s = (s1, ev1) -> m_stores s = m_stores s1) as Hdr.
    { intros s1 s2 ev1 E. unfold drained, start_pass in E. destruct (m_cancelled s1); by injection E as <- <-. }
    assert (forall s s1 ev1, start_pass c s = (s1, ev1) -> m_stores s = m_stores s1) as Hsp.
    { intros s1 s2 ev1 E. by injection E as <- <-. }
    destruct (m_serve s) as [|buf|m|n|q tok|m q tok|] eqn:Epc; destruct a; try discriminate H.
    all: try (destruct q; discriminate H).
    all: repeat (case_match; try discriminate H); simplify_eq; try done.
    all: try (unfold buffered; case_match; rewrite ?Hf; done).
    all: try (injection H as H; by rewrite <- (Hdr _ _ _ H)).
    all: try (by rewrite <- (Hdr _ _ _ H)).
    all: try (by rewrite <- (Hsp _ _ _ H)).
    all: try (rewrite Hf; done).
    apply list_next_stores.
  - destruct (m_listening s); [|done]. injection H as <- <-. apply Hsame. cbn [fst recv_step]. by destruct (_ <? 8)%Z.
  - destruct (_ && _); [|done]. injection H as <- <-. by apply Hsame.
  - destruct (m_sending s); [|done]. unfold send_step in H. destruct (m_sends s) as [|m q] eqn:Es; [done|].
    destruct (encode_record_msg _) as [am|er|]; injection H as <- <-; by apply Hsame.
  - destruct (_ && _); [|done]. injection H as <- <-. by apply Hsame.
  - injection H as <- <-. by apply Hsame.
  - destruct (run_op _ _ _ _) as [[s1 r] ev1] eqn:Er. injection H as <- <-. unfold holds. flags.
    destruct (decide (i0 = i)) as [->|Hne].
    + unfold store_at at 1 2. rewrite lookup_insert. simpl.
      pose proof (reachable_step _ _ e o Hr Hok) as Hr1. rewrite Er in Hr1. split; [done|]. split.
      * exact (well_keyed_step _ _ _ _ _ _ _ Hu Hok Hr (Hg eq_refl) Hw Er).
      * intros H. by destruct (H i e o).
    + unfold store_at at 1 2. rewrite lookup_insert_ne by congruence. split; [done|]. split; [done|].
      intros H. by destruct (H i0 e o).
Qed.

Lemma keep_list e j q tok s : env_ok e -> well_keyed (holds s i) ->
  is_Some (entry_at (holds s i) k) -> (Z.of_nat (size (holds s i)) < 2^31)%Z ->
  m_serve s = SPass (j :: q) tok -> coming s (j :: q) tok ->
  m_crashed (list_next c e j q tok s) = true \/
  match m_serve (list_next c e j q tok s) with
  | SPass q' tok' => coming s q' tok'
  | SPassSend m q' tok' => k ∈ names m \/ coming s q' tok'
  | _ => False
  end.
Proof.
  intros He Hw Hk Hsz Epc Hcom.
  assert (i ∈ q -> forall tok', coming s (if bool_decide (tok' = ""%string) then q else j :: q) tok') as Hlater.
  { intros Hi tok'. case_bool_decide; [|by left]. simplify_eq. destruct q as [|j' q']; [by apply elem_of_nil in Hi|].
    apply elem_of_cons in Hi as [->|Hi]; [|by left]. right. split; [done|]. exists 0%Z. split; [by left|]. split; [done|].
    exists []. split; [constructor|]. split; [done|]. intros k' Hnil. by apply elem_of_nil in Hnil. }
  pose proof Hcom as Hcom'. destruct Hcom as [Hi|(-> & off & Heff & H0 & Hpas)].
  - unfold list_next. destruct (run_op _ _ _ _).1.2 as [? |? ?|l tok' [er|]|? ?|]; try (by left); try (right; by rewrite Epc).
    right. destruct l; flags; [|right]; by apply Hlater.
  - pose proof (well_keyed_distinct _ _ Hu Hw) as Hd.
    destruct (ordered_list_exists (mc_store_cfg c i) (store_at (m_stores s) i) Ascending Hd) as [l Hl].
    assert (length l = size (holds s i)) as Hlen. { apply enumerates_size. apply Hl. }
    assert (forall x, x ∈ l -> exists k, entry_at (holds s i) k = Some x) as Hin.
    { intros x Hx. destruct Hl as [(ks & _ & Hf & _) _]. apply elem_of_list_lookup in Hx as [n Hn].
      destruct (Forall2_lookup_r _ _ _ _ _ Hf Hn) as (k' & _ & H). eauto. }
    assert (forall l', (forall x, x ∈ l' -> x ∈ l) -> names (e_rec <$> l') = id_of <$> l') as Hnames.
    { intros l' Hl'. apply (names_entries (holds s i)); [done|]. apply Forall_forall. intros x Hx. by apply Hin, Hl'. }
    unfold list_next. right.
    destruct (page_cases (mc_store_cfg c i) e (store_at (m_stores s) i) l (mc_flush_batch c) off tok He Hd Hl) as
      [[-> _]|(Hpos & Hmore & tok' & Ht & -> & Heff')]; [by rewrite Hlen|done|done| |].
    + destruct (page_keeps (mc_store_cfg c i) (holds s i) l k off 0 Hu Hw Hl Hk Hpas) as [H _]; [done|].
      rewrite <- Hnames in H by (intros x Hx; rewrite <- (take_drop (Z.to_nat off) l); apply elem_of_app; by right).
      destruct (drop (Z.to_nat off) l); [by apply elem_of_nil in H|]. flags. by left.
    + rewrite bool_decide_false by done.
      destruct (page_keeps (mc_store_cfg c i) (holds s i) l k off (mc_flush_batch c) Hu Hw Hl Hk Hpas) as [_ H]; [lia|].
      rewrite <- Hnames in H.
      2:{ intros x Hx. rewrite <- (take_drop (Z.to_nat off) l). apply elem_of_app. right.
          rewrite <- (take_drop (Z.to_nat (mc_flush_batch c)) (drop (Z.to_nat off) l)). apply elem_of_app. by left. }
      assert (coming s (i :: q) tok' \/ k ∈ names (e_rec <$> take (Z.to_nat (mc_flush_batch c)) (drop (Z.to_nat off) l))) as H'.
      { destruct H as [H|H]; [by right|]. left. right. split; [done|]. exists (off + mc_flush_batch c)%Z.
        split; [done|]. split; [lia|done]. }
      destruct (take (Z.to_nat (mc_flush_batch c)) (drop (Z.to_nat off) l)) as [|x l'].
      * flags. destruct H' as [H'|H']; [done|by apply elem_of_nil in H'].
      * flags. tauto.
Qed.

Lemma keep_step s evs l s' ev : keep_state s evs ->
  match l with LServe e _ | LStore _ e _ => env_ok e | _ => True end ->
  match l with LStore j _ o => j = i -> good_op good_record o | _ => True end ->
  spares s s' -> (Z.of_nat (size (holds s i)) < 2^31)%Z ->
  mstep c s l = Some (s', ev) -> keep_state s' (evs ++ ev).
Proof.
  intros (Hr & Hw & Hk & Hi) Hok Hg Hsp Hsz H.
  destruct (keep_store s l s' ev Hok Hg H Hr Hw) as (Hr' & Hw' & Hst).
  split; [done|]. split; [done|]. split; [apply Hsp; [by left|done]|].
  assert (m_crashed s = false) as Hc. { unfold mstep in H. by destruct (m_crashed s). }
  destruct Hi as [[Hend Hi]|(ev1 & ev2 & -> & Hf)].
  2:{ right. exists ev1, (ev2 ++ ev). by rewrite <- app_assoc. }
  assert (forall ev, MPassEnd ∉ ev -> MPassEnd ∉ evs ++ ev) as Hn.
  { intros ev0 H0 H1. by apply elem_of_app in H1 as [?|?]. }
  assert (MPassEnd ∉ ([] : list mev)) as N0 by apply not_elem_of_nil.
  assert (forall x, x <> MPassEnd -> MPassEnd ∉ [x]) as N1. { intros x Hx. rewrite elem_of_list_singleton. congruence. }
  assert (forall ev, flush_msgs (evs ++ ev) = flush_msgs evs ++ flush_msgs ev) as Happ. { intros. apply omap_app. }
  (* found already *)
  destruct (decide (k ∈ names (concat (flush_msgs evs)))) as [Hfound|Hnot].
  { assert (ev = [MPassEnd] \/ MPassEnd ∉ ev) as [-> |Hni].
    { clear -H Hc N0 N1.
      assert (length ev <= 1) as Hl1 by (by eapply mstep_one).
      destruct ev as [|x [|? ?]]; [by right| |simpl in Hl1; lia]. destruct x; try (right; by apply N1). by left. }
    - right. exists evs, []. done.
    - left. split; [by apply Hn|]. left. rewrite Happ, concat_app, names_app. apply elem_of_app. by left. }
  destruct Hi as [?|[?|Hi]]; [done|congruence|].
  assert (forall s1 ev1, MPassEnd ∉ ev1 -> m_serve s1 = m_serve s -> spares s s1 ->
    (MPassEnd ∉ evs ++ ev1 /\ keep_going s1 (evs ++ ev1))) as Hsame.
  { intros s1 ev1 M1 E1 Hsp1. split; [by apply Hn|]. unfold keep_going. rewrite E1. destruct Hi as [Hi|Hi]; [by right; right; left|].
    right. right. right. destruct (m_serve s); try done; [by apply (coming_spared s)|]. destruct Hi as [?|?]; [by left|].
    right. by apply (coming_spared s). }
  unfold mstep in H. rewrite Hc in H. destruct l.
  - left. destruct (_ <? 256)%Z; [|done]. injection H as <- <-. by apply Hsame; [apply N1|..].
  - unfold serve_step in H. destruct Hi as [Hi|Hi]; [rewrite Hi in H; by destruct a|].
    destruct (m_serve s) as [|buf|m|n|q tok|m q tok|] eqn:Epc; try done.
    + assert (a = ADo) as -> by (destruct q, a; done). destruct q as [|j q]; [done|]. injection H as <- <-.
      left. split; [by apply Hn|].
      destruct (keep_list e j q tok s Hok Hw Hk Hsz Epc Hi) as [H|H]; [by right; left|]. right. right. right.
      destruct (m_serve (list_next c e j q tok s)) as [|?|?|?|q' tok'|m q' tok'|] eqn:E'; try done; [by apply (coming_spared s)|].
      destruct H as [?|?]; [by left|]. right. by apply (coming_spared s).
    + destruct a; try done.
      * destruct (m_cancelled s); [|done]. injection H as <- <-. left. split; [by apply Hn|]. right. right. by left.
      * destruct (_ <? 256)%Z; [|done]. injection H as <- <-. left. split; [by apply Hn, N1|].
        destruct Hi as [Hi|Hi].
        -- left. rewrite Happ, concat_app, names_app. apply elem_of_app. right. cbn [flush_msgs omap list_omap concat].
           by rewrite app_nil_r.
        -- right. right. right. flags. by apply (coming_spared s).
  - left. destruct (m_listening s); [|done]. injection H as <- <-. cbn [fst snd recv_step].
    apply Hsame; [apply N1; by destruct ok|by destruct (_ <? 8)%Z|done].
  - left. destruct (_ && _); [|done]. injection H as <- <-. by apply Hsame.
  - left. destruct (m_sending s); [|done]. unfold send_step in H. destruct (m_sends s) as [|m q] eqn:Es; [done|].
    destruct (encode_record_msg _) as [am|er|]; injection H as <- <-; (apply Hsame; [by apply N1 || done|done|done]).
  - left. destruct (_ && _); [|done]. injection H as <- <-. by apply Hsame.
  - left. injection H as <- <-. by apply Hsame.
  - left. destruct (run_op _ _ _ _) as [[s1 ?] ?] eqn:Er. injection H as <- <-. by apply Hsame.
Qed.
End keeps.

(** A key that stays, with no smaller key being removed, is published. *)
Lemma pass_keeps c i k s l s0 ls s' ev1 ev2 : begins c s l s0 -> i ∈ mc_stores c -> usual_key (mc_store_cfg c i) ->
  reachable (mc_store_cfg c i) (store_at (m_stores s0) i) -> well_keyed (holds s0 i) ->
  labels_ok ls -> Forall (fun l => match l with LStore j _ o => j = i -> good_op good_record o | _ => True end) ls ->
  is_Some (entry_at (holds s0 i) k) ->
  (forall s1 s2, consecutive c s0 ls s1 s2 -> (Z.of_nat (size (holds s1 i)) < 2^31)%Z /\
     forall k', k' = k \/ str_lt k' k -> is_Some (entry_at (holds s1 i) k') -> is_Some (entry_at (holds s2 i) k')) ->
  mrun c s0 ls = Some (s', ev1 ++ MPassEnd :: ev2) -> MPassEnd ∉ ev1 ->
  k ∈ names (concat (flush_msgs ev1)).
Proof.
  intros Hb Hi Hu Hr Hw Hok Hg Hk Hcon Hrun Hn. destruct (begins_state _ _ _ _ Hb) as [Hs _].
  assert (keep_state c i k s' ([] ++ (ev1 ++ MPassEnd :: ev2))) as (_ & _ & _ & Hp).
  { apply (mrun_inv_rel (keep_state c i k)
      (fun l => match l with LServe e _ | LStore _ e _ => env_ok e | _ => True end /\
                match l with LStore j _ o => j = i -> good_op good_record o | _ => True end) c s0 [] ls s') with (4 := Hrun).
    - split; [done|]. split; [done|]. split; [done|]. left. split; [apply not_elem_of_nil|]. right. right. right. rewrite Hs.
      destruct (mc_stores c) as [|j q] eqn:E; [by apply elem_of_nil in Hi|]. apply elem_of_cons in Hi as [->|Hi]; [|by left].
      right. split; [done|]. exists 0%Z. split; [by left|]. split; [done|]. exists []. split; [constructor|]. split; [done|].
      intros k' H. by apply elem_of_nil in H.
    - intros s1 evs l1 s2 ev Hi1 [H1 H2] Hc Hst. destruct (Hcon s1 s2 Hc) as [H3 H4].
      exact (keep_step c i k Hu s1 evs l1 s2 ev Hi1 H1 H2 H4 H3 Hst).
    - apply Forall_and. done. }
  destruct Hp as [[H _]|(a & b & E & Ha & Hf)].
  - exfalso. apply H. simpl. apply elem_of_app. right. left.
  - simpl in E. assert (ev1 = a) as -> by (by eapply first_end). done.
Qed.
