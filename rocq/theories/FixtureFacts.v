(** Proofs about the fixture server. *)
From Coq Require Import ZArith String Lia.
From stdpp Require Import base gmap strings list sets.
From Verif Require Import GoBase Cache Diff Tool Run Fixture SpecFixture.

Local Open Scope list_scope.

Lemma elem_of_cfg_names n cfg : n ∈ cfg_names cfg <-> named cfg n.
Proof.
  unfold cfg_names, named. rewrite elem_of_list_to_set, elem_of_list_fmap. naive_solver.
Qed.

Lemma size_cfg_names cfg : size (cfg_names cfg) <= length cfg.
Proof.
  unfold cfg_names. rewrite <- (fmap_length sr_name). generalize (sr_name <$> cfg). intros l.
  induction l as [|x l IH]; cbn [list_to_set length].
  - rewrite size_empty. lia.
  - rewrite size_union_alt, size_singleton.
    assert (size ((list_to_set l : gset string) ∖ {[x]}) <= size (list_to_set l : gset string)) by (apply subseteq_size; set_solver).
    lia.
Qed.

Lemma all_sources_snoc cfgs cfg :
  all_sources (cfgs ++ [cfg]) = all_sources cfgs ++ ((fun src => (length cfgs, src)) <$> cfg).
Proof. unfold all_sources. rewrite imap_app. cbn [imap]. rewrite concat_app. cbn. by rewrite app_nil_r, Nat.add_0_r. Qed.

(** Every source of every configuration has a manager. *)
Definition full (acc : list (list source_ref)) (m : mgr) : Prop := exists cfg, acc !! m.1 = Some cfg /\ named cfg m.2.

Lemma full_snoc acc cfg m : full (acc ++ [cfg]) m <-> full acc m \/ (m.1 = length acc /\ named cfg m.2).
Proof.
  unfold full. split.
  - intros (c & Hl & Hn). apply lookup_app_Some in Hl as [Hl|[Hle Hl]]; [left; eauto|].
    apply list_lookup_singleton_Some in Hl as [He <-]. right. split; [lia|done].
  - intros [(c & Hl & Hn)|[He Hn]].
    + exists c. split; [|done]. by apply lookup_app_l_Some.
    + exists cfg. split; [|done]. rewrite lookup_app_r by lia. by rewrite He, Nat.sub_diag.
Qed.

Definition view_of (acc : list (list source_ref)) : fstatus * option nat :=
  match acc with [] => (Pending, None) | _ => (Running, Some (pred (length acc))) end.

(** The invariant: [acc] are the configurations dealt with entirely. *)
Record common (s : fstate) (accepted : list (list source_ref)) (cancelled : nat) (conns : list (nat * source_ref))
    (started : mgr -> Prop) (view : fstatus * option nat) : Prop := Common {
  co_accepted : fs_accepted s = accepted;
  co_cancelled : fs_cancelled s = cancelled;
  co_conns : fs_conns s = conns;
  co_started : forall m, m ∈ fs_started s <-> started m;
  co_nodup : NoDup (fs_started s);
  co_view : (fs_status s, fs_managers s) = view;
}.

Definition inv_at (acc : list (list source_ref)) (s : fstate) : Prop :=
  let n := length acc in
  match fs_loop s with
  | LIdle | LEnded => common s acc (pred n) (all_sources acc) (full acc) (view_of acc)
  | LTaken cfg => common s (acc ++ [cfg]) (pred n) (all_sources acc) (full acc) (view_of acc)
  | LCancelled cfg => common s (acc ++ [cfg]) n (all_sources acc) (full acc) (view_of acc)
  | LBuild todo cfg => exists dn, cfg = dn ++ todo /\
      common s (acc ++ [cfg]) n (all_sources acc ++ ((fun src => (n, src)) <$> dn)) (full acc) (Reconfiguring, None)
  | LStart todo => exists cfg, todo ⊆ cfg_names cfg /\
      common s (acc ++ [cfg]) n (all_sources (acc ++ [cfg]))
        (fun m => full acc m \/ (m.1 = n /\ m.2 ∈ cfg_names cfg ∖ todo)) (Reconfiguring, None)
  | LPublish => exists cfg, common s (acc ++ [cfg]) n (all_sources (acc ++ [cfg])) (full (acc ++ [cfg])) (Reconfiguring, None)
  end.
Definition finv (s : fstate) : Prop := exists acc, inv_at acc s.

Lemma common_same s s' a c cn st v :
  common s a c cn st v -> fs_accepted s' = fs_accepted s -> fs_cancelled s' = fs_cancelled s ->
  fs_conns s' = fs_conns s -> fs_started s' = fs_started s -> fs_status s' = fs_status s ->
  fs_managers s' = fs_managers s -> common s' a c cn st v.
Proof. intros [] H1 H2 H3 H4 H5 H6. split; rewrite ?H1, ?H2, ?H3, ?H4, ?H5, ?H6; done. Qed.

Lemma inv_same acc s s' :
  inv_at acc s -> fs_loop s' = fs_loop s -> fs_accepted s' = fs_accepted s -> fs_cancelled s' = fs_cancelled s ->
  fs_conns s' = fs_conns s -> fs_started s' = fs_started s -> fs_status s' = fs_status s ->
  fs_managers s' = fs_managers s -> inv_at acc s'.
Proof.
  unfold inv_at. intros H H0 H1 H2 H3 H4 H5 H6. rewrite H0. destruct (fs_loop s);
    try (by eapply common_same); [destruct H as (dn & ? & H)|destruct H as (cfg & ? & H)|destruct H as (cfg & H)];
    try (eexists; split; [done|]; by eapply common_same). exists cfg. by eapply common_same.
Qed.

Lemma full_lt acc m : full acc m -> m.1 < length acc.
Proof. intros (cfg & H & _). by apply lookup_lt_Some in H. Qed.

Lemma current_snoc s acc cfg : fs_accepted s = acc ++ [cfg] -> current s = length acc.
Proof. intros H. unfold current. rewrite H, app_length. simpl. lia. Qed.

Lemma finv0 : finv fixture0.
Proof.
  exists []. unfold inv_at. simpl. split; simpl; try done. intros m. rewrite elem_of_nil. split; [done|].
  intros (cfg & H & _). done. constructor.
Qed.

Lemma finv_step s l s' ev : finv s -> fstep s l = Some (s', ev) -> finv s'.
Proof.
  intros [acc Hi] Hs. destruct l; simpl in Hs.
  - injection Hs as <- <-. exists acc. by eapply inv_same.
  - destruct (fs_lock s); [done|]. injection Hs as <- <-. by exists acc.
  - destruct (fs_lock s); [done|]. destruct (fs_posts s !! r); [done|]. destruct (bool_decide _); [|done].
    injection Hs as <- <-. exists acc. by eapply inv_same.
  - destruct (fs_loop s) eqn:El; try done. destruct (fs_posts s !! r) as [[cfg st]|]; [|done]. injection Hs as <- <-.
    exists acc. unfold inv_at in *. rewrite El in Hi. simpl. destruct Hi. split; try done. simpl. by rewrite co_accepted0.
  - destruct (fs_loop s) eqn:El; try done. destruct (fs_done s); [|done]. injection Hs as <- <-.
    exists acc. unfold inv_at in *. rewrite El in Hi. simpl. by destruct Hi.
  - destruct (loop_step s) as [s1|] eqn:E1; [|done]. injection Hs as <- <-. unfold loop_step in E1.
    destruct (fs_loop s) as [|cfg|cfg|[|src todo] cfg|todo| |] eqn:El; try done; unfold inv_at in Hi; rewrite El in Hi.
    + injection E1 as <-. exists acc. unfold inv_at. simpl. destruct Hi. split; try done. simpl. by eapply current_snoc.
    + destruct (fs_lock s); [done|]. injection E1 as <-. exists acc. unfold inv_at. simpl. exists []. split; [done|].
      destruct Hi. split; try done. simpl. by rewrite app_nil_r.
    + injection E1 as <-. exists acc. unfold inv_at. simpl. destruct Hi as (dn & -> & []). rewrite app_nil_r in *.
      exists dn. split; [done|]. split; try done. simpl. by rewrite co_conns0, all_sources_snoc.
      simpl. intros m. rewrite co_started0, difference_diag_L, elem_of_empty. naive_solver.
    + injection E1 as <-. exists acc. unfold inv_at. simpl. destruct Hi as (dn & -> & Hc).
      exists (dn ++ [src]). split; [by rewrite <- app_assoc|]. pose proof (co_accepted _ _ _ _ _ _ Hc) as Ha.
      destruct Hc. split; try done. simpl. rewrite co_conns0, (current_snoc _ _ _ Ha), fmap_app, app_assoc. done.
    + destruct (bool_decide (todo = ∅)) eqn:Et; [|done]. injection E1 as <-. apply bool_decide_eq_true in Et as ->.
      exists acc. unfold inv_at. simpl. destruct Hi as (cfg & _ & []). exists cfg. split; try done. simpl.
      intros m. rewrite co_started0, full_snoc, difference_empty_L. by rewrite elem_of_cfg_names.
    + destruct (fs_lock s); [done|]. injection E1 as <-. destruct Hi as (cfg & Hc). exists (acc ++ [cfg]).
      pose proof (co_accepted _ _ _ _ _ _ Hc) as Ha. unfold inv_at. simpl. destruct Hc. split; try done; simpl.
      * rewrite app_length. simpl. lia.
      * rewrite (current_snoc _ _ _ Ha). unfold view_of. destruct acc; simpl; [done|]. rewrite app_length. simpl.
        do 2 f_equal. lia.
  - destruct (fs_loop s) eqn:El; try done. destruct (bool_decide (n ∈ todo)) eqn:En; [|done]. injection Hs as <- <-.
    apply bool_decide_eq_true in En. unfold inv_at in Hi. rewrite El in Hi. destruct Hi as (cfg & Hsub & Hc).
    pose proof (current_snoc _ _ _ (co_accepted _ _ _ _ _ _ Hc)) as Hcur.
    exists acc. unfold inv_at. simpl. exists cfg. split; [set_solver|]. destruct Hc. split; try done; simpl; rewrite Hcur.
    + intros [g x]. simpl. rewrite elem_of_app, co_started0, elem_of_list_singleton. simpl. split.
      * intros [[?|[-> ?]]|[= -> ->]]; [by left| |]; right; (split; [done|]); set_solver.
      * intros [?|[-> Hx]]; [by left; left|]. destruct (decide (x = n)) as [->|Hne]; [by right|]. left. right.
        split; [done|]. set_solver.
    + apply NoDup_app. split; [done|]. split; [|apply NoDup_singleton]. intros m Hm Hm1.
      apply elem_of_list_singleton in Hm1 as ->. apply co_started0 in Hm as [Hm|[_ Hm]]; [|set_solver].
      apply full_lt in Hm. simpl in Hm. lia.
  - destruct (fs_lock s); [done|]. injection Hs as <- <-. exists acc. by eapply inv_same.
  - destruct (fs_lock s) as [r'|]; [|done]. destruct (bool_decide _); [|done].
    destruct (start_replays _ _ _); [|done]. injection Hs as <- <-. exists acc. by eapply inv_same.
  - destruct (fs_replays s !! k) as [[[|[m u] todo] n]|]; try done. destruct (bool_decide _); [|done].
    injection Hs as <- <-. exists acc. by eapply inv_same.
  - destruct (bool_decide _); [|done]. destruct (fs_queue s !! m) as [[|u q]|]; try done.
    injection Hs as <- <-. exists acc. by eapply inv_same.
  - destruct (fs_lock s); [done|]. destruct (fs_replays s !! k) as [[[|] n]|]; try done.
    injection Hs as <- <-. exists acc. by eapply inv_same.
Qed.

Lemma finv_run ls s evs : frun fixture0 ls = Some (s, evs) -> finv s.
Proof.
  intros H. revert H. induction ls as [|l ls IH] using rev_ind in s, evs |- *.
  - intros [= <- <-]. exact finv0.
  - intros H. apply run_snoc in H as (s1 & e1 & e2 & H1 & H2 & ->). eapply finv_step; [|exact H2]. eauto.
Qed.

(** ** The configurations received are those posted *)

Lemma received_snoc ls l : received (ls ++ [l]) =
  match l with Take r => received ls ++ [default [] ((fold_left received_step ls (∅, [])).1 !! r)] | _ => received ls end.
Proof. unfold received. rewrite fold_left_app. simpl. by destruct l. Qed.

Lemma received_run ls s evs : frun fixture0 ls = Some (s, evs) ->
  fs_accepted s = received ls /\ length (answers evs) = length (received ls) /\
  (forall r x, fs_posts s !! r = Some x -> (fold_left received_step ls (∅, [])).1 !! r = Some x.1) /\
  (forall r x, fs_posts s !! r = Some x -> NoDup x.1) /\ Forall (fun cfg => NoDup cfg) (fs_accepted s).
Proof.
  induction ls as [|l ls IH] using rev_ind in s, evs |- *.
  - intros [= <- <-]. split; [done|]. split; [done|]. repeat split; try done. constructor.
  - intros H. apply run_snoc in H as (s1 & e1 & e2 & H1 & H2 & ->). apply IH in H1 as (Ha & Hn & Hp & Hd & Hf).
    rewrite received_snoc, fold_left_app. unfold answers. rewrite omap_app, app_length. fold (answers e1). rewrite Hn.
    assert (fs_accepted s = fs_accepted s1 -> fs_posts s = fs_posts s1 -> omap (fun e => match e with EvAnswer r _ => Some r | _ => None end) e2 = [] ->
      (match l with Post _ _ | Take _ => False | _ => True end) ->
      fs_accepted s = match l with Take r => received ls ++ [default [] ((fold_left received_step ls (∅, [])).1 !! r)] | _ => received ls end /\
      length (received ls) + length (omap (fun e => match e with EvAnswer r _ => Some r | _ => None end) e2) =
        length (match l with Take r => received ls ++ [default [] ((fold_left received_step ls (∅, [])).1 !! r)] | _ => received ls end) /\
      (forall r x, fs_posts s !! r = Some x -> (fold_left received_step [l] (fold_left received_step ls (∅, []))).1 !! r = Some x.1) /\
      (forall r x, fs_posts s !! r = Some x -> NoDup x.1) /\ Forall (fun cfg => NoDup cfg) (fs_accepted s)) as Hsame.
    { intros -> -> -> Hl. rewrite Ha in *. destruct l; try done; simpl; (split; [done|]); (split; [lia|]); done. }
    destruct l; simpl in H2.
    + injection H2 as <- <-. by apply Hsame.
    + destruct (fs_lock s1); [done|]. injection H2 as <- <-. by apply Hsame.
    + destruct (fs_lock s1); [done|]. destruct (fs_posts s1 !! r); [done|]. destruct (bool_decide _) eqn:Eb; [|done].
      apply bool_decide_eq_true in Eb. injection H2 as <- <-. simpl. split; [done|]. split; [lia|]. split; [|split; [|done]].
      * intros r' x. destruct (decide (r = r')) as [->|Hne].
        -- rewrite !lookup_insert. by intros [= <-].
        -- rewrite !lookup_insert_ne by done. apply Hp.
      * intros r' x. destruct (decide (r = r')) as [->|Hne].
        -- rewrite lookup_insert. by intros [= <-].
        -- rewrite lookup_insert_ne by done. apply Hd.
    + destruct (fs_loop s1); try done. destruct (fs_posts s1 !! r) as [[cfg st]|] eqn:Er; [|done]. injection H2 as <- <-.
      simpl. rewrite (Hp _ _ Er). simpl. rewrite Ha. split; [done|]. rewrite app_length. simpl. split; [done|].
      split; [|split].
      * intros r' x Hx. apply lookup_delete_Some in Hx as [_ Hx]. eauto.
      * intros r' x Hx. apply lookup_delete_Some in Hx as [_ Hx]. eauto.
      * apply Forall_app. split; [by rewrite <- Ha|]. constructor; [|constructor]. by apply (Hd r (cfg, st)).
    + destruct (fs_loop s1); try done. destruct (fs_done s1); [|done]. injection H2 as <- <-. by apply Hsame.
    + destruct (loop_step s1) as [s2|] eqn:E2; [|done]. injection H2 as <- <-.
      assert (fs_accepted s2 = fs_accepted s1 /\ fs_posts s2 = fs_posts s1) as [? ?]; [|by apply Hsame].
      unfold loop_step in E2. destruct (fs_loop s1) as [|cfg|cfg|[|src todo] cfg|todo| |]; try done;
        try destruct (fs_lock s1); try done; try destruct (bool_decide _); try done; by injection E2 as <-.
    + destruct (fs_loop s1); try done. destruct (bool_decide _); [|done]. injection H2 as <- <-. by apply Hsame.
    + destruct (fs_lock s1); [done|]. injection H2 as <- <-. by apply Hsame.
    + destruct (fs_lock s1); [|done]. destruct (bool_decide _); [|done]. destruct (start_replays _ _ _); [|done].
      injection H2 as <- <-. by apply Hsame.
    + destruct (fs_replays s1 !! k) as [[[|[m u] todo] n]|]; try done. destruct (bool_decide _); [|done].
      injection H2 as <- <-. by apply Hsame.
    + destruct (bool_decide _); [|done]. destruct (fs_queue s1 !! m) as [[|u q]|]; try done.
      injection H2 as <- <-. by apply Hsame.
    + destruct (fs_lock s1); [done|]. destruct (fs_replays s1 !! k) as [[[|] n]|]; try done.
      injection H2 as <- <-. by apply Hsame.
Qed.

(** ** Progress of the loop *)

Definition measure (l : floop) : nat :=
  match l with
  | LIdle | LEnded => 0
  | LPublish => 1
  | LStart todo => 2 + size todo
  | LBuild todo cfg => 3 + length todo + size (cfg_names cfg)
  | LCancelled cfg => 4 + length cfg + size (cfg_names cfg)
  | LTaken cfg => 5 + length cfg + size (cfg_names cfg)
  end.

Lemma own_step_decreases s l s' ev : own l -> fstep s l = Some (s', ev) -> measure (fs_loop s') < measure (fs_loop s).
Proof.
  intros [->|[n ->]] H; simpl in H.
  - destruct (loop_step s) as [s1|] eqn:E; [|done]. injection H as <- <-. unfold loop_step in E.
    destruct (fs_loop s) as [|cfg|cfg|[|src todo] cfg|todo| |]; try done; try destruct (fs_lock s); try done;
      try destruct (bool_decide _); try done; injection E as <-; simpl; lia.
  - destruct (fs_loop s) as [|cfg|cfg|todo cfg|todo| |]; try done. destruct (bool_decide (n ∈ todo)) eqn:En; [|done].
    apply bool_decide_eq_true in En. injection H as <- <-. simpl.
    assert (size (todo ∖ {[n]}) < size todo); [|lia]. apply subset_size. set_solver.
Qed.

Lemma loop_step_frame s s' : loop_step s = Some s' ->
  fs_done s' = fs_done s /\ fs_lock s' = fs_lock s /\ fs_processed s' = fs_processed s /\ fs_posts s' = fs_posts s /\
  fs_queue s' = fs_queue s /\ fs_replays s' = fs_replays s /\ fs_accepted s' = fs_accepted s /\
  fs_started s' = fs_started s /\ fs_loop s' <> LEnded /\ fs_loop s <> LEnded /\
  (fs_cancelled s' = fs_cancelled s \/ fs_cancelled s' = current s).
Proof.
  unfold loop_step. intros H. destruct (fs_loop s) as [|cfg|cfg|[|src todo] cfg|todo| |] eqn:El; try done;
    try destruct (fs_lock s) eqn:Ek; try done; try destruct (bool_decide _); try done; injection H as <-; simpl;
    repeat split; auto.
Qed.

Lemma own_step_exists s : fs_lock s = None -> fs_loop s <> LIdle -> fs_loop s <> LEnded ->
  exists l s', own l /\ fstep s l = Some (s', []) /\ fs_lock s' = None /\ fs_loop s' <> LEnded.
Proof.
  intros Hl H1 H2.
  assert ((exists s', loop_step s = Some s') \/ exists todo n, fs_loop s = LStart todo /\ n ∈ todo) as [[s' Hs]|(todo & n & El & Hn)].
  { unfold loop_step. rewrite Hl. destruct (fs_loop s) as [|cfg|cfg|[|src todo] cfg|todo| |] eqn:El; try done; eauto.
    destruct (decide (todo = ∅)) as [->|Hne].
    - left. rewrite bool_decide_eq_true_2 by done. eauto.
    - apply set_choose_L in Hne as [n Hn]. right. eauto. }
  - exists Loop, s'. split; [by left|]. simpl. rewrite Hs. apply loop_step_frame in Hs as (_ & -> & _ & _ & _ & _ & _ & _ & ? & _).
    split; [reflexivity|]. done.
  - exists (StartOne n). eexists. split; [right; eauto|]. simpl. rewrite El. rewrite bool_decide_eq_true_2 by done.
    split; [reflexivity|]. done.
Qed.

Lemma own_run_idle s : fs_lock s = None -> fs_loop s <> LEnded ->
  exists ls s', Forall own ls /\ frun s ls = Some (s', []) /\ fs_loop s' = LIdle /\ length ls <= measure (fs_loop s).
Proof.
  remember (measure (fs_loop s)) as k eqn:Hk. revert s Hk. induction (lt_wf k) as [k _ IH]. intros s -> Hl He.
  destruct (decide (measure (fs_loop s) = 0)) as [Hz|Hz].
  - exists [], s. split; [constructor|]. split; [done|]. split; [|simpl; lia]. by destruct (fs_loop s).
  - assert (fs_loop s <> LIdle) as Hni by (by intros Hx; rewrite Hx in Hz).
    destruct (own_step_exists s Hl Hni He) as (l & s1 & Ho & Hs & Hl1 & He1).
    pose proof (own_step_decreases _ _ _ _ Ho Hs) as Hd.
    destruct (IH (measure (fs_loop s1)) Hd s1 eq_refl Hl1 He1) as (ls & s2 & Hf & Hr & Hi & Hlen).
    exists (l :: ls), s2. split; [by constructor|]. cbn [run]. rewrite Hs, Hr. split; [done|]. split; [done|].
    simpl. lia.
Qed.

(** ** Steps keep what they do not touch *)

Lemma start_replays_other s new rs rs' k rp : start_replays s new rs = Some rs' -> rs !! k = Some rp -> rs' !! k = Some rp.
Proof.
  revert rs. induction new as [|[j [l n]] new IH]; simpl; intros rs H Hk.
  - by injection H as <-.
  - destruct (rs !! j) eqn:Ej; [done|]. destruct (targets s l) as [todo|]; [|done]. apply (IH _ H).
    rewrite lookup_insert_ne; [done|]. intros ->. congruence.
Qed.

Lemma finv_cancelled s : finv s -> fs_cancelled s <= current s.
Proof.
  intros [acc Hi]. unfold inv_at in Hi. unfold current.
  destruct (fs_loop s); [destruct Hi|destruct Hi|destruct Hi|destruct Hi as (? & ? & [])|destruct Hi as (? & ? & [])|destruct Hi as (? & [])|destruct Hi];
    rewrite co_accepted0, co_cancelled0, ?app_length; simpl; lia.
Qed.

Lemma dead_step s l s' ev m : finv s -> fstep s l = Some (s', ev) -> ~ ctx_live s m -> ~ ctx_live s' m.
Proof.
  intros Hi Hs Hd [Hl1 Hl2]. apply Hd. pose proof (finv_cancelled s Hi) as Hc. unfold ctx_live.
  enough (fs_done s' = false -> fs_done s = false /\ fs_cancelled s <= fs_cancelled s') as Hx.
  { destruct (Hx Hl1) as [? ?]. split; [done|lia]. }
  clear Hd Hl1 Hl2. destruct l; simpl in Hs.
  - by injection Hs as <- <-.
  - destruct (fs_lock s); [done|]. injection Hs as <- <-. done.
  - destruct (fs_lock s); [done|]. destruct (fs_posts s !! r); [done|]. destruct (bool_decide _); [|done].
    by injection Hs as <- <-.
  - destruct (fs_loop s) eqn:El; try done. destruct (fs_posts s !! r) as [[cfg st]|]; [|done]. by injection Hs as <- <-.
  - destruct (fs_loop s) eqn:El; try done. destruct (fs_done s) eqn:Ed; [|done]. injection Hs as <- <-. simpl. by rewrite Ed.
  - destruct (loop_step s) as [s1|] eqn:E1; [|done]. injection Hs as <- <-.
    apply loop_step_frame in E1 as (-> & _ & _ & _ & _ & _ & _ & _ & _ & _ & [->| ->]); intros ?; split; done || lia.
  - destruct (fs_loop s) eqn:El; try done. destruct (bool_decide (n ∈ todo)) eqn:En; [|done]. by injection Hs as <- <-.
  - destruct (fs_lock s); [done|]. by injection Hs as <- <-.
  - destruct (fs_lock s) as [r'|]; [|done]. destruct (bool_decide _); [|done].
    destruct (start_replays _ _ _); [|done]. by injection Hs as <- <-.
  - destruct (fs_replays s !! k) as [[[|[m' u] todo] n]|]; try done. destruct (bool_decide _); [|done].
    by injection Hs as <- <-.
  - destruct (bool_decide _); [|done]. destruct (fs_queue s !! m0) as [[|u q]|]; try done.
    by injection Hs as <- <-.
  - destruct (fs_lock s); [done|]. destruct (fs_replays s !! k) as [[[|] n]|]; try done.
    by injection Hs as <- <-.
Qed.

(** ** Blocked replays *)

Definition blocked (s : fstate) (k : nat) : Prop :=
  exists m u todo n q, fs_replays s !! k = Some (Replay ((m, u) :: todo) n) /\ ~ ctx_live s m /\
    fs_queue s !! m = Some q /\ queue_cap <= length q.

Lemma blocked_step s l s' ev k : finv s -> fstep s l = Some (s', ev) -> blocked s k -> blocked s' k /\ EvReplayed k ∉ ev.
Proof.
  intros Hi Hs (m & u & todo & n & q & Hr & Hd & Hq & Hc). pose proof (dead_step _ _ _ _ m Hi Hs Hd) as Hd'.
  assert (fs_replays s' = fs_replays s -> fs_queue s' = fs_queue s -> EvReplayed k ∉ ev -> blocked s' k /\ EvReplayed k ∉ ev) as Hsame.
  { intros E1 E2 He. split; [|done]. exists m, u, todo, n, q. by rewrite E1, E2. }
  destruct l; simpl in Hs.
  - injection Hs as <- <-. apply Hsame; set_solver.
  - destruct (fs_lock s); [done|]. injection Hs as <- <-. apply Hsame; set_solver.
  - destruct (fs_lock s); [done|]. destruct (fs_posts s !! r); [done|]. destruct (bool_decide _); [|done].
    injection Hs as <- <-. apply Hsame; set_solver.
  - destruct (fs_loop s) eqn:El; try done. destruct (fs_posts s !! r) as [[cfg st]|]; [|done]. injection Hs as <- <-.
    apply Hsame; set_solver.
  - destruct (fs_loop s) eqn:El; try done. destruct (fs_done s) eqn:Ed; [|done]. injection Hs as <- <-. apply Hsame; set_solver.
  - destruct (loop_step s) as [s1|] eqn:E1; [|done]. injection Hs as <- <-.
    apply loop_step_frame in E1 as (_ & _ & _ & _ & E1 & E2 & _). apply Hsame; [done|done|set_solver].
  - destruct (fs_loop s) eqn:El; try done. destruct (bool_decide (n0 ∈ todo0)) eqn:En; [|done]. injection Hs as <- <-.
    apply Hsame; set_solver.
  - destruct (fs_lock s); [done|]. injection Hs as <- <-. apply Hsame; set_solver.
  - destruct (fs_lock s) as [r'|]; [|done]. destruct (bool_decide _); [|done].
    destruct (start_replays _ _ _) eqn:Es; [|done]. injection Hs as <- <-. split; [|set_solver].
    exists m, u, todo, n, q. simpl. split; [|done]. by eapply start_replays_other.
  - destruct (fs_replays s !! k0) as [[[|[m' u'] todo'] n']|] eqn:Ek; try done. destruct (bool_decide _) eqn:Eb; [|done].
    apply bool_decide_eq_true in Eb. injection Hs as <- <-. split; [|set_solver].
    destruct (decide (m' = m)) as [->|Hne]; [rewrite Hq in Eb; simpl in Eb; lia|].
    assert (k0 <> k) as Hk by (intros ->; rewrite Hr in Ek; congruence).
    exists m, u, todo, n, q. simpl. rewrite !lookup_insert_ne by done. done.
  - destruct (bool_decide (live s m0)) eqn:Eb; [|done]. apply bool_decide_eq_true in Eb as [_ Hlive].
    destruct (fs_queue s !! m0) as [[|u' q']|] eqn:Eq; try done.
    injection Hs as <- <-. split; [|set_solver]. exists m, u, todo, n, q. simpl.
    rewrite lookup_insert_ne; [done|]. intros ->. done.
  - destruct (fs_lock s); [done|]. destruct (fs_replays s !! k0) as [[[|] n']|] eqn:Ek; try done.
    injection Hs as <- <-. assert (k0 <> k) as Hk by (intros ->; rewrite Hr in Ek; congruence). split.
    + exists m, u, todo, n, q. simpl. by rewrite lookup_delete_ne.
    + rewrite elem_of_list_singleton. congruence.
Qed.

Lemma blocked_run ls s s' ev k : finv s -> frun s ls = Some (s', ev) -> blocked s k -> blocked s' k /\ EvReplayed k ∉ ev.
Proof.
  revert s ev. induction ls as [|l ls IH]; intros s ev Hi Hr Hb; cbn [run] in Hr.
  - injection Hr as <- <-. split; [done|]. apply not_elem_of_nil.
  - destruct (fstep s l) as [[s1 e1]|] eqn:E1; [|done]. destruct (frun s1 ls) as [[s2 e2]|] eqn:E2; [|done].
    injection Hr as <- <-. destruct (blocked_step _ _ _ _ _ Hi E1 Hb) as [Hb1 He1].
    destruct (IH _ _ (finv_step _ _ _ _ Hi E1) E2 Hb1) as [Hb2 He2]. split; [done|]. by rewrite not_elem_of_app.
Qed.

(** ** Replays whose managers are at work end *)

Definition targets_started (s : fstate) : Prop :=
  forall k rp m u, fs_replays s !! k = Some rp -> (m, u) ∈ rp_todo rp -> m ∈ fs_started s.

Lemma finv_managers s g n : finv s -> fs_managers s = Some g -> n ∈ cfg_names (default [] (fs_accepted s !! g)) ->
  (g, n) ∈ fs_started s.
Proof.
  intros [acc Hi] Hg Hn.
  assert (forall a c cn (st : mgr -> Prop) v, common s a c cn st v -> fs_managers s = v.2) as Hv.
  { intros a c cn st v []. by rewrite <- co_view0. }
  assert (forall rest c cn, common s (acc ++ rest) c cn (full acc) (view_of acc) -> (g, n) ∈ fs_started s) as Hx.
  { intros rest c cn Hc. pose proof (Hv _ _ _ _ _ Hc) as Hm. destruct Hc. apply co_started0. rewrite Hg in Hm.
    assert (g < length acc) as Hlt. { destruct acc; simpl in Hm; [done|]. injection Hm as ->. simpl. lia. }
    rewrite co_accepted0, lookup_app_l in Hn by done. apply lookup_lt_is_Some_2 in Hlt as [cfg Hcfg].
    exists cfg. split; [done|]. simpl. rewrite Hcfg in Hn. simpl in Hn. by apply elem_of_cfg_names. }
  unfold inv_at in Hi. destruct (fs_loop s).
  - apply (Hx [] (pred (length acc)) (all_sources acc)). by rewrite app_nil_r.
  - by eapply Hx.
  - by eapply Hx.
  - destruct Hi as (dn & _ & Hc). apply Hv in Hc. simpl in Hc. congruence.
  - destruct Hi as (dn & _ & Hc). apply Hv in Hc. simpl in Hc. congruence.
  - destruct Hi as (dn & Hc). apply Hv in Hc. simpl in Hc. congruence.
  - apply (Hx [] (pred (length acc)) (all_sources acc)). by rewrite app_nil_r.
Qed.

Lemma targets_of s l todo m u : finv s -> targets s l = Some todo -> (m, u) ∈ todo -> m ∈ fs_started s.
Proof.
  intros Hi. revert todo. induction l as [|[n v] l IH]; simpl; intros todo Ht Hm.
  - injection Ht as <-. by apply elem_of_nil in Hm.
  - destruct (fs_managers s) as [g|] eqn:Eg; [|done]. destruct (bool_decide _) eqn:Eb; [|done].
    apply bool_decide_eq_true in Eb. destruct (targets s l) as [r|]; [|done]. injection Ht as <-.
    apply elem_of_cons in Hm as [[= -> ->]|Hm]; [by apply finv_managers|]. by apply (IH r).
Qed.

Lemma start_replays_targets s new rs rs' : finv s ->
  (forall k rp m u, rs !! k = Some rp -> (m, u) ∈ rp_todo rp -> m ∈ fs_started s) ->
  start_replays s new rs = Some rs' ->
  forall k rp m u, rs' !! k = Some rp -> (m, u) ∈ rp_todo rp -> m ∈ fs_started s.
Proof.
  intros Hi. revert rs. induction new as [|[j [l n]] new IH]; simpl; intros rs H Hs.
  - by injection Hs as <-.
  - destruct (rs !! j) eqn:Ej; [done|]. destruct (targets s l) as [todo|] eqn:Et; [|done]. refine (IH _ _ Hs).
    intros k rp m u Hk Hm. destruct (decide (j = k)) as [->|Hne].
    + rewrite lookup_insert in Hk. injection Hk as <-. simpl in Hm. by eapply targets_of.
    + rewrite lookup_insert_ne in Hk by done. by eapply H.
Qed.

Lemma targets_step s l s' ev : finv s -> targets_started s -> fstep s l = Some (s', ev) -> targets_started s'.
Proof.
  intros Hi Ht Hs.
  assert (fs_replays s' = fs_replays s -> (forall m, m ∈ fs_started s -> m ∈ fs_started s') -> targets_started s') as Hsame.
  { intros E1 E2 k rp m u Hk Hm. rewrite E1 in Hk. apply E2. by eapply Ht. }
  destruct l; simpl in Hs.
  - injection Hs as <- <-. by apply Hsame.
  - destruct (fs_lock s); [done|]. injection Hs as <- <-. by apply Hsame.
  - destruct (fs_lock s); [done|]. destruct (fs_posts s !! r); [done|]. destruct (bool_decide _); [|done].
    injection Hs as <- <-. by apply Hsame.
  - destruct (fs_loop s) eqn:El; try done. destruct (fs_posts s !! r) as [[cfg st]|]; [|done]. injection Hs as <- <-.
    by apply Hsame.
  - destruct (fs_loop s) eqn:El; try done. destruct (fs_done s) eqn:Ed; [|done]. injection Hs as <- <-. by apply Hsame.
  - destruct (loop_step s) as [s1|] eqn:E1; [|done]. injection Hs as <- <-.
    apply loop_step_frame in E1 as (_ & _ & _ & _ & E1 & E2 & _ & E3 & _). apply Hsame; [done|]. by rewrite E3.
  - destruct (fs_loop s) eqn:El; try done. destruct (bool_decide (n ∈ todo)) eqn:En; [|done]. injection Hs as <- <-.
    apply Hsame; [done|]. simpl. intros m Hm. apply elem_of_app. by left.
  - destruct (fs_lock s); [done|]. injection Hs as <- <-. by apply Hsame.
  - destruct (fs_lock s) as [r'|]; [|done]. destruct (bool_decide _); [|done].
    destruct (start_replays _ _ _) eqn:Es; [|done]. injection Hs as <- <-.
    exact (start_replays_targets _ _ _ _ Hi Ht Es).
  - destruct (fs_replays s !! k) as [[[|[m' u'] todo'] n']|] eqn:Ek; try done. destruct (bool_decide _) eqn:Eb; [|done].
    injection Hs as <- <-. intros j rp m u Hj Hm. simpl in Hj. destruct (decide (k = j)) as [->|Hne].
    + rewrite lookup_insert in Hj. injection Hj as <-. simpl in Hm. apply (Ht j _ m u Ek). simpl. apply elem_of_cons. by right.
    + rewrite lookup_insert_ne in Hj by done. by apply (Ht j rp m u).
  - destruct (bool_decide (live s m)) eqn:Eb; [|done].
    destruct (fs_queue s !! m) as [[|u' q']|] eqn:Eq; try done. injection Hs as <- <-. by apply Hsame.
  - destruct (fs_lock s); [done|]. destruct (fs_replays s !! k) as [[[|] n']|] eqn:Ek; try done.
    injection Hs as <- <-. intros j rp m u Hj Hm. simpl in Hj. apply lookup_delete_Some in Hj as [_ Hj]. by apply (Ht j rp m u).
Qed.

Lemma targets_run ls s evs : frun fixture0 ls = Some (s, evs) -> targets_started s.
Proof.
  induction ls as [|l ls IH] using rev_ind in s, evs |- *.
  - intros [= <- <-]. intros k rp m u Hk. done.
  - intros H. apply run_snoc in H as (s1 & e1 & e2 & H1 & H2 & ->). eapply targets_step; [| |exact H2]; [|by eauto].
    by eapply finv_run.
Qed.

Definition queues_bounded (s : fstate) : Prop := forall m q, fs_queue s !! m = Some q -> length q <= queue_cap.

Lemma queues_step s l s' ev : queues_bounded s -> fstep s l = Some (s', ev) -> queues_bounded s'.
Proof.
  intros Hb Hs. assert (fs_queue s' = fs_queue s -> queues_bounded s') as Hsame by (intros E; unfold queues_bounded; by rewrite E).
  destruct l; simpl in Hs.
  - injection Hs as <- <-. by apply Hsame.
  - destruct (fs_lock s); [done|]. injection Hs as <- <-. by apply Hsame.
  - destruct (fs_lock s); [done|]. destruct (fs_posts s !! r); [done|]. destruct (bool_decide _); [|done].
    injection Hs as <- <-. by apply Hsame.
  - destruct (fs_loop s) eqn:El; try done. destruct (fs_posts s !! r) as [[cfg st]|]; [|done]. injection Hs as <- <-.
    by apply Hsame.
  - destruct (fs_loop s) eqn:El; try done. destruct (fs_done s) eqn:Ed; [|done]. injection Hs as <- <-. by apply Hsame.
  - destruct (loop_step s) as [s1|] eqn:E1; [|done]. injection Hs as <- <-.
    apply loop_step_frame in E1 as (_ & _ & _ & _ & E1 & _). by apply Hsame.
  - destruct (fs_loop s) eqn:El; try done. destruct (bool_decide (n ∈ todo)) eqn:En; [|done]. injection Hs as <- <-.
    by apply Hsame.
  - destruct (fs_lock s); [done|]. injection Hs as <- <-. by apply Hsame.
  - destruct (fs_lock s) as [r'|]; [|done]. destruct (bool_decide _); [|done].
    destruct (start_replays _ _ _) eqn:Es; [|done]. injection Hs as <- <-. by apply Hsame.
  - destruct (fs_replays s !! k) as [[[|[m' u'] todo'] n']|] eqn:Ek; try done. destruct (bool_decide _) eqn:Eb; [|done].
    apply bool_decide_eq_true in Eb. injection Hs as <- <-. intros m q. simpl. destruct (decide (m' = m)) as [->|Hne].
    + rewrite lookup_insert. intros [= <-]. rewrite app_length. simpl. lia.
    + rewrite lookup_insert_ne by done. apply Hb.
  - destruct (bool_decide (live s m)) eqn:Eb; [|done].
    destruct (fs_queue s !! m) as [[|u' q']|] eqn:Eq; try done. injection Hs as <- <-. intros m' q. simpl.
    destruct (decide (m = m')) as [->|Hne].
    + rewrite lookup_insert. intros [= <-]. apply Hb in Eq. simpl in Eq. lia.
    + rewrite lookup_insert_ne by done. apply Hb.
  - destruct (fs_lock s); [done|]. destruct (fs_replays s !! k) as [[[|] n']|] eqn:Ek; try done.
    injection Hs as <- <-. by apply Hsame.
Qed.

Lemma queues_run ls s evs : frun fixture0 ls = Some (s, evs) -> queues_bounded s.
Proof.
  induction ls as [|l ls IH] using rev_ind in s, evs |- *.
  - intros [= <- <-]. intros m q Hk. done.
  - intros H. apply run_snoc in H as (s1 & e1 & e2 & H1 & H2 & ->). eapply queues_step; [|exact H2]. by eauto.
Qed.

Lemma replay_can_end todo : forall s k n, queues_bounded s -> fs_lock s = None ->
  fs_replays s !! k = Some (Replay todo n) -> (forall m u, (m, u) ∈ todo -> live s m) ->
  exists ls s', Forall (fun l => l = Publish k \/ l = ReplayEnd k \/ exists m, l = Consume m) ls /\
    length ls <= 2 * length todo + 1 /\
    frun s ls = Some (s', [EvReplayed k]) /\ fs_processed s' = (fs_processed s + n)%Z.
Proof.
  induction todo as [|[m u] todo IH]; intros s k n Hb Hl Hk Ht.
  - exists [ReplayEnd k]. eexists. split; [by repeat constructor; auto|]. split; [simpl; lia|].
    rewrite run_one. simpl. rewrite Hl, Hk. split; [reflexivity|]. done.
  - assert (live s m) as Hlive by (apply (Ht m u); by left).
    assert (forall s1, queues_bounded s1 -> fs_lock s1 = None -> fs_replays s1 = fs_replays s ->
       fs_done s1 = fs_done s -> fs_cancelled s1 = fs_cancelled s -> fs_started s1 = fs_started s ->
       fs_processed s1 = fs_processed s -> length (default [] (fs_queue s1 !! m)) < queue_cap ->
       exists ls s', Forall (fun l => l = Publish k \/ l = ReplayEnd k \/ exists m, l = Consume m) ls /\
         length ls <= 2 * length todo + 2 /\
         frun s1 ls = Some (s', [EvReplayed k]) /\ fs_processed s' = (fs_processed s + n)%Z) as Hgo.
    { intros s1 Hb1 Hl1 Hr1 Hd1 Hc1 Hs1 Hp1 Hq1.
      assert (exists s2, fstep s1 (Publish k) = Some (s2, []) /\ fs_lock s2 = None /\
         fs_replays s2 !! k = Some (Replay todo n) /\ fs_done s2 = fs_done s /\ fs_cancelled s2 = fs_cancelled s /\
         fs_started s2 = fs_started s /\ fs_processed s2 = fs_processed s) as (s2 & Hs2 & Hl2 & Hr2 & Hd2 & Hc2 & Hst2 & Hp2).
      { eexists. simpl. rewrite Hr1, Hk, bool_decide_eq_true_2 by done. split; [reflexivity|]. simpl.
        by rewrite lookup_insert. }
      destruct (IH s2 k n) as (ls & s' & Hf & Hlen & Hrun & Hproc); [by eapply queues_step|done|done| |].
      { intros m' u' Hm'. unfold live, ctx_live. rewrite Hd2, Hc2, Hst2. apply (Ht m' u'). by right. }
      exists (Publish k :: ls), s'. split; [constructor; auto|]. split; [simpl; lia|]. cbn [run]. rewrite Hs2, Hrun.
      split; [done|]. by rewrite Hproc, Hp2. }
    destruct (decide (length (default [] (fs_queue s !! m)) < queue_cap)) as [Hc|Hc].
    + destruct (Hgo s) as (ls & s' & Hf & Hlen & Hrun & Hproc); try done. exists ls, s'. simpl. repeat split; try done. lia.
    + destruct (fs_queue s !! m) as [[|x q]|] eqn:Eq; simpl in Hc; [unfold queue_cap in Hc; lia| |unfold queue_cap in Hc; lia].
      assert (length q < queue_cap) as Hq by (apply Hb in Eq; simpl in Eq; lia).
      assert (exists s1, fstep s (Consume m) = Some (s1, []) /\ fs_lock s1 = None /\ fs_replays s1 = fs_replays s /\
         fs_done s1 = fs_done s /\ fs_cancelled s1 = fs_cancelled s /\ fs_started s1 = fs_started s /\
         fs_processed s1 = fs_processed s /\ length (default [] (fs_queue s1 !! m)) < queue_cap)
        as (s1 & Hs1 & Hl1 & Hr1 & Hd1 & Hc1 & Hst1 & Hp1 & Hq1).
      { eexists. simpl. rewrite bool_decide_eq_true_2 by done. rewrite Eq. split; [reflexivity|]. simpl.
        by rewrite lookup_insert. }
      destruct (Hgo s1) as (ls & s' & Hf & Hlen & Hrun & Hproc); try done; [by eapply queues_step|].
      exists (Consume m :: ls), s'. split; [constructor; eauto|]. split; [simpl; lia|]. cbn [run]. rewrite Hs1, Hrun. done.
Qed.

Lemma publish_many j : forall s k m u todo n q,
  fs_replays s !! k = Some (Replay (repeat (m, u) j ++ todo) n) -> default [] (fs_queue s !! m) = q ->
  length q + j <= queue_cap ->
  exists s', frun s (repeat (Publish k) j) = Some (s', []) /\ fs_replays s' !! k = Some (Replay todo n) /\
    default [] (fs_queue s' !! m) = q ++ repeat u j /\ fs_cancelled s' = fs_cancelled s.
Proof.
  induction j as [|j IH]; intros s k m u todo n q Hk Hq Hc.
  - exists s. split; [done|]. split; [done|]. split; [|done]. by rewrite app_nil_r.
  - cbn [repeat app] in Hk. assert (fstep s (Publish k) =
      Some (set_replays (<[m := q ++ [u]]> (fs_queue s)) (<[k := Replay (repeat (m, u) j ++ todo) n]> (fs_replays s)) (fs_processed s) s, [])) as Hs.
    { simpl. rewrite Hk, Hq, bool_decide_eq_true_2 by lia. done. }
    destruct (IH (set_replays (<[m := q ++ [u]]> (fs_queue s)) (<[k := Replay (repeat (m, u) j ++ todo) n]> (fs_replays s)) (fs_processed s) s)
      k m u todo n (q ++ [u])) as (s' & Hr & H1 & H2 & H3).
    + simpl. by rewrite lookup_insert.
    + simpl. by rewrite lookup_insert.
    + rewrite app_length. simpl. lia.
    + exists s'. cbn [repeat run]. rewrite Hs, Hr. split; [done|]. split; [done|]. split; [|done]. by rewrite H2, <- app_assoc.
Qed.

(** ** The mutex *)

Lemma locked_step s l s' ev r : fstep s l = Some (s', ev) -> fs_lock s = Some r ->
  (forall new, l <> FlowsEnd r new) ->
  fs_lock s' = Some r /\ fs_status s' = fs_status s /\ fs_managers s' = fs_managers s /\ fs_processed s' = fs_processed s /\
  (forall r' st, EvStatus r' st ∉ ev) /\ (forall k, EvReplayed k ∉ ev) /\
  (forall r' x, fs_posts s' !! r' = Some x -> fs_posts s !! r' = Some x).
Proof.
  intros Hs Hk Hl.
  assert (forall r' st, EvStatus r' st ∉ @nil fevent) as N1 by (intros; apply not_elem_of_nil).
  assert (forall k, EvReplayed k ∉ @nil fevent) as N2 by (intros; apply not_elem_of_nil).
  destruct l; simpl in Hs; rewrite ?Hk in Hs; try done.
  - by injection Hs as <- <-.
  - destruct (fs_loop s) eqn:El; try done. destruct (fs_posts s !! r0) as [[cfg st]|]; [|done]. injection Hs as <- <-. simpl.
    split; [done|]. do 3 (split; [done|]). split; [intros ? ?; by rewrite elem_of_list_singleton|].
    split; [intros ?; by rewrite elem_of_list_singleton|]. intros r' x Hx. by apply lookup_delete_Some in Hx as [_ Hx].
  - destruct (fs_loop s) eqn:El; try done. destruct (fs_done s) eqn:Ed; [|done]. by injection Hs as <- <-.
  - destruct (loop_step s) as [s1|] eqn:E1; [|done]. injection Hs as <- <-. unfold loop_step in E1. rewrite Hk in E1.
    destruct (fs_loop s) as [|cfg|cfg|[|src todo] cfg|todo| |]; try done; try destruct (bool_decide _); try done;
      by injection E1 as <-.
  - destruct (fs_loop s) eqn:El; try done. destruct (bool_decide (n ∈ todo)) eqn:En; [|done]. by injection Hs as <- <-.
  - destruct (bool_decide (r0 = r)) eqn:Er; [|done]. apply bool_decide_eq_true in Er as ->. by destruct (Hl new).
  - destruct (fs_replays s !! k) as [[[|[m' u'] todo'] n']|] eqn:Ek; try done. destruct (bool_decide _) eqn:Eb; [|done].
    by injection Hs as <- <-.
  - destruct (bool_decide (live s m)) eqn:Eb; [|done].
    destruct (fs_queue s !! m) as [[|u' q']|] eqn:Eq; try done. by injection Hs as <- <-.
Qed.

Lemma locked_run ls s s' ev r : frun s ls = Some (s', ev) -> fs_lock s = Some r ->
  (forall new, FlowsEnd r new ∉ ls) ->
  fs_lock s' = Some r /\ fs_status s' = fs_status s /\ fs_managers s' = fs_managers s /\ fs_processed s' = fs_processed s /\
  (forall r' st, EvStatus r' st ∉ ev) /\ (forall k, EvReplayed k ∉ ev) /\
  (forall r' x, fs_posts s' !! r' = Some x -> fs_posts s !! r' = Some x).
Proof.
  revert s ev. induction ls as [|l ls IH]; intros s ev Hr Hk Hl; cbn [run] in Hr.
  - injection Hr as <- <-. repeat split; try done; intros; apply not_elem_of_nil.
  - destruct (fstep s l) as [[s1 e1]|] eqn:E1; [|done]. destruct (frun s1 ls) as [[s2 e2]|] eqn:E2; [|done].
    injection Hr as <- <-.
    destruct (locked_step _ _ _ _ _ E1 Hk) as (H1 & H2 & H3 & H4 & H5 & H6 & H7).
    { intros new ->. apply (Hl new). by left. }
    destruct (IH _ _ E2 H1) as (G1 & G2 & G3 & G4 & G5 & G6 & G7).
    { intros new Hn. apply (Hl new). by right. }
    split; [done|]. split; [congruence|]. split; [congruence|]. split; [congruence|].
    split; [intros; by rewrite not_elem_of_app|]. split; [intros; by rewrite not_elem_of_app|]. eauto.
Qed.

(** ** After the end of the loop *)

Lemma ended_step s l s' ev : fstep s l = Some (s', ev) -> fs_loop s = LEnded ->
  fs_loop s' = LEnded /\ answers ev = [].
Proof.
  intros Hs He. destruct l; simpl in Hs; rewrite ?He in Hs; try done.
  - by injection Hs as <- <-.
  - destruct (fs_lock s); [done|]. by injection Hs as <- <-.
  - destruct (fs_lock s); [done|]. destruct (fs_posts s !! r); [done|]. destruct (bool_decide _); [|done].
    by injection Hs as <- <-.
  - unfold loop_step in Hs. rewrite He in Hs. done.
  - destruct (fs_lock s); [done|]. by injection Hs as <- <-.
  - destruct (fs_lock s) as [r'|]; [|done]. destruct (bool_decide _); [|done].
    destruct (start_replays _ _ _) eqn:Es; [|done]. by injection Hs as <- <-.
  - destruct (fs_replays s !! k) as [[[|[m' u'] todo'] n']|] eqn:Ek; try done. destruct (bool_decide _) eqn:Eb; [|done].
    by injection Hs as <- <-.
  - destruct (bool_decide (live s m)) eqn:Eb; [|done].
    destruct (fs_queue s !! m) as [[|u' q']|] eqn:Eq; try done. by injection Hs as <- <-.
  - destruct (fs_lock s); [done|]. destruct (fs_replays s !! k) as [[[|] n']|] eqn:Ek; try done. by injection Hs as <- <-.
Qed.

Lemma ended_run ls s s' ev : frun s ls = Some (s', ev) -> fs_loop s = LEnded -> answers ev = [].
Proof.
  revert s ev. induction ls as [|l ls IH]; intros s ev Hr He; cbn [run] in Hr.
  - by injection Hr as <- <-.
  - destruct (fstep s l) as [[s1 e1]|] eqn:E1; [|done]. destruct (frun s1 ls) as [[s2 e2]|] eqn:E2; [|done].
    injection Hr as <- <-. destruct (ended_step _ _ _ _ E1 He) as [H1 H2]. unfold answers. rewrite omap_app.
    fold (answers e1) (answers e2). rewrite H2. simpl. by eapply IH.
Qed.

(** ** The status in an answer *)

Definition seen (ls : list flabel) (r : nat) (st : fstatus) : Prop :=
  exists ls1 cfg ls2 s1 ev1, ls = ls1 ++ Post r cfg :: ls2 /\ frun fixture0 ls1 = Some (s1, ev1) /\ fstep s1 (GetStatus r) = Some (s1, [EvStatus r st]).

Lemma seen_more ls l r st : seen ls r st -> seen (ls ++ [l]) r st.
Proof. intros (ls1 & cfg & ls2 & s1 & ev1 & -> & H1 & H2). exists ls1, cfg, (ls2 ++ [l]), s1, ev1. split; [by rewrite <- app_assoc|done]. Qed.

Lemma posts_step s l s' ev r cfg st : fstep s l = Some (s', ev) -> fs_posts s' !! r = Some (cfg, st) ->
  fs_posts s !! r = Some (cfg, st) \/ l = Post r cfg /\ fs_lock s = None /\ st = fs_status s.
Proof.
  intros H Hp. destruct l; cbn in H.
  3: { destruct (fs_lock s) eqn:El; [discriminate H|]. destruct (fs_posts s !! r0) eqn:Ep; [discriminate H|]. case_bool_decide; [|discriminate H]. injection H as <- <-.
       cbn in Hp. apply lookup_insert_Some in Hp as [[-> [= <- <-]]|[_ Hp]]; [by right|by left]. }
  3: { destruct (fs_loop s); try discriminate H. destruct (fs_posts s !! r0) as [[c0 st0]|]; [|discriminate H]. injection H as <- <-. cbn in Hp. apply lookup_delete_Some in Hp as [_ Hp]. by left. }
  all: left; repeat match type of H with context [match ?x with _ => _ end] => destruct x; try discriminate H end; try (injection H as <- <-; exact Hp).
  unfold loop_step in H. repeat match type of H with context [match ?x with _ => _ end] => destruct x; try discriminate H end; by injection H as <- <-.
Qed.

Lemma answer_status ls s evs r st : frun fixture0 ls = Some (s, evs) -> EvAnswer r st ∈ evs -> seen ls r st.
Proof.
  intros Hr. cut ((forall r cfg st, fs_posts s !! r = Some (cfg, st) -> seen ls r st) /\ (forall r st, EvAnswer r st ∈ evs -> seen ls r st)); [intros [_ H]; apply H|].
  revert s evs Hr. induction ls as [|l ls IH] using rev_ind; intros s evs Hr.
  { injection Hr as <- <-. split; [done|]. by intros ? ? ?%elem_of_nil. }
  apply run_snoc in Hr as (s1 & ev1 & ev2 & H1 & H2 & ->). destruct (IH _ _ H1) as [IH1 IH2]. split.
  - intros r0 cfg st0 Hp. destruct (posts_step _ _ _ _ _ _ _ H2 Hp) as [Hp'|(-> & Hl & ->)]; [by eapply seen_more, IH1|].
    exists ls, cfg, [], s1, ev1. split; [done|]. split; [done|]. cbn. by rewrite Hl.
  - intros r0 st0 [Hin|Hin]%elem_of_app; [by apply seen_more, IH2|]. apply seen_more.
    destruct l; cbn in H2; repeat match type of H2 with context [match ?x with _ => _ end] => destruct x eqn:?; try discriminate H2 end;
      try (injection H2 as <- <-); try (by apply elem_of_nil in Hin); try (apply elem_of_list_singleton in Hin; try discriminate Hin; injection Hin as -> ->; by eapply IH1).
    destruct (loop_step s1); [|discriminate H2]. injection H2 as <- <-. by apply elem_of_nil in Hin.
Qed.

(** ** Requests are taken *)

Lemma done_step s l s' ev : fstep s l = Some (s', ev) -> l <> Stop -> fs_done s' = fs_done s /\ (fs_loop s' = LEnded -> fs_loop s = LEnded \/ fs_done s = true).
Proof.
  intros H Hl. destruct l; cbn in H; try done.
  - destruct (fs_lock s); [discriminate H|]. injection H as <- <-. auto.
  - destruct (fs_lock s); [discriminate H|]. destruct (fs_posts s !! r); [discriminate H|]. case_bool_decide; [|discriminate H]. injection H as <- <-. cbn. auto.
  - destruct (fs_loop s); try discriminate H. destruct (fs_posts s !! r) as [[c st]|]; [|discriminate H]. injection H as <- <-. cbn. split; [done|discriminate].
  - destruct (fs_loop s); try discriminate H. destruct (fs_done s) eqn:E; [|discriminate H]. injection H as <- <-. cbn. auto.
  - unfold loop_step in H. destruct (fs_loop s) as [|cfg|cfg|[|src todo] cfg|todo| |] eqn:El; cbn in H; try discriminate H.
    + injection H as <- <-. cbn. split; [done|discriminate].
    + destruct (fs_lock s); [discriminate H|]. injection H as <- <-. cbn. split; [done|discriminate].
    + injection H as <- <-. cbn. split; [done|discriminate].
    + injection H as <- <-. cbn. split; [done|discriminate].
    + case_bool_decide; [|discriminate H]. injection H as <- <-. cbn. split; [done|discriminate].
    + destruct (fs_lock s); [discriminate H|]. injection H as <- <-. cbn. split; [done|discriminate].
  - destruct (fs_loop s); try discriminate H. case_bool_decide; [|discriminate H]. injection H as <- <-. cbn. split; [done|discriminate].
  - destruct (fs_lock s); [discriminate H|]. injection H as <- <-. auto.
  - destruct (fs_lock s); [|discriminate H]. case_bool_decide; [|discriminate H]. destruct (start_replays _ _ _); [|discriminate H]. injection H as <- <-. auto.
  - destruct (fs_replays s !! k) as [[[|[m u] todo] n]|]; try discriminate H. case_bool_decide; [|discriminate H]. injection H as <- <-. auto.
  - case_bool_decide; [|discriminate H]. destruct (fs_queue s !! m) as [[|]|]; try discriminate H. injection H as <- <-. auto.
  - destruct (fs_lock s); [discriminate H|]. destruct (fs_replays s !! k) as [[[|] n]|]; try discriminate H. injection H as <- <-. auto.
Qed.

Lemma goes_on ls s evs : frun fixture0 ls = Some (s, evs) -> Stop ∉ ls -> fs_done s = false /\ fs_loop s <> LEnded.
Proof.
  revert s evs. induction ls as [|l ls IH] using rev_ind; intros s evs Hr Hn; [by injection Hr as <- <-|].
  apply run_snoc in Hr as (s1 & ev1 & ev2 & H1 & H2 & ->). destruct (IH _ _ H1) as [Hd He]; [intros ?; apply Hn, elem_of_app; by left|].
  destruct (done_step _ _ _ _ H2) as [-> Hx]; [intros ->; apply Hn, elem_of_app; right; left|]. split; [done|].
  intros E. destruct (Hx E); congruence.
Qed.

Lemma post_kept s l s' ev r x : fstep s l = Some (s', ev) -> l <> Take r -> fs_posts s !! r = Some x -> fs_posts s' !! r = Some x.
Proof.
  intros H Hn Hp. destruct l; cbn in H; unfold loop_step in H; try (repeat case_match; try discriminate H; cbn in H; try discriminate H; injection H as <- <-; exact Hp).
  - destruct (fs_lock s); [discriminate H|]. destruct (fs_posts s !! r0) eqn:E; [discriminate H|]. case_bool_decide; [|discriminate H]. injection H as <- <-. cbn.
    rewrite lookup_insert_ne; [done|congruence].
  - destruct (fs_loop s); try discriminate H. destruct (fs_posts s !! r0) as [[c st]|]; [|discriminate H]. injection H as <- <-. cbn. rewrite lookup_delete_ne; [done|congruence].
Qed.

Lemma post_stays b : forall s s' ev r x, frun s b = Some (s', ev) -> Take r ∉ b -> fs_posts s !! r = Some x -> fs_posts s' !! r = Some x.
Proof.
  induction b as [|l b IH]; intros s s' ev r x Hr Hn Hp; [by injection Hr as <- <-|].
  cbn [run] in Hr. destruct (fstep s l) as [[s1 e1]|] eqn:E1; [|discriminate Hr]. destruct (frun s1 b) as [[s2 e2]|] eqn:E2; [|discriminate Hr]. injection Hr as <- <-.
  eapply IH; [exact E2|intros ?; apply Hn; by right|]. eapply post_kept; [exact E1| |done]. intros ->. apply Hn. left.
Qed.

Lemma post_waits ls s evs a r cfg b : frun fixture0 ls = Some (s, evs) -> ls = a ++ Post r cfg :: b -> Take r ∉ b -> exists st, fs_posts s !! r = Some (cfg, st).
Proof.
  intros Hr -> Hn. rewrite run_app in Hr. destruct (frun fixture0 a) as [[s1 e1]|]; [|discriminate Hr]. cbn [run] in Hr.
  destruct (fstep s1 (Post r cfg)) as [[s2 e2]|] eqn:E2; [|discriminate Hr]. destruct (frun s2 b) as [[s3 e3]|] eqn:E3; [|discriminate Hr]. injection Hr as <- <-.
  cbn in E2. destruct (fs_lock s1); [discriminate E2|]. destruct (fs_posts s1 !! r); [discriminate E2|]. case_bool_decide; [|discriminate E2]. injection E2 as <- <-.
  exists (fs_status s1). eapply post_stays; [exact E3|done|]. cbn. by rewrite lookup_insert.
Qed.

(** ** Who holds the mutex *)

Lemma lock_step s l s' ev q : fstep s l = Some (s', ev) -> fs_lock s' = Some q ->
  l = FlowsBegin q \/ fs_lock s = Some q /\ forall new, l <> FlowsEnd q new.
Proof.
  intros H Hq. destruct l; cbn [fstep] in H.
  - injection H as <- _. right. by split.
  - destruct (fs_lock s) eqn:E; [done|]. injection H as <- _. congruence.
  - destruct (fs_lock s) eqn:E; [done|]. destruct (fs_posts s !! r); [done|]. destruct (bool_decide _); [|done]. injection H as <- _. cbn in Hq. congruence.
  - destruct (fs_loop s); try done. destruct (fs_posts s !! r) as [[cfg st]|]; [|done]. injection H as <- _. right. by split.
  - destruct (fs_loop s); try done. destruct (fs_done s); [|done]. injection H as <- _. right. by split.
  - destruct (loop_step s) as [s1|] eqn:E1; [|done]. injection H as <- _. right. split; [|done]. apply loop_step_frame in E1 as (_ & E1 & _). congruence.
  - destruct (fs_loop s); try done. destruct (bool_decide _); [|done]. injection H as <- _. right. by split.
  - destruct (fs_lock s) eqn:E; [done|]. injection H as <- _. cbn in Hq. injection Hq as ->. by left.
  - destruct (fs_lock s) as [r'|] eqn:E; [|done]. destruct (bool_decide _); [|done]. destruct (start_replays _ _ _); [|done]. injection H as <- _. discriminate Hq.
  - destruct (fs_replays s !! k) as [[[|[m' u'] todo'] n']|]; try done. destruct (bool_decide _); [|done]. injection H as <- _. right. by split.
  - destruct (bool_decide _); [|done]. destruct (fs_queue s !! m) as [[|u' q']|]; try done. injection H as <- _. right. by split.
  - destruct (fs_lock s) eqn:E; [done|]. destruct (fs_replays s !! k) as [[[|] n']|]; try done. injection H as <- _. cbn in Hq. congruence.
Qed.

Lemma lock_history ls s evs q : frun fixture0 ls = Some (s, evs) -> fs_lock s = Some q ->
  exists a b, ls = a ++ FlowsBegin q :: b /\ forall new, FlowsEnd q new ∉ b.
Proof.
  revert s evs. induction ls as [|l ls IH] using rev_ind; intros s evs Hr Hq. { injection Hr as <- _. discriminate Hq. }
  rewrite run_app in Hr. destruct (frun fixture0 ls) as [[s1 e1]|] eqn:E1; [|done]. cbn [run] in Hr.
  destruct (fstep s1 l) as [[s2 e2]|] eqn:E2; [|done]. injection Hr as <- _. destruct (lock_step _ _ _ _ q E2 Hq) as [->|[Hl Hn]].
  - exists ls, []. split; [done|]. intros. apply not_elem_of_nil.
  - destruct (IH s1 e1 eq_refl Hl) as (a & b & -> & Hb). exists a, (b ++ [l]). split; [by rewrite <- app_assoc|].
    intros new [H|H]%elem_of_app; [by eapply Hb|]. apply elem_of_list_singleton in H. by eapply Hn.
Qed.
