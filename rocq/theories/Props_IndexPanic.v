(** Index functions that panic: C118.  [touches], [hurt] and [fails] are at the top of
    IndexPanicFacts.v ([fails pf x]: an index function panics on [x]); [contents] is that of C15
    (SpecStore.v); [run_op] is the store of C15-C31, whose index functions return. *)
From Coq Require Import ZArith NArith Ascii String Lia.
From stdpp Require Import base gmap strings list.
From Verif Require Import GoBase Encoding Records Env SyncMap SyncMapFacts Tokens Cache SpecStore ListFacts StoreExamples IndexPanic IndexPanicFacts.

Local Open Scope list_scope.

(** ** C118 *)

(** States a store can be in, with the calls made and what they returned. *)
Definition came_to (pf : pconfig) (s : items) (h : list (op * out)) : Prop :=
  exists l rs evs, envs_ok l /\ prun_from pf new_simap l = (s, rs, evs) /\ h = zip (snd <$> l) rs.

Lemma came_neat pf s h : came_to pf s h -> neat (sm_indices s).
Proof. intros (l & rs & evs & Hok & Hr & ->). by eapply prun_inv. Qed.

(** A call does to the entries what it does when index functions return, and
    returns the same with the same events; or it panics, the entries are changed
    all the same, and no handler is called. *)
Theorem C118_applied pf s h e o s' r ev s1 r1 ev1 : came_to pf s h -> env_ok e -> plain_call o ->
  prun_op pf e s o = (s', r, ev) -> run_op (pf_cf pf) e s o = (s1, r1, ev1) ->
  contents s' = contents s1 /\ (r = r1 /\ ev = ev1 \/ r = OutPanic /\ ev = []).
Proof. intros Hc He. apply same_but_index; [done|by eapply came_neat]. Qed.

(** It panics just if an index function panics on the entry it writes or on the
    one it replaces or deletes (or the call panics anyway). *)
Theorem C118_panics pf s h e o s' r ev s1 r1 ev1 : came_to pf s h -> env_ok e -> plain_call o -> (forall l, o <> OReplace l) ->
  prun_op pf e s o = (s', r, ev) -> run_op (pf_cf pf) e s o = (s1, r1, ev1) ->
  (r = OutPanic <-> r1 = OutPanic \/ exists k, contents s !! k <> contents s1 !! k /\
     ((exists x n, contents s !! k = Some (x, n) /\ fails pf x) \/ exists x n, contents s1 !! k = Some (x, n) /\ fails pf x)).
Proof. intros Hc He. apply one_panics; [done|by eapply came_neat]. Qed.

(** Replace does if an index function panics on one of the entries given. *)
Theorem C118_replace_panics pf s e l s' r ev s1 r1 ev1 : env_ok e ->
  prun_op pf e s (OReplace l) = (s', r, ev) -> run_op (pf_cf pf) e s (OReplace l) = (s1, r1, ev1) ->
  (r = OutPanic <-> r1 = OutPanic \/ r1 = OutErr None /\ exists k x n, contents s1 !! k = Some (x, n) /\ fails pf x).
Proof. intros He. by apply replace_panics. Qed.

(** So an entry an index function panics on cannot be changed or deleted without
    another panic, though it is changed or deleted. *)
Theorem C118_again pf s h e k x n y m : came_to pf s h -> env_ok e -> contents s !! k = Some (x, n) -> fails pf x ->
  cf_key (pf_cf pf) y = Ok k ->
  (exists s', prun_op pf e s (ODelete y) = (s', OutPanic, []) /\ contents s' = delete k (contents s)) /\
  (match get_conditional m with Ok [] => True | Ok conds => conds = [WhenVersionMatches n] | _ => False end ->
   exists s', prun_op pf e s (OUpdate y m) = (s', OutPanic, []) /\ contents s' = <[k := (with_updated (env_now e) y, (n + 1)%Z)]> (contents s)).
Proof.
  intros Hc He Hk Hf Hy. unfold contents in Hk. rewrite lookup_fmap in Hk. destruct (sm_items s !! k) as [v|] eqn:Ev; [|done]. cbn in Hk. injection Hk as Hx Hn.
  pose proof (came_neat _ _ _ Hc) as Hneat. split.
  - cbn [prun_op]. unfold premove. rewrite Hy, Ev. destruct (pdelete pf e k v s) as [s2 p] eqn:E.
    destruct (pdelete_spec _ _ _ _ _ _ _ He Hneat Ev E) as (Hi & _ & _ & _ & Hp). subst x. apply Hp in Hf as ->.
    exists s2. split; [done|]. unfold contents. by rewrite Hi, fmap_delete.
  - intros Hm. cbn [prun_op]. unfold pupdate. rewrite Hy. destruct (get_conditional m) as [conds| |]; [|done..].
    assert (check_conds conds (sm_items s !! k) = None) as ->.
    { destruct conds; [done|]. rewrite Hm, Ev. cbn. rewrite Hn. by rewrite Z.eqb_refl. }
    destruct (pstore pf e k _ s) as [s2 p] eqn:E. destruct (pstore_spec _ _ _ _ _ _ _ He Hneat E) as (Hi & _ & _ & _ & Hp).
    assert (p = true) as ->. { apply Hp. right. exists v. split; [done|]. by subst x. }
    exists s2. split; [done|]. unfold contents. rewrite Hi, fmap_insert, Ev. cbn. by rewrite Hn.
Qed.

(** Index lookups: as for C20 for every key that is not hurt.  What a lookup
    returns is the entries of some keys, each once, blank entries for those that
    have none. *)
Theorem C118_index pf s h e name f x vals : came_to pf s h -> env_ok e -> pf_indexers pf !! name = Some f -> f x = Some vals ->
  exists ks, prun_op pf e s (OIndex name x None) = (s, OutSet ((fun k => match entry_at (contents s) k with Some y => y | None => zero_entry end) <$> ks) "" None, []) /\
    NoDup ks /\ forall k, ~ hurt pf h k -> k ∈ ks <-> exists y vals' b, entry_at (contents s) k = Some y /\ f y = Some vals' /\ b ∈ vals /\ b ∈ vals'.
Proof.
  intros (l & rs & evs & Hok & Hr & ->) He Hf Hx. destruct (prun_inv _ _ _ _ _ Hok Hr) as [Hn Hex].
  destruct (pindex_spec pf e s name f x vals He Hf Hx) as (ks & H1 & H2 & H3). exists ks. split; [done|]. split; [done|]. intros k Hk. rewrite H3.
  setoid_rewrite (Hex k Hk name _ (mk_is_Some _ _ Hf)). unfold listed, entry_at, contents. setoid_rewrite lookup_fmap. split.
  - intros (b & Hb & f' & v & vs & Hf' & Hv & Hvs & Hb'). injection (eq_trans (eq_sym Hf) Hf') as <-. exists (vc_res v), vs, b. by rewrite Hv.
  - intros (y & vs & b & Hy & Hvs & Hb & Hb'). destruct (sm_items s !! k) as [v|]; [|done]. injection Hy as <-. exists b. split; [done|]. by exists f, v, vs.
Qed.

(** A lookup panics just if the index function panics on the entry given (or, with a
    selector, as a list does: C24); it changes nothing. *)
Theorem C118_lookup_panics pf s e name x : 
  (forall sel f, pf_indexers pf !! name = Some f -> f x = None -> prun_op pf e s (OIndex name x sel) = (s, OutPanic, [])) /\
  (forall sel, pf_indexers pf !! name = None -> prun_op pf e s (OIndex name x sel) = (s, OutSet [] "" (Some SNoIndex), [])) /\
  (forall s' r ev, prun_op pf e s (OIndex name x None) = (s', r, ev) -> s' = s /\ ev = [] /\ (r = OutPanic <-> exists f, pf_indexers pf !! name = Some f /\ f x = None)).
Proof.
  split; [|split].
  - intros sel f Hf Hx. unfold prun_op, pindex. by rewrite Hf, Hx.
  - intros sel Hf. unfold prun_op, pindex. match goal with |- context [match ?m with Some _ => _ | None => _ end] => replace m with (@None pindexer) by (symmetry; exact Hf) end. done.
  - intros s' r ev H. unfold prun_op in H. injection H as <- <- <-. split; [done|]. split; [done|]. unfold pindex.
    destruct (pf_indexers pf !! name) as [f|]; [|split; [done|by intros (f & ? & ?)]].
    destruct (f x) eqn:Ex; split; try done; [intros (g & [= <-] & E); congruence|eauto].
Qed.

(** And index values as for C21, but for hurt keys. *)
Theorem C118_values pf s h e name f : came_to pf s h -> env_ok e -> pf_indexers pf !! name = Some f ->
  exists l, prun_op pf e s (OIndexValues name) = (s, OutValues l None, []) /\ NoDup l /\
    (forall k y vals b, ~ hurt pf h k -> entry_at (contents s) k = Some y -> f y = Some vals -> b ∈ vals -> b ∈ l) /\
    (forall b, b ∈ l -> exists k, ~ hurt pf h k -> exists y vals, entry_at (contents s) k = Some y /\ f y = Some vals /\ b ∈ vals).
Proof.
  intros (l & rs & evs & Hok & Hr & ->) He Hf. destruct (prun_inv _ _ _ _ _ Hok Hr) as [Hn Hex].
  destruct (pvalues_spec pf e s name f He Hn Hf) as (vs & H1 & H2 & H3). exists vs. split; [done|]. split; [done|]. split.
  - intros k y vals b Hk Hy Hv Hb. apply H3. exists k. apply (Hex k Hk name b (mk_is_Some _ _ Hf)). unfold entry_at, contents in Hy. rewrite lookup_fmap in Hy.
    destruct (sm_items s !! k) as [v|] eqn:Ev; [|done]. injection Hy as <-. by exists f, v, vals.
  - intros b Hb. apply H3 in Hb as (k & Hm). exists k. intros Hh.
    apply (Hex k Hh name b (mk_is_Some _ _ Hf)) in Hm as (f' & v & vals & Hf' & Hv & Hvs & Hb'). injection (eq_trans (eq_sym Hf) Hf') as <-.
    exists (vc_res v), vals. split; [|done]. unfold entry_at, contents. by rewrite lookup_fmap, Hv.
Qed.

(** If no call panicked, or none since a Replace that succeeded, no key is hurt. *)
Theorem C118_healed pf h1 h2 k : (h1 = [] \/ exists h0 l, h1 = h0 ++ [(OReplace l, OutErr None)]) -> (forall o, (o, OutPanic) ∉ h2) -> ~ hurt pf (h1 ++ h2) k.
Proof.
  intros H1 H2 (a & o & b & E & _ & Hno). assert ((o, OutPanic) ∈ h1 /\ exists c, b = c ++ h2) as [Hin (c & ->)].
  { apply app_eq_inv in E as [(c & -> & E)|(c & -> & E)].
    - destruct c as [|p c]; cbn in E.
      + destruct (H2 o). rewrite <- E. left.
      + injection E as <- ->. split; [set_solver|by exists c].
    - destruct (H2 o). rewrite E. set_solver. }
  assert (length (a ++ (o, OutPanic) :: c ++ h2) = length (h1 ++ h2)) as Hl by (by rewrite E).
  assert (h1 = a ++ (o, OutPanic) :: c) as ->. { apply (app_inv_tail h2). rewrite E. by rewrite <- app_assoc. }
  destruct H1 as [H1|(h0 & l & H1)]; [by destruct a|].
  destruct c as [|p c] using rev_ind.
  - apply app_inj_tail in H1 as [_ H1]. discriminate H1.
  - clear IHc. rewrite app_comm_cons, app_assoc in H1. apply app_inj_tail in H1 as [_ ->]. apply (Hno l). set_solver.
Qed.

(** An index function that panics on one source, besides the one by site. *)
Definition ex_bad : entry := ex_entry "s1" "bad".
Definition picky : pindexer := fun x =>
  if bool_decide (source_string (m_source (e_meta x)) = source_string (m_source (e_meta ex_bad))) then None else Some (source_index x).
Definition ex_pf : pconfig := PConfig ex_cf (<[index_by_source := picky]> {[ index_by_site := fun x => Some (site_index x) ]}).
Definition ex_calls : list (env * op) :=
  [(at_time 1, OAdd (ex_entry "s1" "r1")); (at_time 2, OAdd (ex_entry "s2" "r1")); (at_time 3, OUpdate ex_bad None)].

(** The same, with maps visited the other way round. *)
Definition backwards (e : env) : env := Env (env_now e) (fun site A l => reverse (env_iter e site A l)) (env_sort e).
Lemma backwards_ok e : env_ok e -> env_ok (backwards e).
Proof. intros [H1 H2]. split; [|exact H2]. intros site A l. cbn. by rewrite reverse_Permutation. Qed.

Definition outputs_of (pf : pconfig) (l : list (env * op)) : list out := (prun_from pf new_simap l).1.2.
Definition names_in (r : out) : list (option string) :=
  match r with OutSet l _ _ => (fun x => vrec_identity <$> e_rec x) <$> l | _ => [] end.

Lemma ex_calls_ok l : Forall (fun c => exists t, c.1 = at_time t \/ c.1 = backwards (at_time t)) l -> envs_ok l.
Proof.
  intros H. eapply Forall_impl; [exact H|]. intros [e o] (t & Ht). cbn in Ht |- *. destruct Ht as [-> | ->]; [apply plain_env_ok|apply backwards_ok, plain_env_ok].
Qed.

(** Two entries with the same source; one is updated and an index function
    panics.  The update is there, but the entry is not found by its source any
    more; the other one is.  Deleting the entry panics again, and then a lookup by
    site gives a blank entry for it.  A Replace puts all right. *)
Definition ex_more : list (env * op) := ex_calls ++
  [(at_time 4, OGet ex_bad); (at_time 5, OIndex index_by_source (ex_entry "s1" "r1") None);
   (backwards (at_time 6), ODelete ex_bad); (at_time 7, OIndex index_by_site ex_bad None);
   (at_time 8, OReplace [ex_entry "s1" "r1"]); (at_time 9, OIndex index_by_site ex_bad None)].
Example C118_example :
  envs_ok ex_more /\ fails ex_pf ex_bad /\ ~ fails ex_pf (ex_entry "s1" "r1") /\
  let rs := outputs_of ex_pf ex_more in
  omap (fun r => match r with OutErr None => Some true | OutPanic => Some false | _ => None end) rs = [true; true; false; false; true] /\
  names_in <$> rs !! 4 = Some [Some "s2"%string] /\
  names_in <$> rs !! 6 = Some [Some "s2"%string; None] /\
  names_in <$> rs !! 8 = Some [Some "s1"%string] /\
  match rs !! 3 with Some (OutSingle (Some (x, _)) None) => m_source (e_meta x) = m_source (e_meta ex_bad) | _ => False end.
Proof.
  split; [|split; [|split]].
  - apply ex_calls_ok. unfold ex_more, ex_calls. cbn [app]. repeat constructor; cbn [fst]; eexists; first [left; reflexivity|right; reflexivity].
  - exists index_by_source, picky. split; [apply lookup_insert|]. unfold picky. by rewrite bool_decide_true.
  - intros (name & f & Hf & Hx). unfold ex_pf in Hf. cbn [pf_indexers] in Hf. apply lookup_insert_Some in Hf as [[<- <-]|[_ Hf]].
    + vm_compute in Hx. discriminate Hx.
    + apply lookup_singleton_Some in Hf as [<- <-]. discriminate Hx.
  - vm_compute. repeat split; reflexivity.
Qed.

(** So with index functions that panic, lookups are not exact. *)
Theorem C118_exact_refuted : exists pf s h e name f x vals l, came_to pf s h /\ env_ok e /\ pf_indexers pf !! name = Some f /\ f x = Some vals /\
  prun_op pf e s (OIndex name x None) = (s, OutSet l "" None, []) /\
  exists y, y ∈ l /\ forall k, entry_at (contents s) k <> Some y.
Proof.
  set (ls := take 6 ex_more). set (s := (prun_from ex_pf new_simap ls).1.1).
  exists ex_pf, s, (zip (snd <$> ls) (outputs_of ex_pf ls)), (at_time 7), index_by_site, (fun x => Some (site_index x)), ex_bad, (site_index ex_bad).
  assert (exists l, (prun_op ex_pf (at_time 7) s (OIndex index_by_site ex_bad None)).1.2 = OutSet l "" None /\ (fun x => vrec_identity <$> e_rec x) <$> l = [Some "s2"%string; None]) as (l & Hl & Hn).
  { destruct (prun_op ex_pf (at_time 7) s (OIndex index_by_site ex_bad None)).1.2 as [| |l c o| |] eqn:E; try (exfalso; vm_compute in E; discriminate E).
    assert (OutSet l c o = OutSet l "" None) as E2. { vm_compute in E. injection E as <- <- <-. reflexivity. }
    exists l. split; [exact E2|]. vm_compute in E. injection E as <- _ _. reflexivity. }
  exists l. split; [|split; [apply plain_env_ok|split; [vm_compute; reflexivity|split; [reflexivity|split]]]].
  - exists ls, (outputs_of ex_pf ls), (prun_from ex_pf new_simap ls).2. split; [|split; [|reflexivity]].
    + apply ex_calls_ok. unfold ls, ex_more, ex_calls. cbn [app take]. repeat constructor; cbn [fst]; eexists; first [left; reflexivity|right; reflexivity].
    + unfold s, outputs_of. by destruct (prun_from ex_pf new_simap ls) as [[? ?] ?].
  - cbn [prun_op] in Hl |- *. cbn [fst snd] in Hl. by rewrite Hl.
  - destruct l as [|y0 [|y l]]; [discriminate Hn..|]. exists y. split; [right; left|]. cbn in Hn. injection Hn as _ Hy _. intros k Hk.
    assert (map_Forall (fun _ v => is_Some (e_rec (vc_res v))) (sm_items s)) as Hall.
    { apply map_Forall_to_list. vm_compute. repeat constructor; eexists; reflexivity. }
    unfold entry_at, contents in Hk. rewrite lookup_fmap in Hk. destruct (sm_items s !! k) as [v|] eqn:Ev; [|discriminate Hk]. cbn in Hk. injection Hk as Hk.
    destruct (Hall _ _ Ev) as [z Hz]. rewrite Hk in Hz. rewrite Hz in Hy. discriminate Hy.
Qed.

Print Assumptions C118_applied.
Print Assumptions C118_panics.
Print Assumptions C118_replace_panics.
Print Assumptions C118_again.
Print Assumptions C118_index.
Print Assumptions C118_lookup_panics.
Print Assumptions C118_values.
Print Assumptions C118_healed.
Print Assumptions C118_exact_refuted.
