(** Concurrent calls: every call behaves as if executed at one instant between
    its invocation and its return. *)
From Coq Require Import ZArith NArith Ascii String Lia.
From stdpp Require Import base gmap strings list.
From Verif Require Import GoBase Encoding Records Env SyncMap Tokens Cache SpecStore StoreFacts StoreConc.

Local Open Scope list_scope.
Local Opaque vanflow_registry builtin_types record_types Encode Decode.

(** ** The programs do what the sequential model does *)

Lemma run_mfor {A B R} (l : list A) (f : A -> items * B -> items * B) acc (k : B -> mprog R) s :
  run_m (mfor l f acc k) s = let '(s', b) := fold_left (fun sb a => f a sb) l (s, acc) in run_m (k b) s'.
Proof.
  revert s acc. induction l as [|a l IH]; intros s acc; [done|]. cbn [mfor run_m fold_left].
  rewrite IH. by destruct (f a (s, acc)).
Qed.

Lemma run_mwrites {A R} (l : list A) f (k : mprog R) s :
  run_m (mwrites l f k) s = run_m k (fold_left (fun s a => f a s) l s).
Proof.
  unfold mwrites. rewrite run_mfor.
  assert (fold_left (fun (sb : items * unit) a => (fun '(s0, u) => (f a s0, u)) sb) l (s, tt)
    = (fold_left (fun s a => f a s) l s, tt)) as E.
  { revert s. induction l as [|a l IH]; intros s; [done|]. cbn [fold_left]. apply IH. }
  rewrite E. done.
Qed.

Lemma run_mreads {A B R} (l : list A) f (acc : B) (k : B -> mprog R) s :
  run_m (mreads l f acc k) s = run_m (k (fold_left (fun b a => f a s b) l acc)) s.
Proof.
  unfold mreads. rewrite run_mfor.
  assert (fold_left (fun (sb : items * B) a => (fun '(s0, b) => (s0, f a s0 b)) sb) l (s, acc)
    = (s, fold_left (fun b a => f a s b) l acc)) as E.
  { revert acc. induction l as [|a l IH]; intros acc; [done|]. cbn [fold_left]. apply IH. }
  rewrite E. done.
Qed.

Lemma fold_left_flat_map {A B C} (g : A -> list B) (f : C -> B -> C) l c :
  fold_left f (flat_map g l) c = fold_left (fun c a => fold_left f (g a) c) l c.
Proof. revert c. induction l as [|a l IH]; intros c; [done|]. cbn [flat_map fold_left]. by rewrite fold_left_app, IH. Qed.

Lemma fold_left_fmap {A B C} (g : A -> B) (f : C -> B -> C) l c :
  fold_left f (g <$> l) c = fold_left (fun c a => f c (g a)) l c.
Proof. revert c. induction l as [|a l IH]; intros c; [done|]. cbn. by rewrite <- IH. Qed.

Lemma unindex_steps_run ord key obj s :
  fold_left (fun s a => unindex_one key a s) (unindex_steps ord obj) s
  = SIMap (sm_items s) (unindex ord key obj (sm_indices s)).
Proof.
  unfold unindex_steps, unindex. rewrite fold_left_flat_map.
  revert s. induction ord as [|[name f] ord IH]; intros s; [by destruct s|]. cbn [fold_left].
  rewrite fold_left_fmap.
  assert (fold_left (fun c v => unindex_one key (name, v) c) (f obj) s
    = SIMap (sm_items s) (match sm_indices s !! name with
        | None => sm_indices s | Some idx => <[name := unindex_vals key (f obj) idx]> (sm_indices s) end)) as E.
  { clear IH. generalize (f obj). intros vs. revert s. induction vs as [|v vs IH]; intros s.
    - cbn. destruct s as [it ind]. cbn. destruct (ind !! name) eqn:E; [|done]. by rewrite insert_id.
    - cbn [fold_left]. rewrite IH. unfold unindex_one. cbn [fst snd].
      destruct (sm_indices s !! name) as [idx|] eqn:E; [|by rewrite E].
      cbn [sm_items sm_indices]. rewrite lookup_insert, insert_insert. done. }
  rewrite E, IH. cbn [sm_items sm_indices]. done.
Qed.

Lemma reindex_steps_run ord key obj s :
  fold_left (fun s a => reindex_one key a s) (reindex_steps ord obj) s
  = SIMap (sm_items s) (reindex [] ord key None obj (sm_indices s)).
Proof.
  unfold reindex_steps, reindex. rewrite fold_left_flat_map.
  revert s. induction ord as [|[name f] ord IH]; intros s; [by destruct s|]. cbn [fold_left].
  rewrite fold_left_fmap.
  assert (forall vs s, sm_indices s !! name <> None ->
    fold_left (fun c v => reindex_one key (name, Some v) c) vs s
    = SIMap (sm_items s) (<[name := reindex_vals key vs (default ∅ (sm_indices s !! name))]> (sm_indices s))) as E.
  { clear. induction vs as [|v vs IH]; intros s Hs.
    - cbn. destruct s as [it ind]. cbn in *. destruct (ind !! name) eqn:E; [|done]. by rewrite insert_id.
    - cbn [fold_left]. rewrite IH; unfold reindex_one; cbn [fst snd sm_items sm_indices]; rewrite lookup_insert; [|done].
      rewrite insert_insert. done. }
  rewrite E; unfold reindex_one; cbn [fst snd sm_items sm_indices]; [|by rewrite lookup_insert].
  rewrite IH. cbn [sm_items sm_indices]. rewrite lookup_insert, insert_insert. done.
Qed.

Lemma run_store_prog {R} cf e key obj (k : mprog R) s :
  run_m (store_prog cf e key obj (sm_items s !! key) k) s = run_m k (store_item (cf_indexers cf) e key obj s).
Proof.
  unfold store_prog, store_item. cbn [run_m]. rewrite !run_mwrites. f_equal.
  rewrite reindex_steps_run.
  destruct (sm_items s !! key) as [c|].
  - rewrite unindex_steps_run. cbn [sm_items sm_indices]. done.
  - cbn [fold_left sm_items sm_indices]. done.
Qed.

Lemma fold_app {A B} (g : A -> list B) l acc :
  fold_left (fun b a => b ++ g a) l acc = acc ++ concat (g <$> l).
Proof.
  revert acc. induction l as [|a l IH]; intros acc; [by rewrite app_nil_r|]. cbn [fold_left]. rewrite IH.
  rewrite fmap_cons. cbn [concat]. by rewrite app_assoc.
Qed.

Lemma fold_left_ext {A B} (f g : A -> B -> A) l a : (forall x y, f x y = g x y) -> fold_left f l a = fold_left g l a.
Proof. intros H. revert a. induction l as [|b l IH]; intros a; [done|]. cbn. by rewrite H, IH. Qed.

Lemma run_list_prog e k s : env_ok e -> run_m (list_prog e k) s = (s, k (vc_res <$> sm_list e s)).
Proof.
  intros [He _]. unfold list_prog, mread. cbn [run_m]. rewrite run_mreads. cbn [run_m]. f_equal. f_equal.
  rewrite (fold_left_ext _ (fun b a => b ++ match sm_items s !! a with Some v => [vc_res v] | None => [] end)).
  2: { intros x y. destruct (sm_items s !! y); [done|]. by rewrite app_nil_r. }
  rewrite fold_app. cbn [app]. unfold sm_list.
  assert (forall l, (forall kv, kv ∈ l -> sm_items s !! kv.1 = Some kv.2) ->
    concat ((fun a => match sm_items s !! a with Some v => [vc_res v] | None => [] end) <$> (fst <$> l))
    = vc_res <$> (snd <$> l)) as Hl.
  { induction l as [|kv l IH]; intros H; [done|]. rewrite !fmap_cons. cbn [concat].
    rewrite (H kv) by apply elem_of_list_here. rewrite IH; [done|]. intros kv' Hk. apply H. by apply elem_of_list_further. }
  apply Hl. intros [k0 v0] H. rewrite (He _ _ _) in H. by apply elem_of_map_to_list in H.
Qed.

Lemma run_values_prog cf e name s : env_ok e -> run_m (values_prog cf e name) s = (s, (index_values cf e s name, [])).
Proof.
  intros [He _]. unfold values_prog, index_values, sm_index_values. destruct (cf_indexers cf !! name); [|done].
  unfold mread. cbn [run_m]. rewrite run_mreads. cbn [run_m]. f_equal. f_equal. f_equal.
  set (idx := default ∅ (sm_indices s !! name)).
  rewrite (fold_left_ext _ (fun b a => b ++ match idx !! a with Some _ => [a] | None => [] end)).
  2: { intros x y. destruct (idx !! y); [done|]. by rewrite app_nil_r. }
  rewrite fold_app. cbn [app].
  assert (forall l : list (string * gset string), (forall kv, kv ∈ l -> idx !! kv.1 = Some kv.2) ->
    concat ((fun a => match idx !! a with Some _ => [a] | None => [] end) <$> (fst <$> l)) = fst <$> l) as Hl.
  { induction l as [|kv l IH]; intros H; [done|]. rewrite !fmap_cons. cbn [concat].
    rewrite (H kv) by apply elem_of_list_here. rewrite IH; [done|]. intros kv' Hk. apply H. by apply elem_of_list_further. }
  apply Hl. intros [k0 v0] H. rewrite (He _ _ _) in H. by apply elem_of_map_to_list in H.
Qed.

Lemma run_index_prog cf e name x k s :
  run_m (index_prog cf e name x k) s =
    (s, match sm_index (cf_indexers cf) e name x s with
        | None => (OutSet [] "" (Some SNoIndex), [])
        | Some l => k ((fun v => match v with Some v => vc_res v | None => zero_entry end) <$> l)
        end).
Proof.
  unfold index_prog, sm_index. destruct (cf_indexers cf !! name) as [f|]; [|done].
  rewrite !run_mreads. cbn [run_m]. f_equal. f_equal.
  rewrite (fold_app (fun a => [match sm_items s !! a with Some v => vc_res v | None => zero_entry end])). cbn [app].
  generalize (env_iter e "index" string (elements (fold_left (λ acc v, acc ∪ default ∅ (default ∅ (sm_indices s !! name) !! v)) (f x) (∅ : gset string)))).
  intros l. induction l as [|a l IH]; [done|]. rewrite !fmap_cons. cbn [concat app]. by rewrite IH.
Qed.

Lemma run_replace_prog cf e m s :
  run_m (replace_prog cf e m) s = (sm_replace (cf_indexers cf) e m s, (OutErr None, [])).
Proof.
  unfold replace_prog, sm_replace. rewrite run_mreads. cbn [run_m]. rewrite run_mwrites. cbn [run_m]. f_equal.
  rewrite fold_left_flat_map.
  assert (forall l s0, fold_left (fun c '(k, v) =>
     fold_left (fun s a => reindex_one a.1 a.2 s)
       ((fun x => (k, x)) <$> reindex_steps (indexer_loop (cf_indexers cf) e ("reindex " ++ k)%string) v) c) l s0
    = SIMap (sm_items s0) (fold_left (fun ind '(k, v) =>
        reindex [] (indexer_loop (cf_indexers cf) e ("reindex " ++ k)%string) k None v ind) l (sm_indices s0))) as E.
  { induction l as [|[k v] l IH]; intros s0; [by destruct s0|]. cbn [fold_left].
    rewrite fold_left_fmap. cbn [fst snd]. rewrite reindex_steps_run. rewrite IH. done. }
  rewrite (fold_left_ext _ (fun c '(k, v) =>
     fold_left (fun s a => reindex_one a.1 a.2 s)
       ((fun x => (k, x)) <$> reindex_steps (indexer_loop (cf_indexers cf) e ("reindex " ++ k)%string) v) c)) by (by intros ? [? ?]).
  rewrite E. cbn [sm_items sm_indices]. f_equal.
  apply fold_left_ext. by intros ? [? ?].
Qed.

(** A program that never writes. *)
Inductive read_only {R} : mprog R -> Prop :=
  | ro_ret r : read_only (MRet r)
  | ro_step upd next : (forall s, upd s = s) -> (forall s, read_only (next s)) -> read_only (MStep upd next).

Lemma read_only_mreads {A B R} (l : list A) f (acc : B) (k : B -> mprog R) :
  (forall b, read_only (k b)) -> read_only (mreads l f acc k).
Proof.
  intros Hk. unfold mreads. revert acc. induction l as [|a l IH]; intros acc; cbn [mfor]; [apply Hk|].
  constructor; [done|]. intros s. apply IH.
Qed.

(** What [plan_of] promises. *)
Definition plan_ok (cf : config) (e : env) (o : op) (P : plan) : Prop :=
  match P with
  | PNow (r, ev) => forall s, run_op cf e s o = (s, r, ev)
  | PLock w p => (forall s, run_m p s = let '(s', r, ev) := run_op cf e s o in (s', (r, ev))) /\
      (w = false -> read_only p)
  end.

Lemma plan_of_ok cf e o : env_ok e -> plan_ok cf e o (plan_of cf e o).
Proof.
  intros He. destruct o as [x|x im|x|l|src r|x|sel|n x sel|n]; cbn [plan_of].
  - destruct (cf_key cf x) as [key|m|] eqn:Hk; cbn [plan_ok run_op]; try (intros s; unfold add; by rewrite Hk).
    split; [|discriminate]. intros s. unfold add. rewrite Hk. unfold update_prog, mread, sm_update.
    cbn [run_m]. destruct (check_conds _ _); [done|]. by rewrite run_store_prog.
  - destruct (cf_key cf x) as [key|m|] eqn:Hk; cbn [plan_ok run_op]; try (intros s; unfold update; by rewrite Hk).
    destruct (get_conditional im) as [conds|?|] eqn:Hc; cbn [plan_ok run_op]; try (intros s; unfold update; by rewrite Hk, Hc).
    split; [|discriminate]. intros s. unfold update. rewrite Hk, Hc. unfold update_prog, mread, sm_update.
    cbn [run_m]. destruct (check_conds _ _); [done|]. by rewrite run_store_prog.
  - destruct (cf_key cf x) as [key|m|] eqn:Hk; cbn [plan_ok run_op]; try (intros s; unfold remove; by rewrite Hk).
    split; [|discriminate]. intros s. unfold remove. rewrite Hk. unfold delete_prog, mread, sm_delete.
    cbn [run_m]. destruct (sm_items s !! key) as [v|]; [|done]. cbn [run_m].
    rewrite run_mwrites, unindex_steps_run. done.
  - destruct (keyed cf l ∅) as [m|m|] eqn:Hk; cbn [plan_ok run_op]; try (intros s; unfold replace; by rewrite Hk).
    split; [|discriminate]. intros s. unfold replace. rewrite Hk. apply run_replace_prog.
  - destruct (cf_key cf (Entry zero_meta (TypeMeta "" "") r)) as [key|m|] eqn:Hk; cbn [plan_ok run_op]; try (intros s; unfold accumulate; by rewrite Hk).
    split; [|discriminate]. intros s. unfold accumulate. rewrite Hk. unfold patch_prog, mread, sm_patch.
    cbn [run_m check_conds]. destruct (patch_record e src r (vc_res <$> sm_items s !! key)) as [obj|p|]; [|by destruct p|done].
    by rewrite run_store_prog.
  - destruct (cf_key cf x) as [key|m|] eqn:Hk; cbn [plan_ok run_op]; try (intros s; unfold get; by rewrite Hk).
    split; [intros s; unfold get; by rewrite Hk|]. intros _. by repeat constructor.
  - split.
    + intros s. rewrite run_list_prog by done. cbn [run_op]. unfold list_all, select. by destruct sel.
    + intros _. constructor; [done|]. intros s. apply read_only_mreads. by repeat constructor.
  - split.
    + intros s. rewrite run_index_prog. cbn [run_op]. unfold index_of, select.
      destruct (sm_index _ _ _ _ _); [|done]. by destruct sel.
    + intros _. unfold index_prog. destruct (cf_indexers cf !! n); [|constructor].
      apply read_only_mreads. intros b. apply read_only_mreads. by repeat constructor.
  - split.
    + intros s. rewrite run_values_prog by done. done.
    + intros _. unfold values_prog. destruct (cf_indexers cf !! n); [|constructor].
      constructor; [done|]. intros s. apply read_only_mreads. by repeat constructor.
Qed.

(** ** Specification *)

(** The calls in the order they took effect. *)
Fixpoint lins (tr : list label) : list (nat * call) :=
  match tr with
  | [] => []
  | LLin id e o :: tr' => (id, (e, o)) :: lins tr'
  | _ :: tr' => lins tr'
  end.

(** What the calls [l], made one after the other from [s], answer, and the
    state they lead to. *)
Fixpoint answers (cf : config) (s : items) (l : list (nat * call)) : list (nat * answer) :=
  match l with
  | [] => []
  | (id, (e, o)) :: l' => let '(s', r, ev) := run_op cf e s o in (id, (r, ev)) :: answers cf s' l'
  end.
Fixpoint after (cf : config) (s : items) (l : list (nat * call)) : items :=
  match l with
  | [] => s
  | (_, (e, o)) :: l' => after cf (run_op cf e s o).1.1 l'
  end.

(** What is seen of one call: invocation, effect, events, return. *)
Fixpoint seen (id : nat) (tr : list label) : list label :=
  match tr with
  | [] => []
  | l :: tr' =>
      match l with
      | LInv i _ _ _ | LLin i _ _ | LEv i _ | LRes i _ => if decide (i = id) then l :: seen id tr' else seen id tr'
      | _ => seen id tr'
      end
  end.

(** The calls made by a thread, in order. *)
Fixpoint made (t : nat) (tr : list label) : list call :=
  match tr with
  | [] => []
  | LInv _ t' e o :: tr' => if decide (t' = t) then (e, o) :: made t tr' else made t tr'
  | _ :: tr' => made t tr'
  end.

(** Everything seen of a call that takes effect and completes. *)
Definition life (id t : nat) (e : env) (o : op) (r : out) (ev : list event) : list label :=
  LInv id t e o :: LLin id e o :: (LEv id <$> ev) ++ [LRes id r].

Definition progs_ok (progs : gmap nat (list call)) : Prop :=
  forall t p, progs !! t = Some p -> envs_ok p.

(** ** Proof *)

Lemma lins_app a b : lins (a ++ b) = lins a ++ lins b.
Proof. induction a as [|l a IH]; [done|]. destruct l; cbn; by rewrite ?IH. Qed.
Lemma seen_app id a b : seen id (a ++ b) = seen id a ++ seen id b.
Proof. induction a as [|l a IH]; [done|]. destruct l; cbn [app seen]; try case_decide; cbn [app]; by rewrite ?IH. Qed.
Lemma made_app t a b : made t (a ++ b) = made t a ++ made t b.
Proof. induction a as [|l a IH]; [done|]. destruct l; cbn [app made]; try case_decide; cbn [app]; by rewrite ?IH. Qed.
Lemma after_app cf s a b : after cf s (a ++ b) = after cf (after cf s a) b.
Proof. revert s. induction a as [|[i [e o]] a IH]; intros s; [done|]. cbn. by rewrite IH. Qed.
Lemma answers_app cf s a b : answers cf s (a ++ b) = answers cf s a ++ answers cf (after cf s a) b.
Proof.
  revert s. induction a as [|[i [e o]] a IH]; intros s; [done|]. cbn [app answers after].
  destruct (run_op cf e s o) as [[s' r] ev]. cbn [app fst]. by rewrite IH.
Qed.

(** What thread [t] in state [T] has shown so far. *)
Definition shown (cf : config) (s0 : items) (tr : list label) (c : cstate) (t : nat) (T : tstate) : Prop :=
  let A := after cf s0 (lins tr) in
  match T with
  | TIdle _ => True
  | TWait id e o _ => id < c_next c /\ seen id tr = [LInv id t e o] /\ env_ok e
  | TIn id w p _ => id < c_next c /\ exists e o r ev, seen id tr = [LInv id t e o; LLin id e o] /\ (id, (e, o)) ∈ lins tr /\
      (id, (r, ev)) ∈ answers cf s0 (lins tr) /\
      if w then c_writer c = Some t /\ run_m p (c_shared c) = (A, (r, ev))
      else t ∈ c_readers c /\ read_only p /\ run_m p A = (A, (r, ev))
  | TOut id evs r _ => id < c_next c /\ exists e o evd, seen id tr = LInv id t e o :: LLin id e o :: (LEv id <$> evd) /\ (id, (e, o)) ∈ lins tr /\
      (id, (r, evd ++ evs)) ∈ answers cf s0 (lins tr)
  end.

Definition todo_of (T : tstate) : list call :=
  match T with TIdle l => l | TWait _ _ _ l => l | TIn _ _ _ l => l | TOut _ _ _ l => l end.
Definition id_in (T : tstate) : option nat :=
  match T with TIdle _ => None | TWait i _ _ _ => Some i | TIn i _ _ _ => Some i | TOut i _ _ _ => Some i end.

Record cinv (cf : config) (s0 : items) (progs : gmap nat (list call)) (tr : list label) (c : cstate) : Prop := {
  ci_threads : forall t, match c_threads c !! t, progs !! t with
                 | Some T, Some p => made t tr ++ todo_of T = p /\ shown cf s0 tr c t T
                 | None, None => made t tr = []
                 | _, _ => False
                 end;
  ci_ids : forall t t' T T' i, c_threads c !! t = Some T -> c_threads c !! t' = Some T' ->
             id_in T = Some i -> id_in T' = Some i -> t = t';
  ci_writer : forall t, c_writer c = Some t -> c_readers c = ∅ /\ exists id p todo, c_threads c !! t = Some (TIn id true p todo);
  ci_readers : forall t, t ∈ c_readers c -> exists id p todo, c_threads c !! t = Some (TIn id false p todo);
  ci_shared : c_writer c = None -> c_shared c = after cf s0 (lins tr);
  ci_fresh : forall id, c_next c <= id -> seen id tr = [];
  ci_done : forall id, id < c_next c ->
      (exists t T, c_threads c !! t = Some T /\ id_in T = Some id) \/
      exists t e o r ev, seen id tr = life id t e o r ev /\ (id, (e, o)) ∈ lins tr /\ (id, (r, ev)) ∈ answers cf s0 (lins tr);
}.

Lemma cinv_init cf s0 progs : cinv cf s0 progs [] (cinit s0 progs).
Proof.
  split; cbn; try done.
  - intros t. rewrite lookup_fmap. destruct (progs !! t); cbn; done.
  - intros t t' T T' i H1 _ Hi _. rewrite lookup_fmap in H1. apply fmap_Some in H1 as (p & _ & ->). done.
  - lia.
Qed.

Definition label_id (l : label) : nat :=
  match l with LInv i _ _ _ => i | LLin i _ _ => i | LStep i => i | LRel i => i | LEv i _ => i | LRes i _ => i end.

Lemma seen_other id l tr : id <> label_id l -> seen id (tr ++ [l]) = seen id tr.
Proof. intros H. rewrite seen_app. destruct l; cbn in *; try (rewrite decide_False by congruence); by rewrite app_nil_r. Qed.

Lemma answers_mono cf s0 tr l x : x ∈ answers cf s0 (lins tr) -> x ∈ answers cf s0 (lins (tr ++ [l])).
Proof. intros H. rewrite lins_app, answers_app. apply elem_of_app. by left. Qed.
Lemma lins_mono tr l x : x ∈ lins tr -> x ∈ lins (tr ++ [l]).
Proof. intros H. rewrite lins_app. apply elem_of_app. by left. Qed.

Lemma read_only_same {R} (p : mprog R) s : read_only p -> (run_m p s).1 = s.
Proof. intros H. revert s. induction H as [r|upd next Hu Hn IH]; intros s; [done|]. cbn. by rewrite Hu, IH. Qed.

(** Another thread's view survives a step. *)
Lemma shown_keep cf s0 tr c l c' t T :
  shown cf s0 tr c t T -> id_in T <> Some (label_id l) -> c_next c <= c_next c' ->
  (match T with
   | TIn _ true _ _ => c_writer c' = c_writer c /\ c_shared c' = c_shared c /\ after cf s0 (lins (tr ++ [l])) = after cf s0 (lins tr)
   | TIn _ false _ _ => (t ∈ c_readers c -> t ∈ c_readers c') /\ after cf s0 (lins (tr ++ [l])) = after cf s0 (lins tr)
   | _ => True
   end) ->
  shown cf s0 (tr ++ [l]) c' t T.
Proof.
  intros Hs Hid Hn HT. destruct T as [todo|id e o todo|id w p todo|id evs r todo]; cbn [shown id_in] in *; [done|..].
  - destruct Hs as (H1 & H2 & H3). split; [lia|]. rewrite seen_other by congruence. done.
  - destruct Hs as (H1 & e & o & r & ev & H2 & H2' & H3 & H4). split; [lia|]. exists e, o, r, ev.
    rewrite seen_other by congruence. split; [done|]. split; [by apply lins_mono|]. split; [by apply answers_mono|]. destruct w.
    + destruct HT as (-> & -> & ->). done.
    + destruct HT as (Hr & ->). destruct H4 as (? & ? & ?). split; [by apply Hr|done].
  - destruct Hs as (H1 & e & o & evd & H2 & H2' & H3). split; [lia|]. exists e, o, evd.
    rewrite seen_other by congruence. split; [done|]. split; [by apply lins_mono|by apply answers_mono].
Qed.

Lemma threads_step cf s0 progs tr c l c' t T T' :
  cinv cf s0 progs tr c -> c_threads c !! t = Some T -> c_threads c' = <[t := T']> (c_threads c) ->
  c_next c <= c_next c' -> label_id l < c_next c' ->
  (id_in T = Some (label_id l) \/ (id_in T = None /\ label_id l = c_next c)) ->
  (forall t', t' <> t -> made t' [l] = []) ->
  made t [l] ++ todo_of T' = todo_of T ->
  shown cf s0 (tr ++ [l]) c' t T' ->
  (forall t' T2, t' <> t -> c_threads c !! t' = Some T2 ->
    match T2 with
    | TIn _ true _ _ => c_writer c' = c_writer c /\ c_shared c' = c_shared c /\ after cf s0 (lins (tr ++ [l])) = after cf s0 (lins tr)
    | TIn _ false _ _ => (t' ∈ c_readers c -> t' ∈ c_readers c') /\ after cf s0 (lins (tr ++ [l])) = after cf s0 (lins tr)
    | _ => True
    end) ->
  forall t', match c_threads c' !! t', progs !! t' with
    | Some T, Some p => made t' (tr ++ [l]) ++ todo_of T = p /\ shown cf s0 (tr ++ [l]) c' t' T
    | None, None => made t' (tr ++ [l]) = []
    | _, _ => False
    end.
Proof.
  intros Hi Ht Hth Hn Hl Hid Hm Htd Hsh Hoth t'. rewrite Hth. pose proof (ci_threads _ _ _ _ _ Hi t') as Hc.
  rewrite made_app. destruct (decide (t' = t)) as [->|Hne].
  - rewrite lookup_insert. rewrite Ht in Hc. destruct (progs !! t); [|done]. destruct Hc as [Hc _].
    split; [|done]. by rewrite <- app_assoc, Htd.
  - rewrite lookup_insert_ne by done. rewrite Hm, app_nil_r by done.
    destruct (c_threads c !! t') as [T2|] eqn:E2, (progs !! t'); try done.
    destruct Hc as [Hc Hs]. split; [done|]. apply (shown_keep cf s0 tr c l c' t' T2); [done| |done|by apply Hoth].
    intros E. destruct Hid as [Hid|[Hid Hid']].
    + apply Hne. by eapply (ci_ids _ _ _ _ _ Hi).
    + rewrite Hid' in E. destruct T2; cbn in E; try discriminate; injection E as ->; cbn in Hs; destruct Hs; lia.
Qed.

Lemma ids_step cf s0 progs tr c (c' : cstate) t T T' :
  cinv cf s0 progs tr c -> c_threads c !! t = Some T -> c_threads c' = <[t := T']> (c_threads c) ->
  (id_in T' = id_in T \/ id_in T' = None \/ id_in T' = Some (c_next c)) ->
  forall t1 t2 T1 T2 i, c_threads c' !! t1 = Some T1 -> c_threads c' !! t2 = Some T2 ->
    id_in T1 = Some i -> id_in T2 = Some i -> t1 = t2.
Proof.
  intros Hi Ht Hth Hid.
  assert (forall t1 T1, c_threads c !! t1 = Some T1 -> id_in T1 <> Some (c_next c)) as Hlt.
  { intros t1 T1 H1 E. pose proof (ci_threads _ _ _ _ _ Hi t1) as Hc. rewrite H1 in Hc.
    destruct (progs !! t1); [|done]. destruct Hc as [_ Hs]. destruct T1; cbn in *; try discriminate; injection E as ->; destruct Hs; lia. }
  assert (forall t2 T2 i, t2 <> t -> c_threads c !! t2 = Some T2 -> id_in T' = Some i -> id_in T2 = Some i -> False) as Hx.
  { intros t2 T2 i Hne H2 E1 E2. destruct Hid as [Hid|[Hid|Hid]].
    - apply Hne. rewrite Hid in E1. by eapply (ci_ids _ _ _ _ _ Hi).
    - congruence.
    - apply (Hlt t2 T2 H2). congruence. }
  intros t1 t2 T1 T2 i. rewrite Hth. intros H1 H2 E1 E2.
  destruct (decide (t1 = t)) as [->|N1], (decide (t2 = t)) as [->|N2]; [done|..].
  - rewrite lookup_insert in H1. rewrite lookup_insert_ne in H2 by done. injection H1 as <-. exfalso. by eapply Hx.
  - rewrite lookup_insert in H2. rewrite lookup_insert_ne in H1 by done. injection H2 as <-. exfalso. by eapply Hx.
  - rewrite lookup_insert_ne in H1, H2 by done. by eapply (ci_ids _ _ _ _ _ Hi).
Qed.

Lemma fresh_step cf s0 progs tr c l c' :
  cinv cf s0 progs tr c -> c_next c <= c_next c' -> label_id l < c_next c' ->
  forall id, c_next c' <= id -> seen id (tr ++ [l]) = [].
Proof. intros Hi Hn Hl id H. rewrite seen_other by lia. apply (ci_fresh _ _ _ _ _ Hi). lia. Qed.

(** Calls other than the one of the step stay done. *)
Lemma done_step cf s0 progs tr c l (c' : cstate) t T T' :
  cinv cf s0 progs tr c -> c_threads c !! t = Some T -> c_threads c' = <[t := T']> (c_threads c) ->
  (id_in T = Some (label_id l) \/ id_in T = None) -> c_next c' <= S (c_next c) ->
  (c_next c' = S (c_next c) -> label_id l = c_next c) ->
  (id_in T' = Some (label_id l) \/
   exists t e o r ev, seen (label_id l) (tr ++ [l]) = life (label_id l) t e o r ev /\ (label_id l, (e, o)) ∈ lins (tr ++ [l]) /\
     (label_id l, (r, ev)) ∈ answers cf s0 (lins (tr ++ [l]))) ->
  forall id, id < c_next c' ->
      (exists t T, c_threads c' !! t = Some T /\ id_in T = Some id) \/
      exists t e o r ev, seen id (tr ++ [l]) = life id t e o r ev /\ (id, (e, o)) ∈ lins (tr ++ [l]) /\
        (id, (r, ev)) ∈ answers cf s0 (lins (tr ++ [l])).
Proof.
  intros Hi Ht Hth Hid Hn Hn' Hl id Hlt. destruct (decide (id = label_id l)) as [->|Hne].
  - destruct Hl as [Hl|Hl]; [|by right]. left. exists t, T'. rewrite Hth, lookup_insert. done.
  - assert (id < c_next c) as Hlt'.
    { destruct (decide (c_next c' = S (c_next c))) as [E|E]; [|lia]. specialize (Hn' E). lia. }
    destruct (ci_done _ _ _ _ _ Hi id Hlt') as [(t1 & T1 & H1 & E1)|(t1 & e & o & r & ev & H1 & H2 & H3)].
    + left. exists t1, T1. rewrite Hth, lookup_insert_ne; [done|]. intros <-.
      rewrite Ht in H1. injection H1 as <-. destruct Hid; congruence.
    + right. exists t1, e, o, r, ev. rewrite seen_other by done. split; [done|].
      split; [by apply lins_mono|by apply answers_mono].
Qed.

(** A step of thread [t] from [T] to [T'] with label [l]: what remains to be
    checked. *)
Lemma cinv_one cf s0 progs tr c l c' t T T' prog :
  cinv cf s0 progs tr c -> c_threads c !! t = Some T -> progs !! t = Some prog ->
  c_threads c' = <[t := T']> (c_threads c) ->
  (* numbering *)
  c_next c <= c_next c' -> c_next c' <= S (c_next c) -> label_id l < c_next c' ->
  (id_in T = Some (label_id l) \/ (id_in T = None /\ label_id l = c_next c)) ->
  (c_next c' = S (c_next c) -> label_id l = c_next c) ->
  (id_in T' = id_in T \/ id_in T' = None \/ id_in T' = Some (c_next c)) ->
  (* calls made *)
  (forall t', t' <> t -> made t' [l] = []) -> made t [l] ++ todo_of T' = todo_of T ->
  (* this thread *)
  shown cf s0 (tr ++ [l]) c' t T' ->
  (id_in T' = Some (label_id l) \/
   exists t e o r ev, seen (label_id l) (tr ++ [l]) = life (label_id l) t e o r ev /\ (label_id l, (e, o)) ∈ lins (tr ++ [l]) /\
     (label_id l, (r, ev)) ∈ answers cf s0 (lins (tr ++ [l]))) ->
  (* the others *)
  (forall t' T2, t' <> t -> c_threads c !! t' = Some T2 ->
    match T2 with
    | TIn _ true _ _ => c_writer c' = c_writer c /\ c_shared c' = c_shared c /\ after cf s0 (lins (tr ++ [l])) = after cf s0 (lins tr)
    | TIn _ false _ _ => (t' ∈ c_readers c -> t' ∈ c_readers c') /\ after cf s0 (lins (tr ++ [l])) = after cf s0 (lins tr)
    | _ => True
    end) ->
  (* the lock *)
  (forall t', c_writer c' = Some t' -> c_readers c' = ∅ /\
     if decide (t' = t) then exists id p todo, T' = TIn id true p todo else c_writer c = Some t') ->
  (forall t', t' ∈ c_readers c' ->
     if decide (t' = t) then exists id p todo, T' = TIn id false p todo else t' ∈ c_readers c) ->
  (c_writer c' = None -> c_shared c' = after cf s0 (lins (tr ++ [l]))) ->
  cinv cf s0 progs (tr ++ [l]) c'.
Proof.
  intros Hi Ht Hp Hth Hn1 Hn2 Hlt Hid Hid1 Hid2 Hm Htd Hsh Hdone Hoth Hw Hr Hs. split.
  - by eapply threads_step.
  - by eapply ids_step.
  - intros t' Hw'. destruct (Hw t' Hw') as [HR HW]. split; [done|]. rewrite Hth. case_decide as E.
    + subst. rewrite lookup_insert. destruct HW as (i & p & td & ->). eauto.
    + rewrite lookup_insert_ne by done. by apply (ci_writer _ _ _ _ _ Hi).
  - intros t' Hr'. specialize (Hr t' Hr'). rewrite Hth. case_decide as E.
    + subst. rewrite lookup_insert. destruct Hr as (i & p & td & ->). eauto.
    + rewrite lookup_insert_ne by done. by apply (ci_readers _ _ _ _ _ Hi).
  - done.
  - by eapply fresh_step.
  - eapply done_step; try done. destruct Hid as [Hid|[Hid _]]; [by left|by right].
Qed.

Lemma cinv_step cf s0 progs tr c t l c' : progs_ok progs ->
  cinv cf s0 progs tr c -> cstep cf c t = Some (l, c') -> cinv cf s0 progs (tr ++ [l]) c'.
Proof.
  intros Hok Hi Hstep. unfold cstep in Hstep. destruct (c_threads c !! t) as [T|] eqn:Ht; [|discriminate].
  pose proof (ci_threads _ _ _ _ _ Hi t) as Hct. rewrite Ht in Hct. destruct (progs !! t) as [prog|] eqn:Hp; [|done].
  destruct Hct as [Hprog Hsh].
  (* the threads in the lock are those it knows *)
  assert (forall t' id w p todo, c_threads c !! t' = Some (TIn id w p todo) ->
    if w then c_writer c = Some t' else t' ∈ c_readers c) as Hin.
  { intros t' id w p todo E. pose proof (ci_threads _ _ _ _ _ Hi t') as Hc. rewrite E in Hc. destruct (progs !! t'); [|done].
    destruct Hc as [_ Hc]. cbn in Hc. destruct Hc as (_ & ? & ? & ? & ? & _ & _ & _ & Hc). destruct w; by destruct Hc. }
  assert (forall t', c_writer c = Some t' -> c_readers c = ∅) as Hwr.
  { intros t' E. by apply (ci_writer _ _ _ _ _ Hi) in E as [? _]. }
  (* a step outside the lock leaves it alone *)
  assert (forall t' T', (forall i w p td, T <> TIn i w p td) -> c_writer c = Some t' -> c_readers c = ∅ /\
     if decide (t' = t) then exists id p todo, T' = TIn id true p todo else c_writer c = Some t') as Hout1.
  { intros t' T' HT E. split; [by eapply Hwr|]. destruct (decide (t' = t)) as [D|D]; [|exact E]. subst t'.
    destruct (ci_writer _ _ _ _ _ Hi t E) as (_ & i & p & td & E'). rewrite Ht in E'. injection E' as ->. by destruct (HT i true p td). }
  assert (forall t' T', (forall i w p td, T <> TIn i w p td) -> t' ∈ c_readers c ->
     if decide (t' = t) then exists id p todo, T' = TIn id false p todo else t' ∈ c_readers c) as Hout2.
  { intros t' T' HT E. destruct (decide (t' = t)) as [D|D]; [|exact E]. subst t'.
    destruct (ci_readers _ _ _ _ _ Hi t E) as (i & p & td & E'). rewrite Ht in E'. injection E' as ->. by destruct (HT i false p td). }
  destruct T as [[|[e o] todo]|id e o todo|id w [[r ev]|upd next] todo|id [|ev evs] r todo]; [discriminate|..].
  - (* invocation *)
    injection Hstep as <- <-.
    assert (seen (c_next c) tr = []) as Hf by (by apply (ci_fresh _ _ _ _ _ Hi)).
    assert (env_ok e) as He.
    { pose proof (Hok t prog Hp) as Hpok. rewrite <- Hprog in Hpok. apply Forall_app in Hpok as [_ Hpok].
      by apply Forall_cons in Hpok as [Hpok _]. }
    assert (lins (tr ++ [LInv (c_next c) t e o]) = lins tr) as Hl by (by rewrite lins_app, app_nil_r).
    eapply (cinv_one cf s0 progs tr c _ _ t _ (TWait (c_next c) e o todo)); [done|exact Ht|done|done|..];
      cbn [c_next c_writer c_readers c_shared label_id id_in todo_of]; try lia.
    + by right.
    + by right; right.
    + intros t' Hne. cbn. by rewrite decide_False.
    + cbn. by rewrite decide_True.
    + split; [cbn; lia|]. rewrite seen_app, Hf. cbn. by rewrite decide_True.
    + by left.
    + intros t' T2 Hne E2. rewrite Hl. destruct T2 as [| |? [] ? ?|]; done.
    + intros t'. by apply Hout1.
    + intros t'. by apply Hout2.
    + intros Hw. rewrite Hl. by apply (ci_shared _ _ _ _ _ Hi).
  - (* taking effect *)
    destruct Hsh as (Hlt & Hseen & He). pose proof (plan_of_ok cf e o He) as Hplan.
    assert (seen id (tr ++ [LLin id e o]) = [LInv id t e o; LLin id e o]) as Hseen'.
    { rewrite seen_app, Hseen. cbn. by rewrite decide_True. }
    assert ((id, (e, o)) ∈ lins (tr ++ [LLin id e o])) as Hlin.
    { rewrite lins_app. apply elem_of_app. right. by apply elem_of_list_singleton. }
    set (A := after cf s0 (lins tr)) in *.
    assert (after cf s0 (lins (tr ++ [LLin id e o])) = (run_op cf e A o).1.1) as Hafter.
    { rewrite lins_app, after_app. done. }
    assert (forall s' r ev, run_op cf e A o = (s', r, ev) -> (id, (r, ev)) ∈ answers cf s0 (lins (tr ++ [LLin id e o]))) as Hans.
    { intros s' r ev E. rewrite lins_app, answers_app. apply elem_of_app. right. cbn. fold A. rewrite E. by apply elem_of_list_singleton. }
    destruct (plan_of cf e o) as [[r ev]|[] p] eqn:HP.
    + (* answered without the lock *)
      injection Hstep as <- <-. cbn in Hplan. pose proof (Hplan A) as HA. rewrite HA in Hafter. cbn in Hafter.
      eapply (cinv_one cf s0 progs tr c _ _ t _ (TOut id ev r todo)); [done|exact Ht|done|done|..];
        unfold set_thread; cbn [c_next c_writer c_readers c_shared label_id id_in todo_of]; try lia.
      * by left.
      * by left.
      * done.
      * done.
      * split; [cbn; lia|]. exists e, o, []. split; [by rewrite Hseen'|]. split; [done|]. by eapply Hans.
      * by left.
      * intros t' T2 Hne E2. rewrite Hafter. destruct T2 as [| |? [] ? ?|]; done.
      * intros t'. by apply Hout1.
      * intros t'. by apply Hout2.
      * intros Hw. rewrite Hafter. by apply (ci_shared _ _ _ _ _ Hi).
    + (* lock for writing *)
      case_bool_decide as Hfree; [|discriminate]. destruct Hfree as [Hw Hr]. injection Hstep as <- <-.
      destruct Hplan as [Hrun _].
      destruct (run_op cf e A o) as [[s' r] ev] eqn:E. cbn in Hafter.
      eapply (cinv_one cf s0 progs tr c _ _ t _ (TIn id true p todo)); [done|exact Ht|done|done|..];
        cbn [c_next c_writer c_readers c_shared label_id id_in todo_of]; try lia.
      * by left.
      * by left.
      * done.
      * done.
      * split; [cbn; lia|]. exists e, o, r, ev. split; [done|]. split; [done|]. split; [by eapply Hans|].
        split; [done|]. cbn [c_shared]. rewrite (ci_shared _ _ _ _ _ Hi Hw), Hafter. rewrite Hrun.
        unfold A in E. rewrite E. done.
      * by left.
      * intros t' T2 Hne E2. destruct T2 as [| |? [] ? ?|]; try done; specialize (Hin _ _ _ _ _ E2); cbn in Hin.
        -- congruence.
        -- rewrite Hr in Hin. set_solver.
      * intros t' [= <-]. split; [done|]. rewrite decide_True by done. eauto.
      * intros t' Ht'. rewrite Hr in Ht'. set_solver.
      * discriminate.
    + (* lock for reading *)
      case_bool_decide as Hw; [|discriminate]. injection Hstep as <- <-.
      destruct Hplan as [Hrun Hro]. specialize (Hro eq_refl).
      destruct (run_op cf e A o) as [[s' r] ev] eqn:E. cbn in Hafter.
      assert (s' = A) as ->.
      { pose proof (read_only_same p A Hro) as H. rewrite Hrun, E in H. done. }
      eapply (cinv_one cf s0 progs tr c _ _ t _ (TIn id false p todo)); [done|exact Ht|done|done|..];
        cbn [c_next c_writer c_readers c_shared label_id id_in todo_of]; try lia.
      * by left.
      * by left.
      * done.
      * done.
      * split; [cbn; lia|]. exists e, o, r, ev. split; [done|]. split; [done|]. split; [by eapply Hans|].
        cbn [c_readers]. split; [set_solver|]. split; [done|]. rewrite Hafter. rewrite Hrun, E. done.
      * by left.
      * intros t' T2 Hne E2. rewrite Hafter. destruct T2 as [| |? [] ? ?|]; try done. split; [set_solver|done].
      * discriminate.
      * intros t' Ht'. case_decide as D; [eauto|]. set_solver.
      * intros _. rewrite Hafter. by apply (ci_shared _ _ _ _ _ Hi).
  - (* releasing the lock *)
    injection Hstep as <- <-. destruct Hsh as (Hlt & e & o & r' & ev' & Hseen & Hlin & Hans & Hw).
    assert (lins (tr ++ [LRel id]) = lins tr) as Hl by (by rewrite lins_app, app_nil_r).
    assert (seen id (tr ++ [LRel id]) = seen id tr) as Hse by (by rewrite seen_app, app_nil_r).
    pose proof (Hin _ _ _ _ _ Ht) as Hme.
    assert (r' = r /\ ev' = ev /\ (w = true -> c_shared c = after cf s0 (lins tr))) as (-> & -> & Hsh).
    { destruct w; cbn in Hw.
      - destruct Hw as [_ [= -> -> ->]]. done.
      - destruct Hw as (_ & _ & [= -> ->]). done. }
    eapply (cinv_one cf s0 progs tr c _ _ t _ (TOut id ev r todo)); [done|exact Ht|done|done|..];
      cbn [c_next c_writer c_readers c_shared label_id id_in todo_of]; try lia.
    + by left.
    + by left.
    + done.
    + done.
    + split; [cbn; lia|]. exists e, o, []. rewrite Hse, Hl. done.
    + by left.
    + intros t' T2 Hne E2. rewrite Hl. destruct T2 as [| |? w2 ? ?|]; try done; specialize (Hin _ _ _ _ _ E2).
      destruct w; cbn in Hme.
      * destruct w2; [congruence|]. rewrite (Hwr _ Hme) in Hin. set_solver.
      * destruct w2; [|set_solver]. apply Hwr in Hin. rewrite Hin in Hme. set_solver.
    + intros t' Hw'. destruct w; [discriminate|]. split.
      * rewrite (Hwr _ Hw'). set_solver.
      * rewrite (Hwr _ Hw') in Hme. set_solver.
    + intros t' Hr'. destruct w; cbn in Hme.
      * rewrite (Hwr _ Hme) in Hr'. set_solver.
      * case_decide; set_solver.
    + intros Hw'. rewrite Hl. destruct w; [by apply Hsh|]. by apply (ci_shared _ _ _ _ _ Hi).
  - (* a step under the lock *)
    injection Hstep as <- <-. destruct Hsh as (Hlt & e & o & r' & ev' & Hseen & Hlin & Hans & Hw).
    assert (lins (tr ++ [LStep id]) = lins tr) as Hl by (by rewrite lins_app, app_nil_r).
    assert (seen id (tr ++ [LStep id]) = seen id tr) as Hse by (by rewrite seen_app, app_nil_r).
    pose proof (Hin _ _ _ _ _ Ht) as Hme.
    assert (w = false -> upd (c_shared c) = c_shared c /\ c_writer c = None) as Hrd.
    { intros ->. cbn in Hw, Hme. destruct Hw as (_ & Hro & _). inversion Hro as [|u n Hu _]; subst. split; [apply Hu|].
      destruct (c_writer c) as [t'|] eqn:E; [|done]. rewrite (Hwr t') in Hme by done. set_solver. }
    eapply (cinv_one cf s0 progs tr c _ _ t _ (TIn id w (next (c_shared c)) todo)); [done|exact Ht|done|done|..];
      cbn [c_next c_writer c_readers c_shared label_id id_in todo_of]; try lia.
    + by left.
    + by left.
    + done.
    + done.
    + split; [cbn; lia|]. exists e, o, r', ev'. rewrite Hse, Hl. split; [done|]. split; [done|]. split; [done|].
      destruct w; cbn in Hw |- *.
      * destruct Hw as [H1 H2]. split; [done|]. exact H2.
      * destruct Hw as (H1 & H2 & H3). inversion H2 as [|u n Hu Hn]; subst. split; [done|].
        split; [apply Hn|]. destruct (Hrd eq_refl) as [_ Hwn]. rewrite (ci_shared _ _ _ _ _ Hi Hwn). rewrite Hu in H3. exact H3.
    + by left.
    + intros t' T2 Hne E2. rewrite Hl. destruct T2 as [| |? w2 ? ?|]; try done; specialize (Hin _ _ _ _ _ E2).
      destruct w2; [|done]. destruct w; [cbn in *; congruence|]. destruct (Hrd eq_refl) as [-> _]. done.
    + intros t' Hw'. split; [by eapply Hwr|]. destruct (decide (t' = t)) as [D|D]; [|assumption]. subst t'.
      destruct w; [eauto|]. destruct (Hrd eq_refl) as [_ Hwn]. congruence.
    + intros t' Hr'. destruct (decide (t' = t)) as [D|D]; [|assumption]. subst t'. destruct w; [|eauto]. cbn in Hme.
      rewrite (Hwr _ Hme) in Hr'. set_solver.
    + intros Hw'. rewrite Hl. destruct w; [cbn in Hme; congruence|]. destruct (Hrd eq_refl) as [-> _].
      by apply (ci_shared _ _ _ _ _ Hi).
  - (* return *)
    injection Hstep as <- <-. destruct Hsh as (Hlt & e & o & evd & Hseen & Hlin & Hans).
    assert (lins (tr ++ [LRes id r]) = lins tr) as Hl by (by rewrite lins_app, app_nil_r).
    eapply (cinv_one cf s0 progs tr c _ _ t _ (TIdle todo)); [done|exact Ht|done|done|..];
      unfold set_thread; cbn [c_next c_writer c_readers c_shared label_id id_in todo_of]; try lia.
    + by left.
    + by right; left.
    + done.
    + done.
    + done.
    + right. exists t, e, o, r, evd. rewrite Hl. split; [|by rewrite app_nil_r in Hans].
      rewrite seen_app, Hseen. cbn. by rewrite decide_True.
    + intros t' T2 Hne E2. rewrite Hl. destruct T2 as [| |? [] ? ?|]; done.
    + intros t'. by apply Hout1.
    + intros t'. by apply Hout2.
    + intros Hw. rewrite Hl. by apply (ci_shared _ _ _ _ _ Hi).
  - (* an event *)
    injection Hstep as <- <-. destruct Hsh as (Hlt & e & o & evd & Hseen & Hlin & Hans).
    assert (lins (tr ++ [LEv id ev]) = lins tr) as Hl by (by rewrite lins_app, app_nil_r).
    eapply (cinv_one cf s0 progs tr c _ _ t _ (TOut id evs r todo)); [done|exact Ht|done|done|..];
      unfold set_thread; cbn [c_next c_writer c_readers c_shared label_id id_in todo_of]; try lia.
    + by left.
    + by left.
    + done.
    + done.
    + split; [cbn; lia|]. exists e, o, (evd ++ [ev]). rewrite Hl, <- app_assoc. split; [|done].
      rewrite seen_app, Hseen. cbn [seen]. rewrite decide_True by done. by rewrite fmap_app.
    + by left.
    + intros t' T2 Hne E2. rewrite Hl. destruct T2 as [| |? [] ? ?|]; done.
    + intros t'. by apply Hout1.
    + intros t'. by apply Hout2.
    + intros Hw. rewrite Hl. by apply (ci_shared _ _ _ _ _ Hi).
Qed.

Lemma cinv_run cf s0 progs sched c tr0 : progs_ok progs -> cinv cf s0 progs tr0 c ->
  forall c' tr, crun cf c sched = (c', tr) -> cinv cf s0 progs (tr0 ++ tr) c'.
Proof.
  intros Hok. revert c tr0. induction sched as [|t sched IH]; intros c tr0 Hi c' tr Hrun; cbn [crun] in Hrun.
  - injection Hrun as <- <-. by rewrite app_nil_r.
  - destruct (cstep cf c t) as [[l c1]|] eqn:E; [|by eapply IH].
    destruct (crun cf c1 sched) as [c2 tr2] eqn:E2. injection Hrun as <- <-.
    replace (tr0 ++ l :: tr2) with ((tr0 ++ [l]) ++ tr2) by (by rewrite <- app_assoc). eapply IH; [|exact E2]. by eapply cinv_step.
Qed.

(** ** Results *)

(** Every call is seen as invocation, effect, events, return, or as a prefix of
    these; its result and events are those it has when the calls are made one
    after the other in the order of their effects. *)
Lemma linearizable cf s0 progs sched c tr id : progs_ok progs ->
  crun cf (cinit s0 progs) sched = (c, tr) ->
  seen id tr = [] \/ (exists t e o, seen id tr = [LInv id t e o]) \/
  exists t e o r ev, (id, (e, o)) ∈ lins tr /\ (id, (r, ev)) ∈ answers cf s0 (lins tr) /\
    LLin id e o ∈ seen id tr /\ seen id tr `prefix_of` life id t e o r ev.
Proof.
  intros Hok Hrun. pose proof (cinv_run cf s0 progs sched _ [] Hok (cinv_init cf s0 progs) _ _ Hrun) as Hi.
  cbn [app] in Hi. destruct (decide (id < c_next c)) as [Hlt|Hge]; [|left; apply (ci_fresh _ _ _ _ _ Hi); lia].
  right. destruct (ci_done _ _ _ _ _ Hi id Hlt) as [(t & T & Ht & HT)|(t & e & o & r & ev & H1 & H2 & H3)].
  - pose proof (ci_threads _ _ _ _ _ Hi t) as Hc. rewrite Ht in Hc. destruct (progs !! t); [|done]. destruct Hc as [_ Hc].
    destruct T as [|i e o todo|i w p todo|i evs r todo]; cbn in HT; try discriminate; injection HT as ->; cbn in Hc.
    + left. destruct Hc as (_ & Hc & _). eauto.
    + right. destruct Hc as (_ & e & o & r & ev & H1 & H2 & H3 & _). exists t, e, o, r, ev. rewrite H1.
      split; [done|]. split; [done|]. split; [apply elem_of_list_further, elem_of_list_here|].
      eexists. reflexivity.
    + right. destruct Hc as (_ & e & o & evd & H1 & H2 & H3). exists t, e, o, r, (evd ++ evs). rewrite H1.
      split; [done|]. split; [done|]. split; [apply elem_of_list_further, elem_of_list_here|].
      unfold life. rewrite fmap_app, <- app_assoc. eexists. reflexivity.
  - right. exists t, e, o, r, ev. rewrite H1. split; [done|]. split; [done|].
    split; [apply elem_of_list_further, elem_of_list_here|]. done.
Qed.

(** Each thread makes its calls in order. *)
Lemma program_order cf s0 progs sched c tr t p : progs_ok progs ->
  crun cf (cinit s0 progs) sched = (c, tr) -> progs !! t = Some p -> made t tr `prefix_of` p.
Proof.
  intros Hok Hrun Hp. pose proof (cinv_run cf s0 progs sched _ [] Hok (cinv_init cf s0 progs) _ _ Hrun) as Hi.
  pose proof (ci_threads _ _ _ _ _ Hi t) as Hc. rewrite Hp in Hc. destruct (c_threads c !! t) as [T|]; [|done].
  destruct Hc as [Hc _]. cbn [app] in Hc. eexists. symmetry. exact Hc.
Qed.

(** While nobody writes, the shared maps are those of the sequential run. *)
Lemma quiescent_state cf s0 progs sched c tr : progs_ok progs ->
  crun cf (cinit s0 progs) sched = (c, tr) -> c_writer c = None -> c_shared c = after cf s0 (lins tr).
Proof.
  intros Hok Hrun. pose proof (cinv_run cf s0 progs sched _ [] Hok (cinv_init cf s0 progs) _ _ Hrun) as Hi.
  apply (ci_shared _ _ _ _ _ Hi).
Qed.

(** Unless all threads have finished, some thread can run. *)
Lemma no_deadlock cf s0 progs sched c tr t T : progs_ok progs ->
  crun cf (cinit s0 progs) sched = (c, tr) -> c_threads c !! t = Some T -> T <> TIdle [] ->
  exists t', is_Some (cstep cf c t').
Proof.
  intros Hok Hrun Ht HT. pose proof (cinv_run cf s0 progs sched _ [] Hok (cinv_init cf s0 progs) _ _ Hrun) as Hi.
  destruct (cstep cf c t) as [x|] eqn:E; [exists t; eauto|].
  assert (exists w, c_writer c = Some w \/ w ∈ c_readers c) as [w Hw].
  { unfold cstep in E. rewrite Ht in E.
    destruct T as [[|[e o] todo]|id e o todo|id w [[r ev]|upd next] todo|id [|ev evs] r todo]; try discriminate; [done|].
    destruct (plan_of cf e o) as [[]|[] p]; [discriminate|..]; case_bool_decide as D; try discriminate.
    - destruct (c_writer c) as [w|]; [eauto|]. destruct (set_choose_or_empty (c_readers c)) as [[w Hw]|Hw]; [eauto|].
      apply leibniz_equiv in Hw. by destruct D.
    - destruct (c_writer c) as [w|]; [eauto|done]. }
  exists w.
  assert (exists id b p todo, c_threads c !! w = Some (TIn id b p todo)) as (id & b & p & todo & Hth).
  { destruct Hw as [Hw|Hw].
    - apply (ci_writer _ _ _ _ _ Hi) in Hw as (_ & ? & ? & ? & ?). eauto.
    - apply (ci_readers _ _ _ _ _ Hi) in Hw as (? & ? & ? & ?). eauto. }
  unfold cstep. rewrite Hth. destruct p as [[r ev]|]; eauto.
Qed.
