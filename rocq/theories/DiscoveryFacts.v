(** Facts about discovery: the map, notifications, progress. *)
From Coq Require Import ZArith NArith Ascii String Lia.
From stdpp Require Import base gmap strings list sorting.
From Verif Require Import GoBase Encoding Records Messages Run Keepalive Discovery.

Local Open Scope list_scope.

(** ** Specification *)

(** What is known of [id] after a history: the details given when it was first
    announced since it was last forgotten. *)
Definition known_step (id : string) (cur : option info) (e : dev) : option info :=
  match e with
  | DOp _ (OAdd x) _ => if bool_decide (i_id (ds_info x) = id) then Some (default (ds_info x) cur) else cur
  | DOp _ (OObserve b) _ =>
      if bool_decide (bc_identity b = id)
      then Some (default (Info (bc_identity b) (Z.of_N (bc_version b)) (bc_source_type b) (bc_address b) (bc_direct b)) cur) else cur
  | DOp _ (OForget j) _ => if bool_decide (j = id) then None else cur
  | _ => cur
  end.
Definition known (evs : list dev) (id : string) : option info := foldl (known_step id) None evs.

(** What a call should return after history [a]. *)
Definition answers (a : list dev) (o : dop) (r : dres) : Prop :=
  match o with
  | OAdd x => r = RBool (bool_decide (known a (i_id (ds_info x)) = None))
  | OForget id => r = RBool (bool_decide (known a id <> None))
  | OGet id => exists g, r = RGot g /\ ds_info <$> g = known a id
  | OList _ => exists l, r = RListed l /\ NoDup (i_id ∘ ds_info <$> l) /\
      forall id i, known a id = Some i <-> i_id i = id /\ i ∈ ds_info <$> l
  | OObserve _ | OSeen _ _ => r = RUnit
  end.

(** The notification that a call gives rise to. *)
Definition issue (a : list dev) (e : dev) : list (note * info) :=
  match e with
  | DOp _ (OAdd x) _ => match known a (i_id (ds_info x)) with None => [(Disc, ds_info x)] | Some _ => [] end
  | DOp _ (OObserve b) _ =>
      match known a (bc_identity b) with
      | None => [(Disc, Info (bc_identity b) (Z.of_N (bc_version b)) (bc_source_type b) (bc_address b) (bc_direct b))]
      | Some _ => []
      end
  | DOp _ (OForget id) _ => match known a id with Some i => [(Forg, i)] | None => [] end
  | _ => []
  end.
Fixpoint issues (a evs : list dev) : list (note * info) :=
  match evs with [] => [] | e :: evs' => issue a e ++ issues (a ++ [e]) evs' end.
Definition of_kind (k : note) (l : list (note * info)) : list info :=
  omap (fun p => if bool_decide (fst p = k) then Some (snd p) else None) l.
Definition issued (k : note) (evs : list dev) : list info := of_kind k (issues [] evs).

(** The notifications taken by the handler goroutine. *)
Definition delivered (k : note) (evs : list dev) : list info :=
  omap (fun e => match e with DHandle j x => if bool_decide (j = k) then Some (ds_info x) else None | _ => None end) evs.
(** Those waiting, in the channel or in a blocked call. *)
Definition waiting (k : note) (s : dstate) : list info :=
  (ds_info <$> chan_of s k) ++ match d_held s with Some (_, j, x) => if bool_decide (j = k) then [ds_info x] else [] | None => [] end.

Definition count_id (id : string) (l : list info) : nat := length (List.filter (fun i => bool_decide (i_id i = id)) l).

(** ** The core of a state *)

Record same_core (s s' : dstate) : Prop := SameCore {
  sc_map : d_map s' = d_map s;
  sc_disc : d_disc s' = d_disc s;
  sc_forg : d_forg s' = d_forg s;
  sc_held : d_held s' = d_held s;
}.

Lemma core_chan s s' k : same_core s s' -> chan_of s' k = chan_of s k.
Proof. intros []. by destruct k. Qed.

Lemma returns_core c s : same_core s (returns_to c s) /\ d_now (returns_to c s) = d_now s /\ d_crashed (returns_to c s) = d_crashed s /\
  d_cancelled (returns_to c s) = d_cancelled s.
Proof. destruct c; cbn [returns_to]; try done. by destruct (d_hand s). Qed.
Lemma blocks_core c s : same_core s (blocks_in c s) /\ d_now (blocks_in c s) = d_now s /\ d_crashed (blocks_in c s) = d_crashed s /\
  d_cancelled (blocks_in c s) = d_cancelled s.
Proof. destruct c; cbn [blocks_in]; try done. by destruct (d_hand s). Qed.

(** What a call does. *)
Inductive called (s s' : dstate) (c : who) (o : dop) (ev : list dev) : Prop :=
  | Called m r n :
      d_held s = None -> effect (d_now s) o (d_map s) = Some (m, r, n) -> d_map s' = m ->
      match n with
      | None => chan_of s' = chan_of s /\ d_held s' = None /\ ev = [DOp c o r; DRet c]
      | Some (k, x) =>
          (roomy s k = true /\ (forall j, chan_of s' j = if bool_decide (j = k) then chan_of s j ++ [x] else chan_of s j) /\
             d_held s' = None /\ ev = [DOp c o r; DRet c]) \/
          (roomy s k = false /\ chan_of s' = chan_of s /\ d_held s' = Some (c, k, x) /\ ev = [DOp c o r])
      end -> called s s' c o ev.

Lemma call_called c o s s' ev : call c o s = Some (s', ev) -> called s s' c o ev.
Proof.
  unfold call. destruct (d_held s) eqn:Eh; [done|]. destruct (effect _ _ _) as [[[m r] [[k x]|]]|] eqn:Ee; [| |done].
  - destruct (roomy s k) eqn:Er; intros H; injection H as <- <-; econstructor; [done|exact Ee| | |done|exact Ee| |].
    + destruct (returns_core c (set_chan k (chan_of s k ++ [x]) (ds_map m s))) as [Hc _]. rewrite (sc_map _ _ Hc). by destruct k.
    + left. destruct (returns_core c (set_chan k (chan_of s k ++ [x]) (ds_map m s))) as [Hc _]. split; [done|]. split; [|split; [|done]].
      * intros j. rewrite (core_chan _ _ j Hc). by destruct j, k.
      * rewrite (sc_held _ _ Hc). by destruct k.
    + destruct (blocks_core c (ds_held (Some (c, k, x)) (ds_map m s))) as [Hc _]. by rewrite (sc_map _ _ Hc).
    + right. destruct (blocks_core c (ds_held (Some (c, k, x)) (ds_map m s))) as [Hc _]. split; [done|]. split; [|split; [|done]].
      * destruct s, Hc as [_ H2 H3 _]. cbn in *. unfold chan_of. by rewrite H2, H3.
      * by rewrite (sc_held _ _ Hc).
  - intros H; injection H as <- <-; econstructor; [done|exact Ee| |].
    + destruct (returns_core c (ds_map m s)) as [Hc _]. by rewrite (sc_map _ _ Hc).
    + destruct (returns_core c (ds_map m s)) as [Hc _]. split; [|split; [|done]].
      * destruct s, Hc as [_ H2 H3 _]. cbn in *. unfold chan_of. by rewrite H2, H3.
      * by rewrite (sc_held _ _ Hc).
Qed.

Definition plain (e : dev) : Prop := match e with DOp _ _ _ | DRet _ | DHandle _ _ => False | _ => True end.

Inductive core_step (s s' : dstate) (lb : dlabel) (ev : list dev) : Prop :=
  | co_call c o : call c o s = Some (s', ev) -> core_step s s' lb ev
  | co_unblock c k x : lb = LUnblock -> d_held s = Some (c, k, x) -> roomy s k = true -> d_map s' = d_map s ->
      (forall j, chan_of s' j = if bool_decide (j = k) then chan_of s j ++ [x] else chan_of s j) -> d_held s' = None -> ev = [DRet c] -> core_step s s' lb ev
  | co_take k x q : lb = LTake k -> d_hand s = HSelect -> d_hand s' = HRunning k x -> chan_of s k = x :: q -> d_map s' = d_map s ->
      (forall j, chan_of s' j = if bool_decide (j = k) then q else chan_of s j) -> d_held s' = d_held s -> ev = [DHandle k x] -> core_step s s' lb ev
  | co_plain : same_core s s' -> Forall plain ev -> core_step s s' lb ev.

Ltac open_step H := repeat match type of H with context [match ?x with _ => _ end] => destruct x eqn:?; try discriminate H end.

Lemma watch_core s w x lb s' ev : watch_step s w x lb = Some (s', ev) ->
  (exists o, call (ByWatch w) o s = Some (s', ev) /\ match o with OSeen id _ | OForget id => id = w_id (wt_cfg x) | _ => False end) \/
  (exists f, s' = upd_watch w f s /\ Forall plain ev).
Proof.
  unfold watch_step. intros H.
  destruct lb; try done; destruct (wt_pc x); try done.
  all: try (left; eexists; split; [exact H|reflexivity]).
  all: right; open_step H; injection H as <- <-; eexists; (split; [reflexivity|repeat constructor]).
Qed.

Lemma upd_core s w f : same_core s (upd_watch w f s).
Proof. done. Qed.

Lemma core_cases s lb s' ev : dstep s lb = Some (s', ev) -> core_step s s' lb ev.
Proof.
  unfold dstep. destruct (d_crashed s); [done|]. intros H.
  assert (forall w, match d_watches s !! w with Some x => watch_step s w x lb | None => None end = Some (s', ev) -> core_step s s' lb ev) as Hw.
  { intros w Hx. destruct (d_watches s !! w) as [x|]; [|done]. destruct (watch_core _ _ _ _ _ _ Hx) as [(o & Hc & _)|(f & -> & HF)]; [by eapply co_call|].
    apply co_plain; [done|exact HF]. }
  destruct lb; try (by eapply Hw).
  - destruct (0 <=? dt)%Z; [|done]. injection H as <- <-. by apply co_plain.
  - destruct o; try done; by eapply co_call.
  - destruct (d_held s) as [[[c k] x]|] eqn:Eh; [|done]. destruct (roomy s k) eqn:Er; [|done]. injection H as <- <-.
    destruct (returns_core c (ds_held None (set_chan k (chan_of s k ++ [x]) s))) as [Hc _].
    eapply (co_unblock _ _ _ _ c k x); try done.
    + rewrite (sc_map _ _ Hc). by destruct k.
    + intros j. rewrite (core_chan _ _ j Hc). by destruct j, k.
    + by rewrite (sc_held _ _ Hc).
  - destruct (d_run s); try done. injection H as <- <-. by apply co_plain.
  - destruct (d_run s); try done. injection H as H. unfold run_msg in H. open_step H; injection H as <- <-; apply co_plain; done || (repeat constructor).
  - destruct (d_run s); try done. injection H as <- <-. apply co_plain; [done|repeat constructor].
  - destruct (d_run s); try done. by eapply co_call.
  - injection H as <- <-. by apply co_plain.
  - destruct (d_hand s) eqn:Eh; try done. destruct (chan_of s k) as [|x q] eqn:Ec; [done|]. injection H as <- <-.
    eapply (co_take _ _ _ _ k x q); try done; try (by destruct k). intros j. by destruct j, k.
  - destruct (d_hand s) eqn:Eh; try done. injection H as <- <-. apply co_plain; [done|repeat constructor].
  - destruct (d_hand s) eqn:Eh; try done. destruct o; try done; injection H as <- <-; by apply co_plain.
  - destruct (d_hand s) eqn:Eh; try done. by eapply co_call.
  - destruct (d_hand s) eqn:Eh; try done. destruct (d_run s); try (destruct (d_cancelled s); [|done]); injection H as <- <-; by apply co_plain.
  - destruct (d_held s); [done|]. destruct (d_map s !! w_id c); injection H as <- <-; apply co_plain; done || (repeat constructor).
Qed.

(** ** The map *)

Lemma known_app a b id : known (a ++ b) id = foldl (known_step id) (known a id) b.
Proof. unfold known. apply foldl_app. Qed.

Definition idle_ev (e : dev) : Prop := match e with DOp _ _ _ => False | _ => True end.
Lemma plain_idle e : plain e -> idle_ev e.
Proof. by destruct e. Qed.
Lemma known_idle a b id : Forall idle_ev b -> known (a ++ b) id = known a id.
Proof.
  intros HF. rewrite known_app. generalize (known a id) as v. induction HF as [|e b He HF IH]; intros v; [done|].
  cbn [foldl]. rewrite IH. by destruct e.
Qed.

Lemma issues_app a b1 b2 : issues a (b1 ++ b2) = issues a b1 ++ issues (a ++ b1) b2.
Proof.
  revert a. induction b1 as [|e b1 IH]; intros a; cbn [issues app]; [by rewrite app_nil_r|]. rewrite IH, <- !app_assoc. done.
Qed.
Lemma issues_idle a b : Forall idle_ev b -> issues a b = [].
Proof. intros HF. revert a. induction HF as [|e b He HF IH]; intros a; [done|]. cbn [issues]. rewrite IH. by destruct e. Qed.
Lemma of_kind_app k a b : of_kind k (a ++ b) = of_kind k a ++ of_kind k b.
Proof. apply omap_app. Qed.
Lemma delivered_app k a b : delivered k (a ++ b) = delivered k a ++ delivered k b.
Proof. apply omap_app. Qed.
Lemma delivered_none k b : Forall (fun e => match e with DHandle _ _ => False | _ => True end) b -> delivered k b = [].
Proof. induction 1 as [|e b He HF IH]; [done|]. unfold delivered in *. cbn [omap list_omap]. rewrite IH. by destruct e. Qed.

Definition keyed (m : gmap string dsource) : Prop := forall id x, m !! id = Some x -> i_id (ds_info x) = id.

Lemma effect_spec a c now o m m' r n : effect now o m = Some (m', r, n) -> keyed m -> (forall id, ds_info <$> m !! id = known a id) ->
  keyed m' /\ (forall id, ds_info <$> m' !! id = known (a ++ [DOp c o r]) id) /\ answers a o r /\
  match n with Some (k, x) => [(k, ds_info x)] | None => [] end = issue a (DOp c o r).
Proof.
  intros He Hk Hm. assert (forall id, known (a ++ [DOp c o r]) id = known_step id (known a id) (DOp c o r)) as Hkn by (intros id; by rewrite known_app).
  destruct o as [x|id|id|l|b|id t]; cbn [effect] in He.
  - set (i := i_id (ds_info x)) in *. pose proof (Hm i) as Hi. destruct (m !! i) as [y|] eqn:Ei; injection He as <- <- <-; cbn in Hi.
    + split; [done|]. split; [|split].
      * intros id. rewrite Hkn. cbn [known_step]. fold i. case_bool_decide as E; [subst id|apply Hm]. rewrite <- Hi. cbn. by rewrite Ei.
      * cbn. fold i. by rewrite <- Hi.
      * cbn. fold i. by rewrite <- Hi.
    + split; [|split; [|split]].
      * intros id y. destruct (decide (i = id)) as [<-|Hne]; [rewrite lookup_insert; by intros [= <-]|rewrite lookup_insert_ne by done; apply Hk].
      * intros id. rewrite Hkn. cbn [known_step]. fold i. case_bool_decide as E; [subst id; rewrite lookup_insert; by rewrite <- Hi|].
        rewrite lookup_insert_ne by done. apply Hm.
      * cbn. fold i. by rewrite <- Hi.
      * cbn. fold i. by rewrite <- Hi.
  - pose proof (Hm id) as Hi. destruct (m !! id) as [y|] eqn:Ei; injection He as <- <- <-; cbn in Hi.
    + split; [|split; [|split]].
      * intros j y'. destruct (decide (id = j)) as [<-|Hne]; [by rewrite lookup_delete|rewrite lookup_delete_ne by done; apply Hk].
      * intros j. rewrite Hkn. cbn [known_step]. case_bool_decide as E; [subst j; by rewrite lookup_delete|]. rewrite lookup_delete_ne by done. apply Hm.
      * cbn. by rewrite <- Hi.
      * cbn. by rewrite <- Hi.
    + split; [done|]. split; [|split].
      * intros j. rewrite Hkn. cbn [known_step]. case_bool_decide as E; [subst j; by rewrite Ei|apply Hm].
      * cbn. by rewrite <- Hi.
      * cbn. by rewrite <- Hi.
  - injection He as <- <- <-. split; [done|]. split; [|split; [|done]].
    + intros j. rewrite Hkn. apply Hm.
    + exists (m !! id). split; [done|apply Hm].
  - destruct (bool_decide _) eqn:El in He; [|done]. injection He as <- <- <-. apply bool_decide_eq_true in El.
    split; [done|]. split; [|split; [|done]]; [intros j; rewrite Hkn; apply Hm|]. exists l. split; [done|].
    assert (i_id ∘ ds_info <$> l ≡ₚ (map_to_list m).*1) as Hids.
    { rewrite El. assert (i_id ∘ ds_info <$> (map_to_list m).*2 = (map_to_list m).*1) as ->; [|done].
      rewrite <- list_fmap_compose. apply list_fmap_ext. intros k [id x] Hin.
      apply elem_of_list_lookup_2, elem_of_map_to_list in Hin. cbn. by apply Hk. }
    split; [rewrite Hids; apply NoDup_fst_map_to_list|]. intros id i. rewrite <- Hm. split.
    + intros Hi. destruct (m !! id) as [x|] eqn:Ex; [|done]. injection Hi as <-. split; [by apply Hk|].
      apply elem_of_list_fmap. exists x. split; [done|]. rewrite El. apply elem_of_list_fmap. exists (id, x). split; [done|]. by apply elem_of_map_to_list.
    + intros [Hid Hin]. apply elem_of_list_fmap in Hin as (x & -> & Hin). rewrite El in Hin. apply elem_of_list_fmap in Hin as ([j y] & -> & Hin).
      apply elem_of_map_to_list in Hin. cbn in *. rewrite (Hk _ _ Hin) in Hid. subst j. by rewrite Hin.
  - set (i := bc_identity b) in *. pose proof (Hm i) as Hi. destruct (m !! i) as [y|] eqn:Ei; injection He as <- <- <-; cbn in Hi.
    + split; [|split; [|split]].
      * intros j y'. destruct (decide (i = j)) as [<-|Hne]; [rewrite lookup_insert; intros [= <-]; cbn; by apply Hk|rewrite lookup_insert_ne by done; apply Hk].
      * intros j. rewrite Hkn. cbn [known_step]. fold i. case_bool_decide as E; [subst j; rewrite lookup_insert; by rewrite <- Hi|].
        rewrite lookup_insert_ne by done. apply Hm.
      * done.
      * cbn. fold i. by rewrite <- Hi.
    + split; [|split; [|split]].
      * intros j y'. destruct (decide (i = j)) as [<-|Hne]; [rewrite lookup_insert; by intros [= <-]|rewrite lookup_insert_ne by done; apply Hk].
      * intros j. rewrite Hkn. cbn [known_step]. fold i. case_bool_decide as E; [subst j; rewrite lookup_insert; by rewrite <- Hi|].
        rewrite lookup_insert_ne by done. apply Hm.
      * done.
      * cbn. fold i. by rewrite <- Hi.
  - destruct (m !! id) as [y|] eqn:Ei; injection He as <- <- <-.
    + destruct (_ <? _)%Z; [|split; [done|]; split; [|done]; intros j; rewrite Hkn; apply Hm]. split; [|split; [|done]].
      * intros j y'. destruct (decide (id = j)) as [<-|Hne]; [rewrite lookup_insert; intros [= <-]; cbn; by apply Hk|rewrite lookup_insert_ne by done; apply Hk].
      * intros j. rewrite Hkn. cbn [known_step]. destruct (decide (id = j)) as [<-|Hne]; [rewrite lookup_insert; rewrite <- Hm; by rewrite Ei|].
        rewrite lookup_insert_ne by done. apply Hm.
    + split; [done|]. split; [|done]. intros j. rewrite Hkn. apply Hm.
Qed.

Definition map_inv (s : dstate) (evs : list dev) : Prop :=
  keyed (d_map s) /\ (forall id, ds_info <$> d_map s !! id = known evs id) /\
  (forall a c o r b, evs = a ++ DOp c o r :: b -> answers a o r) /\
  (forall k, delivered k evs ++ waiting k s = issued k evs).

Lemma split_app {A} (x : A) evs ev a b : evs ++ ev = a ++ x :: b ->
  (exists b1, evs = a ++ x :: b1 /\ b = b1 ++ ev) \/ (exists a1, a = evs ++ a1 /\ ev = a1 ++ x :: b).
Proof.
  intros E. apply app_eq_app in E as [l [[-> E]|[-> E]]].
  - destruct l as [|y l]; [right; exists []; cbn in E; rewrite !app_nil_r; by split|]. left. injection E as <- ->. by exists l.
  - right. by exists l.
Qed.

Lemma map_step s evs lb s' ev : map_inv s evs -> dstep s lb = Some (s', ev) -> map_inv s' (evs ++ ev).
Proof.
  intros (Hk & Hm & Ha & Hi) Hs.
  destruct (core_cases _ _ _ _ Hs) as [c o Hc|c k x -> Hh Hr Em Hch Eh ->|k x q -> _ _ Eq Em Hch Eh ->|Hc HF].
  - destruct (call_called _ _ _ _ _ Hc) as [m r n Hh He Em Hn].
    destruct (effect_spec evs c _ _ _ _ _ _ He Hk Hm) as (Hk' & Hm' & Hans & Hiss).
    assert (exists tl, ev = DOp c o r :: tl /\ Forall idle_ev tl /\ delivered Disc tl = [] /\ delivered Forg tl = []) as (tl & -> & Htl & Hd1 & Hd2).
    { destruct n as [[k x]|]; [destruct Hn as [(_ & _ & _ & ->)|(_ & _ & _ & ->)]|destruct Hn as (_ & _ & ->)]; eexists; (split; [reflexivity|]);
        by repeat constructor. }
    assert (forall id, known (evs ++ DOp c o r :: tl) id = known (evs ++ [DOp c o r]) id) as Hkn.
    { intros id. change (DOp c o r :: tl) with ([DOp c o r] ++ tl). rewrite app_assoc. by apply known_idle. }
    split; [by rewrite Em|]. split; [intros id; by rewrite Hkn, Em|]. split.
    + intros a c' o' r' b E. apply split_app in E as [(b1 & E & _)|(a1 & -> & E)]; [by eapply Ha|]. destruct a1 as [|e a1].
      * injection E as <- <- <- <-. by rewrite app_nil_r.
      * injection E as <- E. exfalso. assert (DOp c' o' r' ∈ tl) as Hin by (rewrite E; apply elem_of_app; right; left).
        by apply (proj1 (Forall_forall _ _) Htl) in Hin.
    + intros k. unfold issued. change (DOp c o r :: tl) with ([DOp c o r] ++ tl). rewrite issues_app, of_kind_app. fold (issued k evs). rewrite <- Hi.
      rewrite !delivered_app. assert (delivered k tl = []) as -> by (by destruct k). cbn [app issues].
      rewrite (issues_idle (evs ++ [DOp c o r]) tl Htl), app_nil_r, <- Hiss. change (delivered k [DOp c o r]) with (@nil info). rewrite !app_nil_r, <- app_assoc. f_equal.
      unfold waiting. rewrite Hh, app_nil_r. destruct n as [[j x]|].
      * cbn [of_kind omap list_omap fst snd]. destruct Hn as [(_ & Hch & Eh & _)|(_ & Hch & Eh & _)].
        -- rewrite Eh, Hch, app_nil_r. destruct (decide (k = j)) as [->|Hne].
           ++ rewrite !bool_decide_eq_true_2 by done. by rewrite fmap_app.
           ++ rewrite !bool_decide_eq_false_2 by congruence. by rewrite app_nil_r.
        -- rewrite Eh, Hch. f_equal. destruct (bool_decide _); done.
      * destruct Hn as (Hch & Eh & _). rewrite Eh, Hch. done.
  - split; [by rewrite Em|]. split; [intros id; rewrite known_idle by (by repeat constructor); by rewrite Em|]. split.
    + intros a c' o' r' b E. apply split_app in E as [(b1 & E & _)|(a1 & _ & E)]; [by eapply Ha|]. destruct a1 as [|? [|]]; discriminate E.
    + intros j. unfold issued. rewrite issues_app, (issues_idle _ [DRet c]) by (by repeat constructor). rewrite app_nil_r. fold (issued j evs). rewrite <- Hi.
      rewrite delivered_app. cbn [delivered omap list_omap]. rewrite app_nil_r. f_equal. unfold waiting. rewrite Eh, Hh, Hch, app_nil_r.
      destruct (decide (j = k)) as [->|Hne].
      * rewrite !bool_decide_eq_true_2 by done. by rewrite fmap_app.
      * rewrite !bool_decide_eq_false_2 by congruence. by rewrite app_nil_r.
  - split; [by rewrite Em|]. split; [intros id; rewrite known_idle by (by repeat constructor); by rewrite Em|]. split.
    + intros a c' o' r' b E. apply split_app in E as [(b1 & E & _)|(a1 & _ & E)]; [by eapply Ha|]. destruct a1 as [|? [|]]; discriminate E.
    + intros j. unfold issued. rewrite issues_app, (issues_idle _ [DHandle k x]) by (by repeat constructor). rewrite app_nil_r. fold (issued j evs). rewrite <- Hi.
      rewrite delivered_app. cbn [delivered omap list_omap]. unfold waiting. rewrite Eh, Hch.
      destruct (decide (j = k)) as [->|Hne].
      * rewrite !bool_decide_eq_true_2 by done. rewrite Eq, <- app_assoc. done.
      * rewrite !(bool_decide_eq_false_2 (k = j)), (bool_decide_eq_false_2 (j = k)) by congruence. by rewrite app_nil_r.
  - assert (Forall idle_ev ev) as HF' by (eapply Forall_impl; [exact HF|apply plain_idle]).
    split; [by rewrite (sc_map _ _ Hc)|]. split; [intros id; rewrite known_idle by done; by rewrite (sc_map _ _ Hc)|]. split.
    + intros a c' o' r' b E. apply split_app in E as [(b1 & E & _)|(a1 & _ & E)]; [by eapply Ha|].
      assert (DOp c' o' r' ∈ ev) as Hin by (rewrite E; apply elem_of_app; right; left). by apply (proj1 (Forall_forall _ _) HF) in Hin.
    + intros j. unfold issued. rewrite issues_app, (issues_idle _ ev HF'), app_nil_r. fold (issued j evs). rewrite <- Hi.
      rewrite delivered_app, (delivered_none j ev), app_nil_r.
      * f_equal. unfold waiting. rewrite (sc_held _ _ Hc), (core_chan _ _ j Hc). done.
      * eapply Forall_impl; [exact HF|]. intros e. by destruct e.
Qed.

Lemma map_run now ls s evs : drun (d_init now) ls = Some (s, evs) -> map_inv s evs.
Proof.
  intros Hr. change evs with ([] ++ evs). apply (run_inv dstep map_inv (fun _ => True) (d_init now) [] ls s evs) with (4 := Hr); [| |by apply Forall_true].
  - split; [intros id x H; cbn in H; by rewrite lookup_empty in H|]. split; [intros id; cbn [d_init d_map]; by rewrite lookup_empty|]. split; [by intros [|]|]. by intros [].
  - intros s1 evs1 l s2 ev Hi _ Hs. by eapply map_step.
Qed.

(** Discoveries and forgettings alternate. *)
Lemma count_app id a b : count_id id (a ++ b) = count_id id a + count_id id b.
Proof. unfold count_id. by rewrite List.filter_app, app_length. Qed.

Lemma known_id a id i : known a id = Some i -> i_id i = id.
Proof.
  revert i. induction a as [|e a IH] using rev_ind; intros i; [done|]. rewrite known_app. cbn [foldl].
  destruct e as [c o r| | | | | | | | | | | | | |]; cbn [known_step]; try apply IH. destruct o as [x|j|j|l|b|j t]; try apply IH.
  - case_bool_decide as E; [|apply IH]. destruct (known a id) as [y|]; cbn; intros [= <-]; [by apply IH|done].
  - case_bool_decide as E; [done|apply IH].
  - case_bool_decide as E; [|apply IH]. destruct (known a id) as [y|]; cbn; intros [= <-]; [by apply IH|done].
Qed.

Lemma balance_step a e id :
  count_id id (of_kind Disc (issue a e)) + (match known a id with Some _ => 1 | None => 0 end) =
  count_id id (of_kind Forg (issue a e)) + (match known (a ++ [e]) id with Some _ => 1 | None => 0 end).
Proof.
  rewrite known_app. cbn [foldl].
  assert (forall k i, count_id id (of_kind k [(k, i)]) = if bool_decide (i_id i = id) then 1 else 0) as Hc.
  { intros k i. cbn. rewrite bool_decide_eq_true_2 by done. unfold count_id. cbn. by case_bool_decide. }
  assert (forall i, of_kind Forg [(Disc, i)] = [] /\ of_kind Disc [(Forg, i)] = []) as Ho by done.
  destruct e as [c o r| | | | | | | | | | | | | |]; cbn [issue known_step]; try done.
  destruct o as [x|j|j|l|b|j t]; cbn [issue known_step]; try done.
  - destruct (decide (i_id (ds_info x) = id)) as [<-|Hne].
    + rewrite bool_decide_eq_true_2 by done. destruct (known a (i_id (ds_info x))) as [i|] eqn:Ek; [done|].
      rewrite Hc, (proj1 (Ho _)), bool_decide_eq_true_2 by done. done.
    + rewrite (bool_decide_eq_false_2 (_ = id)) by done. destruct (known a (i_id (ds_info x))); [done|].
      rewrite Hc, (proj1 (Ho _)), bool_decide_eq_false_2 by done. done.
  - destruct (decide (j = id)) as [->|Hne].
    + rewrite bool_decide_eq_true_2 by done. destruct (known a id) as [i|] eqn:Ek; [|done].
      rewrite Hc, (proj2 (Ho _)), bool_decide_eq_true_2 by (by eapply known_id). done.
    + rewrite (bool_decide_eq_false_2 (_ = id)) by done. destruct (known a j) as [i|] eqn:Ek; [|done].
      rewrite Hc, (proj2 (Ho _)), bool_decide_eq_false_2 by (apply known_id in Ek; congruence). done.
  - destruct (decide (bc_identity b = id)) as [<-|Hne].
    + rewrite bool_decide_eq_true_2 by done. destruct (known a (bc_identity b)) as [i|] eqn:Ek; [done|].
      rewrite Hc, (proj1 (Ho _)), bool_decide_eq_true_2 by done. done.
    + rewrite (bool_decide_eq_false_2 (_ = id)) by done. destruct (known a (bc_identity b)); [done|].
      rewrite Hc, (proj1 (Ho _)), bool_decide_eq_false_2 by done. done.
Qed.

Lemma balance evs id : count_id id (issued Disc evs) = count_id id (issued Forg evs) + (match known evs id with Some _ => 1 | None => 0 end).
Proof.
  induction evs as [|e evs IH] using rev_ind; [done|]. unfold issued in *. rewrite issues_app, !of_kind_app, !count_app. cbn [app issues]. rewrite app_nil_r.
  pose proof (balance_step evs e id). lia.
Qed.

(** The notification a blocked call waits to send is about its effect. *)
Definition held_inv (s : dstate) : Prop :=
  match d_held s with
  | Some (_, Disc, x) => d_map s !! i_id (ds_info x) = Some x
  | Some (_, Forg, x) => d_map s !! i_id (ds_info x) = None
  | None => True
  end.

Lemma held_step s lb s' ev : keyed (d_map s) -> held_inv s -> dstep s lb = Some (s', ev) -> held_inv s'.
Proof.
  unfold held_inv. intros Hk Hi Hs. destruct (core_cases _ _ _ _ Hs) as [c o Hc|c k x -> Hh Hr Em Hch Eh ->|k x q -> _ _ Eq Em Hch Eh ->|Hc HF].
  - destruct (call_called _ _ _ _ _ Hc) as [m r n Hh He Em Hn]. destruct n as [[k x]|].
    + destruct Hn as [(_ & _ & -> & _)|(_ & _ & -> & _)]; [done|]. rewrite Em.
      destruct o as [y|j|j|l|b|j t]; cbn [effect] in He.
      * destruct (d_map s !! _); [done|]. injection He as <- _ <- <-. by rewrite lookup_insert.
      * destruct (d_map s !! j) eqn:Ej; [|done]. injection He as <- _ <- <-. rewrite (Hk _ _ Ej). by rewrite lookup_delete.
      * done.
      * by destruct (bool_decide _).
      * destruct (d_map s !! _); [done|]. injection He as <- _ <- <-. by rewrite lookup_insert.
      * by destruct (d_map s !! j).
    + by destruct Hn as (_ & -> & _).
  - by rewrite Eh.
  - by rewrite Eh, Em.
  - by rewrite (sc_held _ _ Hc), (sc_map _ _ Hc).
Qed.

Lemma held_run now ls s evs : drun (d_init now) ls = Some (s, evs) -> held_inv s.
Proof.
  intros Hr. assert (map_inv s ([] ++ evs) /\ held_inv s) as [_ H]; [|done].
  apply (run_inv dstep (fun s evs => map_inv s evs /\ held_inv s) (fun _ => True) (d_init now) [] ls s evs) with (4 := Hr); [| |by apply Forall_true].
  - split; [|done]. by apply (map_run now [] _ []).
  - intros s1 evs1 l s2 ev [Hi Hh] _ Hs. split; [by eapply map_step|]. eapply held_step; [|done|done]. apply Hi.
Qed.

(** ** Order of the notifications of one source *)

Definition ordered (id : string) (evs : list dev) : Prop :=
  forall a b, evs = a ++ b -> count_id id (delivered Forg a) <= count_id id (delivered Disc a).

Lemma order_step id s evs lb s' ev : map_inv s evs -> held_inv s -> ordered id evs -> dstep s lb = Some (s', ev) ->
  (lb = LTake Forg -> count_id id (ds_info <$> d_disc s) = 0) -> ordered id (evs ++ ev).
Proof.
  intros (_ & Hm & _ & Hi) Hheld0 Ho Hs Hlb.
  assert (count_id id (delivered Forg evs) <= count_id id (delivered Disc evs)) as Hnow by (apply (Ho evs []); by rewrite app_nil_r).
  assert (Forall (fun e => match e with DHandle _ _ => False | _ => True end) ev -> ordered id (evs ++ ev)) as Hno.
  { intros HF a b E. apply app_eq_app in E as [l [[-> E]|[-> E]]]; [by eapply Ho|].
    rewrite !delivered_app, !(delivered_none _ l), !app_nil_r; [done| |]; apply (Forall_app _ l b); by rewrite <- E. }
  destruct (core_cases _ _ _ _ Hs) as [c o Hc|c k x -> Hh Hr Em Hch Eh ->|k x q -> _ _ Eq Em Hch Eh ->|Hc HF].
  - destruct (call_called _ _ _ _ _ Hc) as [m r n Hh He Em Hn]. apply Hno.
    destruct n as [[k x]|]; [destruct Hn as [(_ & _ & _ & ->)|(_ & _ & _ & ->)]|destruct Hn as (_ & _ & ->)]; by repeat constructor.
  - apply Hno. by repeat constructor.
  - intros a b E. apply app_eq_app in E as [l [[-> E]|[-> E]]]; [by eapply Ho|].
    destruct l as [|e l]; [by rewrite app_nil_r|]. injection E as <- E. symmetry in E. apply app_nil in E as [-> ->].
    rewrite !delivered_app, !count_app. destruct k.
    + change (delivered Forg [DHandle Disc x]) with (@nil info). change (count_id id []) with 0. lia.
    + (* a forgotten one is taken *)
      specialize (Hlb eq_refl). pose proof (balance evs id) as Hb. pose proof (Hi Disc) as H1. pose proof (Hi Forg) as H2.
      apply (f_equal (count_id id)) in H1, H2. rewrite count_app in H1, H2. unfold waiting in H1, H2. cbn [chan_of] in *. rewrite Eq in H2.
      rewrite count_app in H1, H2. rewrite Hlb in H1. cbn [fmap list_fmap] in H2.
      change (ds_info x :: (ds_info <$> q)) with ([ds_info x] ++ (ds_info <$> q)) in H2. rewrite count_app in H2.
      assert (count_id id match d_held s with Some (_, j, x) => if bool_decide (j = Disc) then [ds_info x] else [] | None => [] end <=
        match known evs id with Some _ => 1 | None => 0 end) as Hheld.
      { unfold held_inv in Hheld0. destruct (d_held s) as [[[? []] y]|].
        2: rewrite bool_decide_eq_false_2 by done; change (count_id id []) with 0; lia.
        2: change (count_id id []) with 0; lia.
        rewrite bool_decide_eq_true_2 by done. unfold count_id. cbn [List.filter].
        destruct (bool_decide (i_id (ds_info y) = id)) eqn:Ey; [apply bool_decide_eq_true in Ey|destruct (known evs id); cbn; lia].
        rewrite <- Hm, <- Ey, Hheld0. reflexivity. }
      change (delivered Forg [DHandle Forg x]) with [ds_info x]. change (delivered Disc [DHandle Forg x]) with (@nil info).
      change (count_id id []) with 0. lia.
  - apply Hno. eapply Forall_impl; [exact HF|]. intros e. by destruct e.
Qed.

Lemma order_run id now ls s evs : drun (d_init now) ls = Some (s, evs) ->
  (forall s1 s2, transition dstep (d_init now) ls s1 (LTake Forg) s2 -> count_id id (ds_info <$> d_disc s1) = 0) -> ordered id evs.
Proof.
  intros Hr Ht. assert ((map_inv s ([] ++ evs) /\ held_inv s) /\ ordered id ([] ++ evs)) as [_ H]; [|done].
  apply (run_inv_rel dstep (fun s evs => (map_inv s evs /\ held_inv s) /\ ordered id evs) (d_init now) [] ls s evs) with (3 := Hr).
  - split; [split; [by apply (map_run now [] _ [])|done]|]. intros [|] ? E; [cbn; lia|done].
  - intros s1 evs1 l s2 ev [[Hi Hh] Ho] _ Htr Hs. split; [split; [by eapply map_step|]; eapply held_step; [|done|done]; apply Hi|].
    eapply order_step; try done. intros ->. by eapply Ht.
Qed.
