(** The HTTP interface: paths, routes, answers. *)
From Coq Require Import ZArith NArith Ascii String Lia.
From stdpp Require Import base gmap strings list.
From Verif Require Import GoBase Encoding Records Env SyncMap Tokens Cache SpecStore StoreFacts StoreLemmas HistFacts ToolFacts Tool Http Messages SpecMessages MessageFacts EventFacts CodecExamples.

Local Open Scope list_scope.

(** ** Specification *)

(** A canonical path: "/", or parts each after a slash, none empty, "." or "..",
    perhaps with a slash at the end. *)
Definition good_part (x : string) : Prop := x <> ""%string /\ x <> "."%string /\ x <> ".."%string /\ no_slash x.
Definition canonical (p : string) : Prop :=
  p = "/"%string \/ exists parts (b : bool), parts <> [] /\ Forall good_part parts /\ p = (join_parts parts ++ if b then "/" else "")%string.

(** ** Paths *)

Lemma split_ne s : split_slash s <> [].
Proof. destruct s; cbn; [done|]. case_bool_decide; [done|]. by destruct (split_slash s). Qed.

Lemma split_no_slash s : Forall no_slash (split_slash s).
Proof.
  induction s as [|c s IH]; cbn; [by repeat constructor|]. case_bool_decide as E; [by constructor|].
  destruct (split_slash s); [by repeat constructor|]. apply Forall_cons in IH as [H1 H2]. by repeat constructor.
Qed.

Lemma split_part x s : no_slash x -> split_slash (x ++ String "/" s) = x :: split_slash s.
Proof.
  induction x as [|c x IH]; [done|]. rewrite sapp_cons. cbn [no_slash split_slash]. intros [Hc Hx].
  rewrite bool_decide_eq_false_2 by done. by rewrite (IH Hx).
Qed.
Lemma split_last x : no_slash x -> split_slash x = [x].
Proof.
  induction x as [|c x IH]; [done|]. cbn [no_slash split_slash]. intros [Hc Hx]. rewrite bool_decide_eq_false_2 by done. by rewrite (IH Hx).
Qed.

Lemma sapp_empty s : ("" ++ s)%string = s.
Proof. reflexivity. Qed.
Lemma sapp_len s t : String.length (s ++ t) = String.length s + String.length t.
Proof. induction s as [|c s IH]; [done|]. rewrite sapp_cons. cbn [String.length]. rewrite IH. lia. Qed.
Lemma sapp_nil s : (s ++ "")%string = s.
Proof. induction s as [|c s IH]; [done|]. rewrite sapp_cons. by rewrite IH. Qed.

Lemma split_join parts (b : bool) : parts <> [] -> Forall no_slash parts ->
  split_slash (join_parts parts ++ if b then "/" else "") = ""%string :: parts ++ if b then [""%string] else [].
Proof.
  intros Hne Hf. induction Hf as [|x l Hx Hl IH]; [done|]. cbn [join_parts]. rewrite !sapp_assoc, sapp_cons, sapp_empty.
  change (split_slash (String "/" ?s)) with (""%string :: split_slash s). f_equal.
  destruct l as [|y l].
  - cbn [join_parts app]. rewrite sapp_empty. destruct b.
    + by rewrite (split_part x "" Hx).
    + rewrite sapp_nil. by apply split_last.
  - specialize (IH ltac:(done)). cbn [join_parts] in IH |- *. rewrite !sapp_assoc, sapp_cons, sapp_empty in IH |- *.
    rewrite (split_part x _ Hx). change (split_slash (String "/" ?s)) with (""%string :: split_slash s) in IH. injection IH as IH. cbn [app]. by rewrite IH.
Qed.

Lemma clean_good l acc : Forall no_slash l -> Forall good_part acc -> Forall good_part (clean_parts l acc).
Proof.
  revert acc. induction l as [|x l IH]; intros acc Hl Ha; cbn [clean_parts].
  - rewrite Forall_forall in Ha |- *. intros y Hy. apply Ha, elem_of_list_In, in_rev, elem_of_list_In, Hy.
  - apply Forall_cons in Hl as [Hx Hl]. case_bool_decide as E1; [by apply IH|]. case_bool_decide as E2; [by apply IH|]. cbn [orb].
    case_bool_decide as E3; [apply IH; [done|]; destruct acc; [done|by apply Forall_cons in Ha as [_ ?]]|]. apply IH; [done|]. by constructor.
Qed.

Lemma clean_keeps l acc : Forall good_part l -> clean_parts l acc = rev acc ++ l.
Proof.
  intros Hl. revert acc. induction Hl as [|x l (H1 & H2 & H3 & _) Hl IH]; intros acc; cbn [clean_parts]; [by rewrite app_nil_r|].
  rewrite !bool_decide_eq_false_2 by done. cbn [orb]. rewrite IH. cbn [rev]. by rewrite <- app_assoc.
Qed.
Lemma clean_keeps_end l acc : Forall good_part l -> clean_parts (l ++ [""%string]) acc = rev acc ++ l.
Proof.
  intros Hl. revert acc. induction Hl as [|x l (H1 & H2 & H3 & _) Hl IH]; intros acc; cbn [clean_parts app]; [by rewrite app_nil_r|].
  rewrite !bool_decide_eq_false_2 by done. cbn [orb]. rewrite IH. cbn [rev]. by rewrite <- app_assoc.
Qed.

Lemma ends_app s : ends_slash (s ++ "/") = true.
Proof. induction s as [|c s IH]; [done|]. rewrite sapp_cons. cbn [ends_slash]. destruct (s ++ "/")%string eqn:E; [by destruct s|done]. Qed.
Lemma ends_part s x : no_slash x -> x <> ""%string -> ends_slash (s ++ x) = false.
Proof.
  intros Hx Hne. induction s as [|c s IH].
  - rewrite sapp_empty. induction x as [|d x IHx]; [done|]. cbn [no_slash ends_slash] in *. destruct Hx as [Hd Hx].
    destruct x; [by rewrite bool_decide_eq_false_2|]. by apply IHx.
  - rewrite sapp_cons. cbn [ends_slash]. destruct (s ++ x)%string eqn:E; [by destruct s|done].
Qed.
Lemma ends_join parts : parts <> [] -> Forall good_part parts -> ends_slash (join_parts parts) = false.
Proof.
  intros Hne Hf. induction Hf as [|x l (H1 & _ & _ & H4) Hl IH]; [done|]. cbn [join_parts].
  destruct l as [|y l]; [cbn [join_parts]; rewrite sapp_nil; by apply ends_part|].
  specialize (IH ltac:(done)). revert IH. generalize (join_parts (y :: l)) as s. intros s Hs. assert (s = ""%string \/ s <> ""%string) as [->|Hn] by (destruct s; [by left|by right]).
  - rewrite sapp_nil. by apply ends_part.
  - rewrite <- sapp_assoc. generalize ("/" ++ x)%string as t. intros t. induction t as [|c t IHt]; [done|]. rewrite sapp_cons. cbn [ends_slash].
    destruct (t ++ s)%string eqn:E; [by destruct t|done].
Qed.

Lemma join_slash parts : parts <> [] -> exists s, forall b, (join_parts parts ++ b)%string = String "/" (s ++ b)%string.
Proof. destruct parts as [|x l]; [done|]. intros _. cbn [join_parts]. exists (x ++ join_parts l)%string. intros b. by rewrite sapp_assoc. Qed.

Lemma clean_canonical p : canonical (clean_path p).
Proof.
  unfold clean_path. set (q := match p with String "/" _ => p | _ => _ end).
  pose proof (clean_good (split_slash q) [] (split_no_slash q) ltac:(constructor)) as Hg.
  destruct (clean_parts (split_slash q) []) as [|x l] eqn:E; [by left|]. right. by exists (x :: l), (ends_slash q).
Qed.

Lemma canonical_clean p : canonical p -> clean_path p = p.
Proof.
  intros [->|(parts & b & Hne & Hf & ->)]; [done|]. unfold clean_path.
  destruct (join_slash parts Hne) as [s Hs]. rewrite Hs.
  assert (Forall no_slash parts) as Hns by (eapply Forall_impl; [exact Hf|]; by intros x (_ & _ & _ & ?)).
  assert (clean_parts (split_slash (String "/" (s ++ if b then "/" else ""))) [] = parts) as ->.
  { rewrite <- Hs, (split_join parts b Hne Hns). cbn [clean_parts]. rewrite bool_decide_eq_true_2 by done. cbn [orb].
    destruct b; [rewrite clean_keeps_end by done|rewrite app_nil_r, clean_keeps by done]; done. }
  destruct parts as [|x l]; [done|]. rewrite <- Hs. f_equal.
  destruct b; [by rewrite ends_app|]. rewrite sapp_nil. by rewrite ends_join.
Qed.

(** ** Prefixes *)

Definition below (q p : string) : Prop := exists rest, p = (q ++ rest)%string.

Lemma prefix_below q p : String.prefix q p = true <-> below q p.
Proof.
  revert p. induction q as [|c q IH]; intros p.
  - split; [intros _; by exists p|]. intros _. by destruct p.
  - destruct p as [|d p]; [split; [done|]; intros [r Hr]; rewrite sapp_cons in Hr; done|]. cbn [String.prefix]. destruct (ascii_dec c d) as [->|Hne].
    + rewrite IH. split; intros [r Hr]; exists r; [by rewrite sapp_cons, Hr|]. rewrite sapp_cons in Hr. by injection Hr.
    + split; [done|]. intros [r Hr]. rewrite sapp_cons in Hr. injection Hr as ->. done.
Qed.

Lemma below_comparable a b p : below a p -> below b p -> below a b \/ below b a.
Proof.
  revert b p. induction a as [|c a IH]; intros b p [r1 H1] [r2 H2].
  - left. by exists b.
  - destruct b as [|d b]; [right; by exists (String c a)|]. rewrite sapp_cons in H1, H2. subst p. injection H2 as -> H2.
    destruct (IH b (a ++ r1)%string) as [[r Hr]|[r Hr]]; [by exists r1|by exists r2| |].
    + left. exists r. by rewrite sapp_cons, Hr.
    + right. exists r. by rewrite sapp_cons, Hr.
Qed.

Lemma canonical_root p : canonical p -> below "/" p.
Proof.
  intros [->|(parts & b & Hne & _ & ->)]; [by exists ""%string|]. destruct (join_slash parts Hne) as [s Hs]. rewrite Hs. eexists. reflexivity.
Qed.

(** ** The tool's patterns *)

Global Instance page_eq_dec : EqDecision page.
Proof. solve_decision. Defined.

(** The patterns other than "/", as the multiplexer has them. *)
Definition pages0 (flows logs : bool) : mux :=
  match tool_mux flows logs with Some m => removelast m | None => [] end.

Definition strip (s : string) : string := String.substring 0 (String.length s - 1) s.
Lemma strip_app p : strip (p ++ "/") = p.
Proof.
  unfold strip. assert (String.length (p ++ "/") = S (String.length p)) as ->.
  { induction p as [|c p IH]; [done|]. rewrite sapp_cons. cbn [String.length]. by rewrite IH. }
  replace (S (String.length p) - 1) with (String.length p) by lia.
  induction p as [|c p IH]; [done|]. rewrite sapp_cons. cbn [String.length String.substring]. by rewrite IH.
Qed.

Definition pages_check (flows logs : bool) : bool :=
  let m0 := pages0 flows logs in
  bool_decide (tool_mux flows logs = Some (m0 ++ [("/"%string, PRoot)])) &&
  forallb (fun x => forallb (fun y => negb (String.prefix x.1 y.1) || bool_decide (x = y)) m0) m0 &&
  forallb (fun x => bool_decide (clean_path x.1 = x.1) && negb (ends_slash (strip x.1)) && bool_decide (strip x.1 <> ""%string) &&
                    bool_decide (registered (m0 ++ [("/"%string, PRoot)]) (strip x.1) = None) && bool_decide (x.1 <> "/"%string) &&
                    ends_slash x.1 &&
                    bool_decide (registered (m0 ++ [("/"%string, PRoot)]) x.1 = Some x.2)) m0 &&
  forallb (fun x => bool_decide (x ∈ m0)) (tail (tool_pages flows logs)) && forallb (fun x => bool_decide (x ∈ tool_pages flows logs)) m0.

Lemma pages_checked flows logs : pages_check flows logs = true.
Proof. destruct flows, logs; vm_compute; reflexivity. Qed.

Record pages_fact (m0 : mux) (flows logs : bool) : Prop := PagesFact {
  pf_mux : tool_mux flows logs = Some (m0 ++ [("/"%string, PRoot)]);
  pf_apart : forall x y, x ∈ m0 -> y ∈ m0 -> below x.1 y.1 -> x = y;
  pf_canonical : forall x, x ∈ m0 -> canonical x.1;
  pf_strip : forall p x, x ∈ m0 -> x.1 = (p ++ "/")%string -> ends_slash p = false /\ p <> ""%string /\ registered (m0 ++ [("/"%string, PRoot)]) p = None;
  pf_ne : forall x, x ∈ m0 -> x.1 <> "/"%string;
  pf_reg : forall x, x ∈ m0 -> registered (m0 ++ [("/"%string, PRoot)]) x.1 = Some x.2;
  pf_in : forall x, x ∈ m0 <-> x = ("/sources/"%string, PSources) \/ exists t, t ∈ tool_types flows logs /\ x = (type_path t, PType (default (TypeMeta "" "") (get_type_meta t)));
}.

Lemma pages_facts flows logs : pages_fact (pages0 flows logs) flows logs.
Proof.
  pose proof (pages_checked flows logs) as H. unfold pages_check in H. set (m0 := pages0 flows logs) in *. clearbody m0.
  rewrite !andb_true_iff, !forallb_forall in H. destruct H as ((((H1 & H2) & H3) & H4) & H5). apply bool_decide_eq_true in H1.
  assert (forall x, x ∈ m0 -> canonical x.1 /\ (ends_slash (strip x.1) = false /\ strip x.1 <> ""%string /\ registered (m0 ++ [("/"%string, PRoot)]) (strip x.1) = None) /\
    x.1 <> "/"%string /\ registered (m0 ++ [("/"%string, PRoot)]) x.1 = Some x.2) as H3'.
  { intros x Hx. specialize (H3 x ltac:(by apply elem_of_list_In)). rewrite !andb_true_iff, !bool_decide_eq_true, negb_true_iff in H3.
    destruct H3 as ((((((C1 & C2) & C3) & C4) & C5) & _) & C6). split; [rewrite <- C1; apply clean_canonical|]. done. }
  split; [done| | | | | |].
  - intros x y Hx Hy Hb. specialize (H2 x ltac:(by apply elem_of_list_In)). rewrite forallb_forall in H2. specialize (H2 y ltac:(by apply elem_of_list_In)).
    apply orb_true_iff in H2 as [H2|H2]; [|by apply bool_decide_eq_true in H2]. apply negb_true_iff in H2. apply prefix_below in Hb. congruence.
  - intros x Hx. by apply H3'.
  - intros p x Hx E. destruct (H3' x Hx) as (_ & Hs & _). rewrite E, strip_app in Hs. done.
  - intros x Hx. by apply H3'.
  - intros x Hx. by apply H3'.
  - intros x. split.
    + intros Hx. pose proof (H3' x Hx) as (_ & _ & Hne & _). specialize (H5 x ltac:(by apply elem_of_list_In)). apply bool_decide_eq_true in H5. unfold tool_pages in H5.
      apply elem_of_app in H5 as [H5|H5].
      * apply elem_of_cons in H5 as [->|H5]; [done|]. apply elem_of_list_singleton in H5. by left.
      * apply elem_of_list_fmap in H5 as (t & -> & Ht). right. eauto.
    + intros Hx. specialize (H4 x). rewrite bool_decide_eq_true in H4. apply H4, elem_of_list_In. unfold tool_pages. cbn [tail app].
      destruct Hx as [->|(t & Ht & ->)]; [by left|right]. apply elem_of_list_fmap. eauto.
Qed.

Lemma find_app {A} (f : A -> bool) l k : List.find f (l ++ k) = match List.find f l with Some x => Some x | None => List.find f k end.
Proof. induction l as [|x l IH]; [done|]. cbn. by destruct (f x). Qed.

Lemma registered_in m p h : registered m p = Some h -> exists x, x ∈ m /\ x.1 = p /\ x.2 = h.
Proof.
  unfold registered. destruct (List.find _ m) as [x|] eqn:E; [|done]. apply find_some in E as [Hin Hb]. apply bool_decide_eq_true in Hb.
  intros [= <-]. exists x. split; [by apply elem_of_list_In|done].
Qed.

Section routes.
Context (flows logs : bool) (m0 : mux) (Hf : pages_fact m0 flows logs).
Notation m := (m0 ++ [("/"%string, PRoot)]).

Lemma route_below p x : canonical p -> x ∈ m0 -> below x.1 p -> route m p = Page x.2.
Proof.
  intros Hc Hx Hb. unfold route. rewrite (canonical_clean p Hc). rewrite (bool_decide_eq_false_2 (p <> p)) by auto.
  assert (should_redirect m p = false) as ->.
  { unfold should_redirect. destruct (registered m p) eqn:E1; [done|]. destruct (registered m (p ++ "/")) eqn:E2; [|done].
    apply registered_in in E2 as (y & Hy & E & _). apply elem_of_app in Hy as [Hy|Hy].
    - assert (x = y) as ->. { eapply pf_apart; [done..|]. destruct Hb as [r ->]. rewrite E. exists (r ++ "/")%string. by rewrite sapp_assoc. }
      destruct (pf_strip _ _ _ Hf p y Hy E) as (Hs & _ & _). destruct Hb as [r Hr]. rewrite E in Hr.
      assert (String.length p = String.length ((p ++ "/") ++ r)) as El by (by rewrite <- Hr).
      rewrite !sapp_len in El. cbn in El. lia.
    - apply elem_of_list_singleton in Hy as ->. cbn in E. destruct p as [|c p]; [|rewrite sapp_cons in E; injection E as _ E; by destruct p].
      destruct (canonical_root _ Hc) as [r Hr]. done. }
  unfold mux_match. destruct (registered m p) as [h|] eqn:E.
  - apply registered_in in E as (y & Hy & E1 & <-). apply elem_of_app in Hy as [Hy|Hy].
    + f_equal. f_equal. symmetry. eapply pf_apart; [done..|]. by rewrite E1.
    + apply elem_of_list_singleton in Hy as ->. cbn in E1. subst p. exfalso. destruct Hb as [r Hr].
      destruct (canonical_root _ (pf_canonical _ _ _ Hf x Hx)) as [r' Hr']. rewrite Hr', sapp_assoc in Hr.
      apply (pf_ne _ _ _ Hf x Hx). rewrite Hr'. destruct r'; [done|]. by injection Hr.
  - rewrite find_app. destruct (List.find (fun x => String.prefix x.1 p) m0) as [y|] eqn:E2.
    + apply find_some in E2 as [Hy Hp]. apply elem_of_list_In in Hy. apply prefix_below in Hp. cbn. f_equal. f_equal.
      destruct (below_comparable _ _ _ Hb Hp) as [H|H]; [symmetry|]; by eapply pf_apart.
    + exfalso. apply elem_of_list_In in Hx. pose proof (find_none _ _ E2 x Hx) as Hn. apply prefix_below in Hb. cbn in Hn. congruence.
Qed.

Lemma route_root p : canonical p -> (forall x, x ∈ m0 -> ~ below x.1 p) -> (forall x, x ∈ m0 -> x.1 <> (p ++ "/")%string) -> route m p = Page PRoot.
Proof.
  intros Hc Hb Hs. unfold route. rewrite (canonical_clean p Hc). rewrite (bool_decide_eq_false_2 (p <> p)) by auto.
  assert (should_redirect m p = false) as ->.
  { unfold should_redirect. destruct (registered m p) eqn:E1; [done|]. destruct (registered m (p ++ "/")) eqn:E2; [|done].
    apply registered_in in E2 as (y & Hy & E & _). apply elem_of_app in Hy as [Hy|Hy]; [by destruct (Hs y Hy)|].
    apply elem_of_list_singleton in Hy as ->. cbn in E. destruct p as [|c p]; [|rewrite sapp_cons in E; injection E as _ E; by destruct p].
    destruct (canonical_root _ Hc) as [r Hr]. done. }
  unfold mux_match. destruct (registered m p) as [h|] eqn:E.
  - apply registered_in in E as (y & Hy & E1 & <-). apply elem_of_app in Hy as [Hy|Hy].
    + destruct (Hb y Hy). exists ""%string. by rewrite sapp_nil.
    + by apply elem_of_list_singleton in Hy as ->.
  - rewrite find_app. destruct (List.find (fun x => String.prefix x.1 p) m0) as [y|] eqn:E2.
    + apply find_some in E2 as [Hy Hp]. apply elem_of_list_In in Hy. apply prefix_below in Hp. by destruct (Hb y Hy).
    + cbn [List.find fst]. apply canonical_root in Hc. apply prefix_below in Hc. by rewrite Hc.
Qed.

Lemma route_slash p x : canonical p -> x ∈ m0 -> x.1 = (p ++ "/")%string -> route m p = Moved x.1.
Proof.
  intros Hc Hx E. unfold route. rewrite (canonical_clean p Hc). destruct (pf_strip _ _ _ Hf p x Hx E) as (H1 & H2 & H3).
  unfold should_redirect. rewrite H3, <- E, (pf_reg _ _ _ Hf x Hx), H1, bool_decide_eq_true_2 by done. done.
Qed.

Lemma route_unclean p : ~ canonical p -> exists q, route m p = Moved q /\
  (q = clean_path p \/ exists x, x ∈ m0 /\ q = x.1 /\ x.1 = (clean_path p ++ "/")%string).
Proof.
  intros Hc. unfold route. destruct (should_redirect m (clean_path p)) eqn:E.
  - eexists. split; [done|]. right. unfold should_redirect in E. destruct (registered m (clean_path p)) eqn:E1; [done|].
    destruct (registered m (clean_path p ++ "/")) eqn:E2; [|done]. apply registered_in in E2 as (y & Hy & E2 & _). apply elem_of_app in Hy as [Hy|Hy]; [by exists y|].
    apply elem_of_list_singleton in Hy as ->. cbn in E2. destruct (clean_path p) as [|c p'] eqn:Ec; [|rewrite sapp_cons in E2; injection E2 as _ E2; by destruct p'].
    exfalso. pose proof (clean_canonical p) as H. rewrite Ec in H. destruct (canonical_root _ H) as [r Hr]. done.
  - rewrite bool_decide_eq_true_2; [eexists; split; [done|by left]|]. intros E2. apply Hc. rewrite <- E2. apply clean_canonical.
Qed.
End routes.

(** ** Answers *)

(** What the tool offers. *)
Definition offered (flows logs : bool) : list string :=
  ["/"; "/sources/"; "/flow/v1/SiteRecord/"; "/flow/v1/LinkRecord/"; "/flow/v1/RouterRecord/"; "/flow/v1/ListenerRecord/"; "/flow/v1/ConnectorRecord/"; "/flow/v1/ProcessRecord/"]%string ++
  (if flows then ["/flow/v1/FlowRecord/"%string] else []) ++ (if logs then ["/flow/v1/LogRecord/"%string] else []).

(** The times in a value. *)
Inductive holds : goval -> gotime -> Prop :=
  | holds_time t : holds (VTime t) t
  | holds_ptr v t : holds v t -> holds (VPtr (Some v)) t
  | holds_field vs v t : v ∈ vs -> holds v t -> holds (VStruct vs) t.
(** In local time it is in one of the years 0 to 9999: the first begins 719528
    days before 1970, and four hundred years have 146097 days. *)
Definition four_digits (zone : gotime -> Z) (t : gotime) : Prop :=
  (- 719528 * 86400 <= t_sec t + zone t < (25 * 146097 - 719528) * 86400)%Z.
Definition storable (zone : gotime -> Z) (v : goval) : Prop := forall t, holds v t -> four_digits zone t.

(** An answer with data: the whole, unless an entry has a time that JSON cannot
    hold. *)
Definition fits (zone : gotime -> Z) (x : entry) : Prop :=
  four_digits zone (m_updated (e_meta x)) /\ forall r, e_rec x = Some r -> storable zone (vr_val r).

Lemma time_fits zone t : json_time_ok zone t = true <-> four_digits zone t.
Proof. unfold json_time_ok, four_digits. rewrite andb_true_iff, Z.leb_le, Z.ltb_lt. lia. Qed.
Lemma storable_ok zone : forall v, json_ok zone v = true <-> storable zone v.
Proof.
  fix IH 1. intros v. unfold storable. destruct v as [s|n|z|n|z|t|[v|]|vs|n]; cbn [json_ok];
    try (split; [intros _ t' H; inversion H|done]).
  - rewrite time_fits. split; [intros H t' Ht; by inversion Ht; subst|]. intros H. apply H. constructor.
  - rewrite (IH v). split; [intros H t' Ht; inversion Ht; subst; by apply H|]. intros H t' Ht. apply H. by constructor.
  - assert (forallb (json_ok zone) vs = true <-> Forall (storable zone) vs) as ->.
    { induction vs as [|v vs IHv]; cbn [forallb]; [by split|]. rewrite andb_true_iff, Forall_cons. by rewrite (IH v), IHv. }
    rewrite Forall_forall. split; [intros H t' Ht; inversion Ht; subst; by eapply H|]. intros H v Hv t' Ht. apply H. by econstructor.
Qed.
Lemma entry_fits zone x : entry_json_ok zone x = true <-> fits zone x.
Proof.
  unfold entry_json_ok, fits. rewrite andb_true_iff, time_fits. destruct (e_rec x) as [r|]; [|naive_solver].
  rewrite storable_ok. naive_solver.
Qed.

Lemma refs_offered flows logs : tool_refs flows logs = offered flows logs.
Proof. by destruct flows, logs; vm_compute. Qed.

Lemma offered_in flows logs p : p ∈ offered flows logs <-> p = "/"%string \/ exists x, x ∈ pages0 flows logs /\ p = x.1.
Proof.
  pose proof (pages_facts flows logs) as Hf. rewrite <- refs_offered. unfold tool_refs. rewrite elem_of_app, !elem_of_cons, elem_of_nil, elem_of_list_fmap. split.
  - intros [[?|[->|[]]]|(t & -> & Ht)]; [by left| |]; right; (eexists; split; [apply (pf_in _ _ _ Hf)|]).
    + by left. + done. + right. by exists t. + done.
  - intros [->|(x & Hx & ->)]; [by left; left|]. apply (pf_in _ _ _ Hf) in Hx as [->|(t & Ht & ->)]; [left; right; by left|right; by exists t].
Qed.

Lemma starts_up flows logs : tool_mux flows logs <> None.
Proof. by rewrite (pf_mux _ _ _ (pages_facts flows logs)). Qed.

Section answers.
Context (flows logs : bool) (zone : gotime -> Z) (e : env) (st : items) (srcs : list source_ref).
Notation ans := (answer flows logs zone e st srcs).

Lemma ans_mux p : ans p = match route (pages0 flows logs ++ [("/"%string, PRoot)]) p with
      | Moved q => Redirected q
      | NoPage => Reply 404 None
      | Page PRoot =>
          if bool_decide (p <> "/"%string) then Reply 404 (encoded zone (Body [] true (tool_refs flows logs)))
          else listing zone (tool_refs flows logs) (list_all fixture_config e st None)
      | Page PSources => Reply 200 (encoded zone (Body (source_entry <$> srcs) false []))
      | Page (PType t) => listing zone [] (index_of fixture_config e st "ByType" (type_exemplar t) None)
      end.
Proof. unfold answer. by rewrite (pf_mux _ _ _ (pages_facts flows logs)). Qed.

Lemma root_route : route (pages0 flows logs ++ [("/"%string, PRoot)]) "/" = Page PRoot.
Proof.
  pose proof (pages_facts flows logs) as Hf. apply route_root; [by left| |].
  - intros x Hx [r Hr]. destruct (canonical_root _ (pf_canonical _ _ _ Hf x Hx)) as [r' Hr']. rewrite Hr', sapp_assoc in Hr.
    apply (pf_ne _ _ _ Hf x Hx). rewrite Hr'. destruct r'; [done|]. by injection Hr.
  - intros x Hx E. destruct (pf_strip _ _ _ Hf "/" x Hx E) as (H & _). done.
Qed.

Lemma root_answer : env_ok e -> exists l, enumerates (contents st) (fun _ => True) l /\
  ans "/" = Reply 200 (if forallb (entry_json_ok zone) l then Some (Body l false (offered flows logs)) else None).
Proof.
  intros He. destruct (list_complete fixture_config e st He) as (l & Hl & Hen). exists l. split; [done|]. cbn [run_op] in Hl.
  assert (list_all fixture_config e st None = OutSet l "" None) as E by exact (f_equal (fun x => x.1.2) Hl).
  rewrite ans_mux, root_route, (bool_decide_eq_false_2 ("/" <> "/")%string), E, refs_offered by auto. done.
Qed.

Lemma type_answer t m p : reachable fixture_config st -> env_ok e -> t ∈ tool_types flows logs -> get_type_meta t = Some m -> canonical p -> below (type_path t) p ->
  exists l, enumerates (contents st) (fun y => type_meta_string (e_tm y) = type_meta_string m) l /\
    ans p = Reply 200 (if forallb (entry_json_ok zone) l then Some (Body l false []) else None).
Proof.
  intros Hr He Ht Hm Hc Hb. pose proof (pages_facts flows logs) as Hf.
  destruct (index_exact fixture_config e st "ByType" by_type (type_exemplar m) Hr He) as (l & Hl & Hen); [reflexivity|].
  exists l. split.
  - destruct Hen as (ks & Hnd & H2 & Hk). exists ks. split; [done|]. split; [done|]. intros k. rewrite Hk. unfold by_type. cbn [e_tm type_exemplar].
    split; intros (x & Hx & H); exists x; (split; [done|]).
    + destruct H as (b & Hb1 & Hb2). apply elem_of_list_singleton in Hb1, Hb2. congruence.
    + eexists. split; apply elem_of_list_singleton; [done|by rewrite H].
  - cbn [run_op] in Hl. assert (index_of fixture_config e st "ByType" (type_exemplar m) None = OutSet l "" None) as E by exact (f_equal (fun x => x.1.2) Hl).
    rewrite ans_mux. rewrite (route_below flows logs _ Hf p (type_path t, PType m) Hc); [|apply (pf_in _ _ _ Hf); right; exists t; by rewrite Hm|done].
    cbn [snd]. by rewrite E.
Qed.

Lemma sources_answer p : (forall t, -86400 <= zone t <= 86400)%Z -> canonical p -> below "/sources/" p ->
  ans p = Reply 200 (Some (Body ((fun r => Entry (Metadata r zero_time ∅) (TypeMeta "" "") None) <$> srcs) false [])).
Proof.
  intros Hz Hc Hb. pose proof (pages_facts flows logs) as Hf. rewrite ans_mux.
  rewrite (route_below flows logs _ Hf p ("/sources/"%string, PSources) Hc); [|apply (pf_in _ _ _ Hf); by left|done].
  cbn [snd]. unfold encoded. cbn [b_data]. assert (forallb (entry_json_ok zone) (source_entry <$> srcs) = true) as ->; [|done].
  apply forallb_forall. intros x Hx. apply elem_of_list_In, elem_of_list_fmap in Hx as (r & -> & _).
  unfold entry_json_ok. cbn. rewrite andb_true_r. unfold json_time_ok. cbn [t_sec zero_time]. specialize (Hz zero_time). apply andb_true_iff. split; [apply Z.leb_le|apply Z.ltb_lt]; lia.
Qed.

Lemma unknown_answer p : canonical p -> p <> "/"%string -> (forall q, q ∈ offered flows logs -> q <> "/"%string -> ~ below q p) ->
  (p ++ "/")%string ∉ offered flows logs -> ans p = Reply 404 (Some (Body [] true (offered flows logs))).
Proof.
  intros Hc Hne Hb Hs. pose proof (pages_facts flows logs) as Hf. rewrite ans_mux, (route_root (pages0 flows logs) p Hc).
  - rewrite (bool_decide_eq_true_2 (p <> "/")%string), refs_offered by done. done.
  - intros x Hx. apply Hb; [apply offered_in; right; eauto|]. by eapply pf_ne.
  - intros x Hx E. apply Hs, offered_in. right. exists x. split; [done|]. by rewrite E.
Qed.

Lemma moved_answer p : (~ canonical p \/ p <> "/"%string /\ (p ++ "/")%string ∈ offered flows logs) <-> exists q, ans p = Redirected q.
Proof.
  pose proof (pages_facts flows logs) as Hf. split.
  - intros Hp. assert (forall q, route (pages0 flows logs ++ [("/"%string, PRoot)]) p = Moved q -> ans p = Redirected q) as Hans by (intros q E; by rewrite ans_mux, E).
    destruct (decide (clean_path p = p)) as [Ec|Ec].
    + assert (canonical p) as Hc by (rewrite <- Ec; apply clean_canonical). destruct Hp as [Hp|[Hne Hp]]; [done|].
      apply offered_in in Hp as [E|(x & Hx & E)]; [destruct p as [|c p]; [destruct (canonical_root _ Hc) as [r Hr]; done|rewrite sapp_cons in E; injection E as _ E; by destruct p]|].
      exists x.1. by apply Hans, (route_slash flows logs _ Hf p x Hc Hx).
    + assert (~ canonical p) as Hc by (intros H; by apply canonical_clean in H). destruct (route_unclean (pages0 flows logs) p Hc) as (q & Hq & _). exists q. by apply Hans.
  - intros [q Hq]. destruct (decide (clean_path p = p)) as [Ec|Ec]; [|left; intros H; by apply canonical_clean in H].
    assert (canonical p) as Hc by (rewrite <- Ec; apply clean_canonical). right.
    destruct (decide (p = "/"%string)) as [->|Hne].
    { rewrite ans_mux, root_route in Hq. exfalso. revert Hq. rewrite (bool_decide_eq_false_2 ("/" <> "/")%string) by auto. unfold listing. by destruct (list_all _ _ _ _). }
    split; [done|]. apply offered_in. right. rewrite ans_mux in Hq. unfold route in Hq. rewrite Ec, (bool_decide_eq_false_2 (p <> p)) in Hq by auto.
    destruct (should_redirect _ p) eqn:E.
    + unfold should_redirect in E. destruct (registered _ p) eqn:E1; [done|]. destruct (registered _ (p ++ "/")) eqn:E2; [|done].
      apply registered_in in E2 as (y & Hy & E2 & _). apply elem_of_app in Hy as [Hy|Hy]; [by exists y|].
      apply elem_of_list_singleton in Hy as ->. cbn in E2. destruct p as [|c p]; [by destruct (canonical_root _ Hc) as [r Hr]|]. rewrite sapp_cons in E2. injection E2 as _ E2. by destruct p.
    + exfalso. destruct (mux_match _ p) as [[| |t]|]; try done. by rewrite bool_decide_eq_true_2 in Hq by done.
Qed.

(** Where it leads is answered. *)
Lemma moved_once p q : ans p = Redirected q -> canonical q /\ forall q', ans q <> Redirected q'.
Proof.
  pose proof (pages_facts flows logs) as Hf. intros Hq.
  assert (forall p q, ans p = Redirected q -> route (pages0 flows logs ++ [("/"%string, PRoot)]) p = Moved q) as Hinv.
  { intros p' q' H. rewrite ans_mux in H. destruct (route _ p') as [q0|[| |t]|]; try done; [by injection H as ->|by case_bool_decide]. }
  apply Hinv in Hq. unfold route in Hq. destruct (should_redirect _ (clean_path p)) eqn:E.
  - unfold should_redirect in E. destruct (registered _ (clean_path p)) eqn:E1; [done|].
    destruct (registered _ (clean_path p ++ "/")) eqn:E2; [|done]. apply registered_in in E2 as (y & Hy & E2 & _). apply elem_of_app in Hy as [Hy|Hy].
    + injection Hq as <-. rewrite <- E2. split; [by eapply pf_canonical|]. intros q' Hq'. apply Hinv in Hq'.
      rewrite (route_below flows logs _ Hf y.1 y) in Hq'; [done|by eapply pf_canonical|done|]. exists ""%string. by rewrite sapp_nil.
    + apply elem_of_list_singleton in Hy as ->. cbn in E2. pose proof (clean_canonical p) as H. destruct (clean_path p) as [|c p'].
      * by destruct (canonical_root _ H) as [r Hr].
      * rewrite sapp_cons in E2. injection E2 as _ E2. by destruct p'.
  - case_bool_decide as Ec; [|by destruct (mux_match _ p)]. injection Hq as <-. split; [apply clean_canonical|]. intros q' Hq'. apply Hinv in Hq'.
    unfold route in Hq'. rewrite (canonical_clean _ (clean_canonical p)), E, bool_decide_eq_false_2 in Hq' by auto. by destruct (mux_match _ _).
Qed.
End answers.

(** ** Together *)

Local Opaque vanflow_registry builtin_types record_types Encode Decode.

Lemma enumerates_omap st P l : enumerates st P l -> exists ks, NoDup ks /\ l = omap (entry_at st) ks /\ forall k, k ∈ ks <-> exists x, entry_at st k = Some x /\ P x.
Proof.
  intros (ks & Hnd & H2 & Hk). exists ks. split; [done|]. split; [|done]. clear Hnd Hk. induction H2 as [|k x ks l Hx _ IH]; [done|]. cbn. rewrite Hx. by f_equal.
Qed.

Lemma enumerates_in st P l x : enumerates st P l -> x ∈ l -> P x /\ exists k, entry_at st k = Some x.
Proof.
  intros (ks & _ & -> & Hk)%enumerates_omap Hx. apply elem_of_list_omap in Hx as (k & Hin & Hx). apply Hk in Hin as (y & Hy & HP).
  assert (x = y) as -> by congruence. eauto.
Qed.

Lemma enumerates_has st (P : entry -> Prop) l k x : enumerates st P l -> entry_at st k = Some x -> P x -> x ∈ l.
Proof. intros (ks & _ & -> & Hk)%enumerates_omap Hx HP. apply elem_of_list_omap. exists k. split; [|done]. apply Hk. eauto. Qed.

(** Every entry is labelled with the type of a record received. *)
Lemma entry_label l k x : usable_history l -> entry_at (contents (state_after fixture_config l)) k = Some x ->
  exists r, received l r /\ e_tm x = vrec_meta r.
Proof.
  intros Hu Hx. pose proof Hu as (He & Hc & _). unfold entry_at in Hx. destruct (contents _ !! k) as [[y v]|] eqn:E; [|done]. injection Hx as ->.
  destruct (collected_key l k x v He Hc E) as (r0 & _ & ->). pose proof (collected_labelled l Hu (vrec_identity r0)) as Hl.
  destruct (received_as (vrec_identity r0) l) as [|f rs] eqn:Er.
  - unfold labelled, entry_at in Hl. by rewrite E in Hl.
  - destruct Hl as (x' & r & la & Hx & _ & _ & _ & _ & _ & Htm & _). unfold entry_at in Hx. rewrite E in Hx. injection Hx as ->.
    exists f. split; [|done]. apply recs_of_received. assert (f ∈ received_as (vrec_identity r0) l) as Hf by (rewrite Er; left).
    by apply elem_of_list_filter in Hf as [_ ?].
Qed.

(** Disjoint parts of a store that cover it. *)
Lemma partition_enum {A} st (ts : list A) (P : A -> entry -> Prop) all : NoDup ts ->
  (forall t t' x, t ∈ ts -> t' ∈ ts -> P t x -> P t' x -> t = t') -> (forall k x, entry_at st k = Some x -> exists t, t ∈ ts /\ P t x) ->
  enumerates st (fun _ => True) all -> forall ls, Forall2 (fun t l => enumerates st (P t) l) ts ls -> all ≡ₚ concat ls.
Proof.
  intros Hnd Hdis Hcov (ks & Hk1 & -> & Hk2)%enumerates_omap ls H2.
  assert (exists kss, ls = (fun ks : list string => omap (M:=list) (entry_at st) ks) <$> kss /\ Forall2 (fun t ks => NoDup ks /\ forall k, k ∈ ks <-> exists x, entry_at st k = Some x /\ P t x) ts kss) as (kss & -> & H3).
  { clear -H2. induction H2 as [|t l ts ls Hl _ (kss & -> & IH)]; [by exists []|]. apply enumerates_omap in Hl as (k & Hn & -> & Hk).
    exists (k :: kss). split; [done|]. by constructor. }
  assert (ks ≡ₚ concat kss) as Hp.
  { apply NoDup_Permutation; [done| |].
    - clear -Hnd Hdis H3. induction H3 as [|t k ts kss [Hn Hk] H3 IH]; [constructor|]. apply NoDup_cons in Hnd as [Hni Hnd]. cbn. apply NoDup_app.
      split; [done|]. split; [|apply IH; [done|]; intros; eapply Hdis; eauto; by right].
      intros j Hj Hj2. apply elem_of_list_In, in_concat in Hj2 as (k2 & Hin2 & Hj2). apply elem_of_list_In in Hin2. apply elem_of_list_In in Hj2.
      apply elem_of_list_lookup in Hin2 as [i Hi]. destruct (Forall2_lookup_r _ _ _ _ _ H3 Hi) as (t' & Ht' & _ & Hk').
      apply Hk in Hj as (x & Hx & HP). destruct (proj1 (Hk' j) Hj2) as (x' & Hx' & HP'). assert (x' = x) as Exx by congruence. rewrite Exx in HP'.
      apply Hni. apply elem_of_list_lookup_2 in Ht'. assert (t = t') as ->; [|done]. eapply Hdis; [left|by right|done|done].
    - intros k. rewrite Hk2. split.
      + intros (x & Hx & _). destruct (Hcov _ _ Hx) as (t & Ht & HP). apply elem_of_list_lookup in Ht as [i Hi].
        destruct (Forall2_lookup_l _ _ _ _ _ H3 Hi) as (k' & Hk' & _ & Hin). apply elem_of_list_In, in_concat. exists k'.
        split; [by apply elem_of_list_In; eapply elem_of_list_lookup_2|]. apply elem_of_list_In, Hin. eauto.
      + intros (k' & Hin & Hin2)%elem_of_list_In%in_concat. apply elem_of_list_In in Hin. apply elem_of_list_In in Hin2. apply elem_of_list_lookup in Hin as [i Hi].
        destruct (Forall2_lookup_r _ _ _ _ _ H3 Hi) as (t & _ & _ & Hk'). destruct (proj1 (Hk' k) Hin2) as (x & Hx & _). eauto. }
  rewrite Hp. clear. induction kss as [|k kss IH]; [done|]. cbn. by rewrite omap_app, IH.
Qed.

Local Transparent record_types.
Lemma tool_types_nodup flows logs : NoDup (tool_types flows logs).
Proof.
  assert (NoDup (tool_types true true)) as H.
  { apply (NoDup_fmap_1 (fun t => type_path t)). apply (bool_decide_unpack _). vm_compute. reflexivity. }
  assert (tool_types flows logs ⊆+ tool_types true true) as Hs.
  { destruct flows, logs; unfold tool_types; cbn [app]; repeat apply submseteq_skip; solve [apply submseteq_nil_l|apply submseteq_cons; solve [apply submseteq_nil_l|done]|done]. }
  revert H Hs. generalize (tool_types true true) as a, (tool_types flows logs) as b. intros a b H [k Hk]%submseteq_Permutation. rewrite Hk in H. by apply NoDup_app in H as [? _].
Qed.
Lemma tool_types_meta flows logs t : t ∈ tool_types flows logs -> exists m, get_type_meta t = Some m.
Proof.
  assert (forallb (fun t => match get_type_meta t with Some _ => true | None => false end) (tool_types flows logs) = true) as H by (by destruct flows, logs; vm_compute).
  intros Ht. rewrite forallb_forall in H. specialize (H t ltac:(by apply elem_of_list_In)). destruct (get_type_meta t); [eauto|done].
Qed.
Lemma type_path_canonical flows logs t : t ∈ tool_types flows logs -> canonical (type_path t).
Proof. intros Ht. pose proof (pages_facts flows logs) as Hf. apply (pf_canonical _ _ _ Hf (type_path t, PType (default (TypeMeta "" "") (get_type_meta t)))). apply (pf_in _ _ _ Hf). right. eauto. Qed.
Local Opaque record_types.

Lemma listings_partition flows logs zone e l srcs : usable_history l -> (forall r, received l r -> vr_type r ∈ tool_types flows logs) -> env_ok e ->
  (forall k x, entry_at (contents (state_after fixture_config l)) k = Some x -> entry_json_ok zone x = true) ->
  exists all parts, answer flows logs zone e (state_after fixture_config l) srcs "/" = Reply 200 (Some (Body all false (offered flows logs))) /\
    Forall2 (fun t part => answer flows logs zone e (state_after fixture_config l) srcs (type_path t) = Reply 200 (Some (Body part false []))) (tool_types flows logs) parts /\
    all ≡ₚ concat parts.
Proof.
  intros Hu Hty He Hok. set (st := state_after fixture_config l) in *.
  assert (reachable fixture_config st) as Hr by (destruct Hu as (Hes & _); by exists l).
  assert (forall P ll, enumerates (contents st) P ll -> forallb (entry_json_ok zone) ll = true) as Hall.
  { intros P ll Hen. apply forallb_forall. intros x Hx. apply elem_of_list_In in Hx. destruct (enumerates_in _ _ _ _ Hen Hx) as [_ [k Hk]]. eauto. }
  destruct (root_answer flows logs zone e st srcs He) as (all & Hen & Hans). rewrite (Hall _ _ Hen) in Hans.
  assert (exists parts, Forall2 (fun t part => enumerates (contents st) (fun y => type_meta_string (e_tm y) = type_meta_string (default (TypeMeta "" "") (get_type_meta t))) part /\
    answer flows logs zone e st srcs (type_path t) = Reply 200 (Some (Body part false []))) (tool_types flows logs) parts) as (parts & Hparts).
  { assert (forall ts, (forall t, t ∈ ts -> t ∈ tool_types flows logs) -> exists parts, Forall2 (fun t part => enumerates (contents st) (fun y => type_meta_string (e_tm y) = type_meta_string (default (TypeMeta "" "") (get_type_meta t))) part /\
      answer flows logs zone e st srcs (type_path t) = Reply 200 (Some (Body part false []))) ts parts) as H; [|by apply H].
    induction ts as [|t ts IH]; intros Hin; [by exists []|]. destruct IH as [parts IH]; [intros; apply Hin; by right|].
    destruct (tool_types_meta flows logs t) as [m Hm]; [apply Hin; left|].
    destruct (type_answer flows logs zone e st srcs t m (type_path t) Hr He) as (part & Hpe & Hpa); [apply Hin; left|done|eapply type_path_canonical, Hin; left|exists ""%string; by rewrite sapp_nil|].
    rewrite (Hall _ _ Hpe) in Hpa. exists (part :: parts). constructor; [|done]. by rewrite Hm. }
  exists all, parts. split; [done|]. split; [eapply Forall2_impl; [exact Hparts|]; by intros ? ? [_ ?]|].
  eapply partition_enum with (P := fun t y => type_meta_string (e_tm y) = type_meta_string (default (TypeMeta "" "") (get_type_meta t))); [apply (tool_types_nodup flows logs)| | |exact Hen|].
  - intros t t' x Ht Ht' H H'. destruct (tool_types_meta _ _ _ Ht) as [m Hm], (tool_types_meta _ _ _ Ht') as [m' Hm']. rewrite Hm in H. rewrite Hm' in H'. cbn in H, H'.
    assert (m = m') as <- by (eapply type_string_inj; [done..|congruence]). by eapply meta_inj.
  - intros k x Hx. destruct (entry_label l k x Hu Hx) as (r & Hrec & Htm). exists (vr_type r). split; [by apply Hty|].
    rewrite Htm. unfold vrec_meta. done.
  - eapply Forall2_impl; [exact Hparts|]. by intros ? ? [? _].
Qed.

(** ** Records JSON cannot show *)

Lemma usable_app l1 l2 : usable_history (l1 ++ l2) -> usable_history l1 /\ usable_history l2.
Proof.
  intros (He & Hc & Hu). unfold envs_ok, collects in *. rewrite Forall_app in He, Hc. destruct He, Hc.
  split; (split; [done|]; split; [done|]); intros e src p Hin; apply (Hu e src p), elem_of_app; auto.
Qed.

(** The entry of a record that arrived once: what was received. *)
Lemma once_kept l1 e src r l2 : usable_history (l1 ++ (e, OAccumulate src (Some r)) :: l2) ->
  (forall r', received (l1 ++ l2) r' -> vrec_identity r' <> vrec_identity r) ->
  exists u, entry_at (contents (state_after fixture_config (l1 ++ (e, OAccumulate src (Some r)) :: l2))) ("//" ++ vrec_identity r)%string =
    Some (Entry (Metadata src u ∅) (vrec_meta r) (Some r)).
Proof.
  intros Hu Hno. exists (env_now e). induction l2 as [|(e' & o) l2 IH] using rev_ind.
  - rewrite state_after_snoc. destruct (usable_app _ _ Hu) as [Hu1 _].
    pose proof (collected_labelled l1 Hu1 (vrec_identity r)) as Hl.
    destruct (received_as (vrec_identity r) l1) as [|f rs] eqn:Ef.
    2: { exfalso. assert (f ∈ received_as (vrec_identity r) l1) as Hf by (rewrite Ef; left). apply elem_of_list_filter in Hf as [Hf1 Hf2].
         apply recs_of_received in Hf2. apply (Hno f); [|done]. by rewrite app_nil_r. }
    unfold labelled in Hl.
    destruct (accumulate_first fixture_config e (state_after fixture_config l1) src r ("//" ++ vrec_identity r)%string) as (s' & Hr & Hs).
    { reflexivity. }
    { unfold entry_at in Hl. by destruct (contents _ !! _) as [[? ?]|]. }
    rewrite Hr. cbn [fst]. rewrite Hs. unfold entry_at, put. by rewrite lookup_insert.
  - replace (l1 ++ (e, OAccumulate src (Some r)) :: l2 ++ [(e', o)]) with ((l1 ++ (e, OAccumulate src (Some r)) :: l2) ++ [(e', o)]) in * by (by rewrite <- app_assoc).
    destruct (usable_app _ _ Hu) as [Hu1 _]. rewrite <- (IH Hu1).
    2: { intros r' (e2 & s2 & Hin). apply Hno. exists e2, s2. rewrite app_assoc. apply elem_of_app. by left. }
    rewrite state_after_snoc. destruct Hu as (Hes & Hc & Hg). unfold envs_ok, collects in *. rewrite Forall_app, Forall_singleton in Hes, Hc. destruct Hes as [Hes He'], Hc as [_ Hco].
    destruct (run_op fixture_config e' (state_after fixture_config (l1 ++ (e, OAccumulate src (Some r)) :: l2)) o) as [[s' out] ev] eqn:Er. cbn [fst].
    unfold entry_at. f_equal. destruct o as [y|y i|y|y|src' p|y|y|n y z|n]; try done; try (by injection Er as <- _ _).
    destruct (Hg e' src' p) as (r' & b & -> & _). { apply elem_of_app. right. left. }
    erewrite accumulate_elsewhere; [reflexivity|exact He'| |exact Er|].
    + exists (l1 ++ (e, OAccumulate src (Some r)) :: l2). split; [done|done].
    + intros E; assert (Ok (E:=string) ("//" ++ vrec_identity r')%string = Ok ("//" ++ vrec_identity r)%string) as [= E2] by exact E; clear E; rename E2 into E. apply (Hno r'); [|done].
      exists e', src'. rewrite !elem_of_app. right. right. left.
Qed.

(** Then neither the list of all nor that of the record's type can be had. *)
Lemma blank flows logs zone e' srcs l1 e src r l2 : usable_history (l1 ++ (e, OAccumulate src (Some r)) :: l2) -> env_ok e' ->
  (forall r', received (l1 ++ l2) r' -> vrec_identity r' <> vrec_identity r) -> json_ok zone (vr_val r) = false -> vr_type r ∈ tool_types flows logs ->
  answer flows logs zone e' (state_after fixture_config (l1 ++ (e, OAccumulate src (Some r)) :: l2)) srcs "/" = Reply 200 None /\
  answer flows logs zone e' (state_after fixture_config (l1 ++ (e, OAccumulate src (Some r)) :: l2)) srcs (type_path (vr_type r)) = Reply 200 None.
Proof.
  intros Hu He Hno Hj Hty. destruct (once_kept _ _ _ _ _ Hu Hno) as (u & Hx). set (st := state_after _ _) in *.
  assert (reachable fixture_config st) as Hr by (destruct Hu as (Hes & _); by eexists).
  assert (forall P l, enumerates (contents st) P l -> P (Entry (Metadata src u ∅) (vrec_meta r) (Some r)) -> forallb (entry_json_ok zone) l = false) as Hf.
  { intros P l Hen HP. pose proof (enumerates_has _ _ _ _ _ Hen Hx HP) as Hin. apply not_true_iff_false. rewrite forallb_forall. intros H.
    specialize (H _ ltac:(by apply elem_of_list_In)). unfold entry_json_ok in H. cbn in H. by rewrite Hj, andb_false_r in H. }
  split.
  - destruct (root_answer flows logs zone e' st srcs He) as (l & Hen & ->). by rewrite (Hf _ _ Hen).
  - destruct (tool_types_meta _ _ _ Hty) as [m Hm].
    destruct (type_answer flows logs zone e' st srcs (vr_type r) m (type_path (vr_type r)) Hr He) as (l & Hen & ->); [done|done|by eapply type_path_canonical|exists ""%string; by rewrite sapp_nil|].
    rewrite (Hf _ _ Hen); [done|]. cbn. unfold vrec_meta. by rewrite Hm.
Qed.

(** A site that started in the year 10209, as a message can say. *)
Definition far_site (id : string) : vrec :=
  VRec true SiteRecord (VStruct [VStruct [VStr id; VPtr (Some (VTime (of_unix_micro 260000000000000000))); VPtr None];
    VPtr None; VPtr None; VPtr None; VPtr None; VPtr None; VPtr None; VPtr None]).
Definition far_msg (id : string) : amqp_msg :=
  AmqpMsg (Some (AmqpProps None (Some "RECORD"%string) None)) ∅ (MList [EMap (Some {[ KU32 0 := AU32 0; KU32 1 := AStr id; KU32 3 := AU64 260000000000000000 ]})]).

Local Transparent record_types.
Lemma site_listed : SiteRecord ∈ record_types.
Proof. unfold record_types. by left. Qed.
Local Opaque record_types.

Lemma far_site_good id : good_record (far_site id).
Proof.
  eexists _, _, _. split; [reflexivity|]. split; [reflexivity|]. split; [apply site_listed|].
  split; [cbn; repeat split; try done|]. intros f v t Hl E. leaves Hl; try discriminate E. injection E as <-. vm_compute. split; congruence.
Qed.

Lemma far_site_encodes id : id <> ""%string -> exists a, Encode vanflow_registry (vrec_any (far_site id)) = EncOk a.
Proof.
  intros Hid. assert (exists n fs, SiteRecord = GStruct n fs /\ (0%N, GStruct n fs) ∈ builtin_types) as (n & fs & Es & Hc).
  { eexists _, _. split; [reflexivity|]. Local Transparent builtin_types. unfold builtin_types. by left. }
  unfold vrec_any, far_site. cbn [vr_ptr vr_type vr_val].
  destruct (far_site_good id) as (n' & fs' & vs & Et & Ev & Hin & Hty & Hfit).
  unfold far_site in Et, Ev. cbn [vr_type vr_val] in Et, Ev. injection Ev as <-.
  rewrite Es in Et. injection Et as <- <-. rewrite Es.
  destruct (BuiltinFacts.builtin_round_trip 0 n fs true _ Hc Hty Hfit) as (a & ws & Ha & _).
  - exact Hid.
  - injection Es as <- <-. intros f v t Hl E. leaves Hl; try discriminate E. injection E as <-. right. intros H. vm_compute in H. discriminate H.
  - exists a. exact Ha.
Qed.
Local Opaque builtin_types.

Lemma far_site_wire id : id <> ""%string -> exists rm, decode_record_msg (far_msg id) = RDone rm None /\ rm_records rm = [Some (far_site id)].
Proof. destruct id as [|c s]; [done|]. intros _. eexists. split; vm_compute; reflexivity. Qed.

Lemma far_site_json zone id : (forall t, -86400 <= zone t <= 86400)%Z -> json_ok zone (vr_val (far_site id)) = false.
Proof.
  intros Hz. cbn. unfold json_time_ok. set (t := of_unix_micro _). specialize (Hz t). change (t_sec t) with 260000000000%Z.
  assert ((260000000000 + zone t <? 253402300800)%Z = false) as -> by (apply Z.ltb_ge; lia). by rewrite andb_false_r.
Qed.

Lemma all_fit zone l : forallb (entry_json_ok zone) l = true <-> Forall (fits zone) l.
Proof. rewrite forallb_forall, Forall_forall. split; intros H x Hx; apply entry_fits; apply H; by apply elem_of_list_In. Qed.
