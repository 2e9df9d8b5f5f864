(** Properties C87, C88 and C89: the capture tool. *)
From Coq Require Import ZArith NArith Ascii String Lia.
From stdpp Require Import base strings list.
From Verif Require Import GoBase Vancap.

Local Open Scope string_scope.

(** ** Vocabulary *)

(** The contents of the output file after the effects, given its contents
    before ([None]: no such file). *)
Fixpoint file_after (before : option (list N)) (effs : list effect) : option (list N) :=
  match effs with
  | [] => before
  | TruncateFile :: effs' => file_after (Some []) effs'
  | WriteFile b :: effs' => file_after (Some (default [] before ++ b))%list effs'
  | _ :: effs' => file_after before effs'
  end.

(** Character [c] is one of those in "htps:/". *)
Definition url_char (c : ascii) : Prop :=
  c = "h"%char \/ c = "t"%char \/ c = "p"%char \/ c = "s"%char \/ c = ":"%char \/ c = "/"%char.

(** Everything goes well. *)
Definition good_world : world :=
  World true true true (Some ["pod-1"; "pod-2"]) true true true FReady true
    (Some (Response 200 [123; 125]%N None)).

(** ** Proofs *)

Lemma capture_no_deployment w host e :
  e ∈ (capture w host).1 -> e <> CreateDeployment /\ e <> DeleteDeployment.
Proof.
  unfold capture, fetch. destruct (w_pods w) as [[|pod l]|]; simpl; try (intros H; by apply elem_of_nil in H).
  destruct (w_wait w); [|intros H; by apply elem_of_nil in H].
  destruct (w_upgrade w); [|intros H; by apply elem_of_nil in H].
  destruct (w_forwarder w); [|intros H; by apply elem_of_nil in H].
  destruct (w_forward w); try (intros H; apply elem_of_list_singleton in H as ->; done).
  destruct (w_file w); [|intros H; apply elem_of_list_singleton in H as ->; done].
  destruct (w_response w) as [[st b [n|]]|]; simpl; intros H;
    repeat (apply elem_of_cons in H as [->|H]; [done|]); by apply elem_of_nil in H.
Qed.

Lemma cutset c : existsb (Ascii.eqb c) (list_ascii_of_string "htps:/") = true <-> url_char c.
Proof.
  rewrite existsb_exists. unfold url_char. split.
  - intros (x & Hx & He). apply Ascii.eqb_eq in He as <-. simpl in Hx.
    destruct Hx as [<-|[<-|[<-|[<-|[<-|[<-|[]]]]]]]; naive_solver.
  - intros H. exists c. split; [|apply Ascii.eqb_refl]. simpl. naive_solver.
Qed.

Lemma trim_spec s : exists pre, s = pre ++ host_ip s /\ Forall url_char (list_ascii_of_string pre) /\
  (forall c r, host_ip s = String c r -> ~ url_char c).
Proof.
  unfold host_ip. induction s as [|c s IH]; cbn [trim_left].
  - exists "". split; [done|]. split; [constructor|]. done.
  - destruct (existsb _ _) eqn:E.
    + destruct IH as (pre & H1 & H2 & H3). exists (String c pre). split; [by rewrite H1 at 1|].
      split; [|done]. constructor; [by apply cutset|done].
    + exists "". split; [done|]. split; [constructor|]. intros c' r [= <- <-]. rewrite <- cutset. by rewrite E.
Qed.

(** ** C87: the capture tool removes exactly the deployment it created *)

(** Whatever happens, a crash included: it tries to delete the deployment
    exactly once if it created it, as the last thing it does, and never
    otherwise. *)
Theorem C87_cleans_up w host :
  (exists mid, (run w host).1 = (CreateDeployment :: mid ++ [DeleteDeployment])%list /\
     CreateDeployment ∉ mid /\ DeleteDeployment ∉ mid) \/
  ((run w host).1 = [] /\ (run w host).2 = Fails).
Proof.
  unfold run. destruct (w_router w); [|by right]. destruct (w_create w); [|by right].
  pose proof (capture_no_deployment w host) as Hc. destruct (capture w host) as [effs r]. simpl in *. left.
  exists effs. split; [done|]. split; intros H; by apply Hc in H as [? ?].
Qed.

(** It crashes exactly when the deployment has no pod yet. *)
Theorem C87_crashes_iff w host :
  (run w host).2 = Crashes <-> w_router w = true /\ w_create w = true /\ w_pods w = Some [].
Proof.
  unfold run, capture, fetch. destruct (w_router w); [|naive_solver]. destruct (w_create w); [|naive_solver].
  destruct (w_pods w) as [[|pod l]|]; simpl; [naive_solver| |naive_solver].
  assert (forall e r, r <> Crashes ->
    (let '(effs, r) := (e, r) : list effect * result in ((CreateDeployment :: effs) ++ [DeleteDeployment], r)%list).2 = Crashes <->
    true = true /\ true = true /\ Some (pod :: l) = Some []) as Hx by naive_solver.
  destruct (w_wait w); [|by apply Hx]. destruct (w_upgrade w); [|by apply Hx].
  destruct (w_forwarder w); [|by apply Hx]. destruct (w_forward w); [|by apply Hx|by apply Hx].
  destruct (w_file w); [|by apply Hx]. destruct (w_response w) as [[st b [n|]]|]; by apply Hx.
Qed.

(** Whether the deployment became ready makes no difference. *)
Theorem C87_readiness_ignored w host r :
  run (World (w_router w) (w_create w) r (w_pods w) (w_wait w) (w_upgrade w) (w_forwarder w) (w_forward w)
         (w_file w) (w_response w)) host = run w host.
Proof. reflexivity. Qed.

Example C87_example :
  run good_world "https://10.0.0.1:6443" =
    ([CreateDeployment; Forward "10.0.0.1:6443" "pod-1"; TruncateFile; WriteFile [123; 125]%N; DeleteDeployment], Succeeds) /\
  run (World true true false (Some []) true true true FReady true None) "https://10.0.0.1:6443" =
    ([CreateDeployment; DeleteDeployment], Crashes) /\
  run (World true false true (Some []) true true true FReady true None) "https://10.0.0.1:6443" = ([], Fails).
Proof. split; [|split]; reflexivity. Qed.

(** ** C88: the output file holds the capture *)

(** If it reports success, the file holds the whole body of the answer... *)
Theorem C88_success w host before :
  (run w host).2 = Succeeds ->
  exists r, w_response w = Some r /\ file_after before (run w host).1 = Some (rs_body r).
Proof.
  unfold run, capture, fetch. destruct (w_router w); [|done]. destruct (w_create w); [|done].
  destruct (w_pods w) as [[|pod l]|]; try done. destruct (w_wait w); [|done]. destruct (w_upgrade w); [|done].
  destruct (w_forwarder w); [|done]. destruct (w_forward w); try done. destruct (w_file w); [|done].
  destruct (w_response w) as [[st b [n|]]|]; try done. intros _. eexists. split; reflexivity.
Qed.

(** ...of whatever status (refuted: the status is not looked at)... *)
Theorem C88_refuted_status w host st st' b c :
  w_response w = Some (Response st b c) ->
  run (World (w_router w) (w_create w) (w_ready w) (w_pods w) (w_wait w) (w_upgrade w) (w_forwarder w)
         (w_forward w) (w_file w) (Some (Response st' b c))) host = run w host.
Proof. intros H. unfold run, capture, fetch. simpl. rewrite H. reflexivity. Qed.

(** ...and if it fails, the file is either untouched or holds an initial part
    of the answer, its previous contents lost. *)
Theorem C88_failure w host before :
  (run w host).2 <> Succeeds ->
  file_after before (run w host).1 = before \/
  (w_file w = true /\ exists part, file_after before (run w host).1 = Some part /\
     match w_response w with None => part = [] | Some r => exists rest, rs_body r = (part ++ rest)%list end).
Proof.
  unfold run, capture, fetch. destruct (w_router w); [|by left]. destruct (w_create w); [|by left].
  destruct (w_pods w) as [[|pod l]|]; try by left. destruct (w_wait w); [|by left]. destruct (w_upgrade w); [|by left].
  destruct (w_forwarder w); [|by left]. destruct (w_forward w); try by left. destruct (w_file w); [|by left].
  destruct (w_response w) as [[st b [n|]]|]; intros H; [| done |].
  - right. split; [done|]. eexists. split; [reflexivity|]. simpl. exists (skipn n b). by rewrite firstn_skipn.
  - right. split; [done|]. eexists. split; reflexivity.
Qed.

Theorem C88_refuted_failure_keeps_file : exists w,
  (run w "https://10.0.0.1").2 = Fails /\
  file_after (Some [1; 2; 3]%N) (run w "https://10.0.0.1").1 = Some [].
Proof.
  exists (World true true true (Some ["pod-1"]) true true true FReady true None). split; reflexivity.
Qed.

Example C88_example :
  (run good_world "https://10.0.0.1").2 = Succeeds /\
  w_response good_world = Some (Response 200 [123; 125]%N None) /\
  (run (World true true true (Some ["p"]) true true true FReady true (Some (Response 200 [1; 2]%N (Some 1)))) "x").2 = Fails.
Proof. split; [|split]; reflexivity. Qed.

(** ** C89: the capture tool connects to the cluster's API server *)

(** The host a port forward is asked of. *)
Lemma forward_host w host h pod : Forward h pod ∈ fst (run w host) -> h = host_ip host.
Proof.
  assert (forall e, e ∈ fst (fetch w) -> e <> Forward h pod) as Hf.
  { unfold fetch. destruct (w_file w); [|by intros e ?%elem_of_nil]. destruct (w_response w) as [r|]; [destruct (rs_copied r)|];
      intros e He; cbn in He; rewrite !elem_of_cons, elem_of_nil in He; naive_solver. }
  unfold run, capture. destruct (w_router w); [|by intros ?%elem_of_nil]. destruct (w_create w); [|by intros ?%elem_of_nil].
  destruct (w_pods w) as [[|p ps]|]; [cbn; rewrite !elem_of_cons, elem_of_nil; naive_solver| |cbn; rewrite !elem_of_cons, elem_of_nil; naive_solver].
  destruct (w_wait w); [|cbn; rewrite !elem_of_cons, elem_of_nil; naive_solver].
  destruct (w_upgrade w); [|cbn; rewrite !elem_of_cons, elem_of_nil; naive_solver].
  destruct (w_forwarder w); [|cbn; rewrite !elem_of_cons, elem_of_nil; naive_solver].
  destruct (w_forward w); [|cbn; rewrite !elem_of_cons, elem_of_nil; naive_solver..].
  destruct (fetch w) as [effs r]. cbn [fst] in Hf |- *. rewrite elem_of_app, !elem_of_cons, elem_of_nil. intros [[[=]|[[= -> _]|Hin]]|[[=]|[]]]; [done|].
  by destruct (Hf _ Hin).
Qed.

(** The host dialled is that of the URL exactly when its name does not start
    with one of the characters h, t, p, s, : and /. *)
Theorem C89_host w host h pod : Forward h pod ∈ fst (run w ("https://" ++ host)) ->
  h = host <-> forall c r, host = String c r -> ~ url_char c.
Proof.
  intros ->%forward_host. assert (host_ip ("https://" ++ host) = host_ip host) as Hs by reflexivity. rewrite Hs.
  destruct (trim_spec host) as (pre & H1 & H2 & H3). split.
  - intros He c r Hc. apply (H3 c r). by rewrite He.
  - intros Hh. destruct pre as [|c pre]; [by rewrite H1 at 2|]. exfalso.
    apply (Hh c (pre ++ host_ip host)); [exact H1|]. by inversion H2.
Qed.

(** In general a prefix made of those characters is lost. *)
Theorem C89_refuted_prefix_lost w host h pod : Forward h pod ∈ fst (run w ("https://" ++ host)) ->
  exists pre, "https://" ++ host = pre ++ h /\ Forall url_char (list_ascii_of_string pre) /\ (forall c r, h = String c r -> ~ url_char c).
Proof. intros ->%forward_host. exact (trim_spec ("https://" ++ host)). Qed.

Example C89_example :
  host_ip "https://10.0.0.1:6443" = "10.0.0.1:6443" /\
  host_ip "https://api.example.com" = "api.example.com" /\
  host_ip "https://skupper.example.com" = "kupper.example.com" /\
  host_ip "https://test-cluster" = "est-cluster" /\
  Forward "est-cluster" "p1" ∈ fst (run (World true true true (Some ["p1"]) true true true FFailed true None) "https://test-cluster").
Proof. split; [|split; [|split; [|split]]]; try reflexivity. right. left. Qed.

Print Assumptions C87_cleans_up.
Print Assumptions C87_crashes_iff.
Print Assumptions C87_readiness_ignored.
Print Assumptions C88_success.
Print Assumptions C88_refuted_status.
Print Assumptions C88_failure.
Print Assumptions C88_refuted_failure_keeps_file.
Print Assumptions C89_host.
Print Assumptions C89_refuted_prefix_lost.
