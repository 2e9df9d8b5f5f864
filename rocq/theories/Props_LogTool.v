(** Property C104: what the log command prints. *)
From Coq Require Import ZArith NArith Ascii String Lia.
From stdpp Require Import base gmap strings list.
From Verif Require Import GoBase Encoding Records Messages Env Http HttpFacts Run LogTool LogToolFacts.

Local Open Scope list_scope.
Local Opaque vanflow_registry builtin_types record_types Encode Decode.

Notation orun zone hb rc := (run (ostep zone hb rc)).

(** ** C104: the log command prints every selected message *)

(** JSON can hold a line: no record in it has a time in a year that takes more
    than four digits. *)
Definition printable (zone : gotime -> Z) (o : line) : Prop :=
  match o with LineHeartbeat _ _ _ _ _ => True | LineRecords _ _ l => forall r, Some r ∈ l -> storable zone (vr_val r) end.
Lemma printable_ok zone o : line_json_ok zone o = true <-> printable zone o.
Proof.
  destruct o as [|to subject l]; [done|]. cbn [line_json_ok printable]. rewrite forallb_forall. split.
  - intros H r Hr. apply storable_ok. apply elem_of_list_In in Hr. exact (H _ Hr).
  - intros H [r|] Hr; [|done]. apply storable_ok. apply H. by apply elem_of_list_In.
Qed.
(** What is left of a list when those that do not satisfy [P] are taken away. *)
Inductive sieve {A} (P : A -> Prop) : list A -> list A -> Prop :=
  | sieve_nil : sieve P [] []
  | sieve_in x l k : P x -> sieve P l k -> sieve P (x :: l) (x :: k)
  | sieve_out x l k : ~ P x -> sieve P l k -> sieve P (x :: l) k.

(** The lines of each listener's messages are queued in their order, each once,
    and what is queued is dealt with in order, each once; at most one line per
    listener and sixty-five in all are between. *)
Theorem C104_order zone hb rc ls s evs : orun zone hb rc o_init ls = Some (s, evs) ->
  (forall i, exists w, omap (render hb rc) (given i ls) = queued_by i evs ++ w /\ length w <= 1) /\
  exists w, queued evs = handled evs ++ w /\ length w <= 65.
Proof. exact (in_order zone hb rc ls s evs). Qed.
(** A line is printed if JSON can hold it, and no write to stdout failed before. *)
Theorem C104_printed zone hb rc ls s evs a o b : orun zone hb rc o_init ls = Some (s, evs) -> evs = a ++ OPrinted o :: b ->
  printable zone o /\ OFailed ∉ a.
Proof. intros Hr E. destruct (printed_iff zone hb rc ls s evs a (OPrinted o) b Hr E) as [H1 H2]. split; [by apply printable_ok|done]. Qed.
Theorem C104_skipped zone hb rc ls s evs a o b : orun zone hb rc o_init ls = Some (s, evs) -> evs = a ++ OSkipped o :: b ->
  ~ printable zone o \/ OFailed ∈ a.
Proof.
  intros Hr E. destruct (printed_iff zone hb rc ls s evs a (OSkipped o) b Hr E) as [H|H]; [left|by right]. rewrite <- printable_ok. by rewrite H.
Qed.
Theorem C104_filter zone hb rc ls s evs : orun zone hb rc o_init ls = Some (s, evs) -> OFailed ∉ evs ->
  sieve (printable zone) (handled evs) (printed evs).
Proof.
  intros Hr Hf. rewrite (printed_filter zone hb rc ls s evs Hr Hf). induction (handled evs) as [|o l IH]; [constructor|].
  rewrite filter_cons. destruct (decide (line_json_ok zone o = true)) as [H|H]; rewrite printable_ok in H; by constructor.
Qed.
(** At any time before it returns, it can go on, by itself, until everything
    given so far is dealt with. *)
Theorem C104_progress zone hb rc ls s evs : orun zone hb rc o_init ls = Some (s, evs) -> OReturned ∉ evs ->
  exists ls' s' evs', Forall flowing ls' /\ orun zone hb rc o_init (ls ++ ls') = Some (s', evs ++ evs') /\
    (forall i, omap (render hb rc) (given i ls) = queued_by i (evs ++ evs')) /\ queued (evs ++ evs') = handled (evs ++ evs') /\ OFailed ∉ evs'.
Proof. exact (all_printed zone hb rc ls s evs). Qed.
(** It returns only when told to stop, then can at once or after the line in hand,
    and does nothing more. *)
Theorem C104_return zone hb rc ls s evs : orun zone hb rc o_init ls = Some (s, evs) ->
  (OReturned ∈ evs -> OCancel ∈ ls) /\
  (OCancel ∈ ls -> OReturned ∉ evs -> forall ok, exists ls', (ls' = [OStop] \/ ls' = [OWrite ok; OStop]) /\ exists s' evs', orun zone hb rc s ls' = Some (s', evs') /\ OReturned ∈ evs') /\
  (OReturned ∈ evs -> forall ls' s' evs', orun zone hb rc s ls' = Some (s', evs') -> ls' = []).
Proof. exact (returned zone hb rc ls s evs). Qed.

(** What a line says, and for which messages there is one. *)
Inductive says : message -> line -> Prop :=
  | says_heartbeat to subject reply id v now : says (MsgHeartbeat (Heartbeat (MsgProps to subject reply) id v now)) (LineHeartbeat to subject v now id)
  | says_records to subject reply l : says (MsgRecord (RecordMsg (MsgProps to subject reply) l)) (LineRecords to subject l).
Definition selected (hb rc : bool) (m : message) : Prop := match m with MsgHeartbeat _ => hb = true | MsgRecord _ => rc = true | _ => False end.
Theorem C104_lines hb rc m : (forall o, render hb rc m = Some o -> says m o /\ selected hb rc m) /\ (selected hb rc m -> exists o, render hb rc m = Some o).
Proof.
  destruct m as [?|[[]]|?|[[]]]; cbn; (split; [|eauto; try done]); try done.
  - destruct hb; [|done]. intros o [= <-]. split; [constructor|done].
  - intros ->. eauto.
  - destruct rc; [|done]. intros o [= <-]. split; [constructor|done].
  - intros ->. eauto.
Qed.

(** Not all are printed: up to sixty-four queued lines are lost when it stops. *)
Theorem C104_refuted_stop zone hb rc m o n : render hb rc m = Some o -> n <= 64 ->
  exists ls s evs, orun zone hb rc o_init ls = Some (s, evs) /\ OReturned ∈ evs /\ length (queued evs) = n /\ printed evs = [].
Proof.
  intros Hm Hn. destruct (lost zone hb rc n m o Hm Hn) as (s & evs & Hr & Hq & Hh). eexists _, s, evs. split; [exact Hr|].
  apply run_app_inv in Hr as (s1 & ev1 & ev2 & H1 & H2 & ->). split.
  - apply elem_of_app. right. cbn [run] in H2. destruct (ostep zone hb rc s1 OCancel) as [[s2 e2]|]; [|done].
    destruct (ostep zone hb rc s2 OStop) as [[s3 e3]|] eqn:E; [|done]. injection H2 as _ <-. unfold ostep in E. destruct (o_pc s2); [|done..]. destruct (o_cancelled s2); [|done]. injection E as _ <-.
    rewrite app_nil_r. apply elem_of_app. right. left.
  - split; [done|]. unfold printed, handled in *. rewrite omap_app in *. apply app_eq_nil in Hh as [Ha Hb].
    assert (forall l, omap (fun e => match e with OPrinted o | OSkipped o => Some o | _ => None end) l = [] -> omap (fun e => match e with OPrinted o => Some o | _ => None end) l = []) as H.
    { clear. induction l as [|e l IH]; [done|]. cbn. destruct e; try done; exact IH. }
    by rewrite (H _ Ha), (H _ Hb).
Qed.
(** A message with one time past the year 9999 is not printed, whatever else it
    carries; such a message decodes. *)
Theorem C104_refuted_year zone hb rc to subject id before after : (forall t, -86400 <= zone t <= 86400)%Z -> id <> ""%string ->
  (exists rm, decode_record_msg (far_msg id) = RDone rm None /\ rm_records rm = [Some (far_site id)]) /\
  forall ls s evs, orun zone hb rc o_init ls = Some (s, evs) -> OPrinted (LineRecords to subject (before ++ Some (far_site id) :: after)) ∉ evs.
Proof.
  intros Hz Hid. split; [exact (far_site_wire id Hid)|]. intros ls s evs Hr Hin. apply elem_of_list_split in Hin as (a & b & E).
  destruct (C104_printed _ _ _ _ _ _ _ _ _ Hr E) as [H _]. cbn [printable] in H. specialize (H (far_site id)).
  rewrite <- storable_ok, (far_site_json zone id Hz) in H. discriminate H. rewrite elem_of_app, elem_of_cons. tauto.
Qed.
(** After a failed write nothing is printed any more, though it goes on. *)
Theorem C104_refuted_write zone hb rc ls s evs a b : orun zone hb rc o_init ls = Some (s, evs) -> evs = a ++ OFailed :: b -> printed b = [].
Proof.
  intros Hr ->. destruct (printed b) as [|o l] eqn:E; [done|].
  assert (o ∈ printed b) as Hin by (rewrite E; left). unfold printed in Hin. apply elem_of_list_omap in Hin as (e & He & Ho).
  destruct e; try done. injection Ho as ->. apply elem_of_list_split in He as (b1 & b2 & ->).
  destruct (C104_printed zone hb rc ls s _ (a ++ OFailed :: b1) o b2 Hr) as [_ H]; [by rewrite <- app_assoc|].
  destruct H. apply elem_of_app. right. left.
Qed.

(** Two listeners; one heartbeat is not printed as stdout fails. *)
Definition ex_hb (n : N) : message := MsgHeartbeat (Heartbeat (MsgProps "mc/sfe.a" "HEARTBEAT" "") "a" 1 n).
Definition ex_rm : message := MsgRecord (RecordMsg (MsgProps "mc/sfe.a" "RECORD" "") []).
Definition ex_log : list olabel := [OHandle 0 (ex_hb 1); OHandle 1 ex_rm; OSend 1; OSend 0; OHandle 0 (ex_hb 2); OTake; OWrite true; OSend 0; OTake; OWrite false; OTake; OWrite true; OCancel; OStop].
Example C104_example : option_map snd (orun (fun _ => 0%Z) true true o_init ex_log) =
  Some [OCalled 0 (LineHeartbeat "mc/sfe.a" "HEARTBEAT" 1 1 "a"); OCalled 1 (LineRecords "mc/sfe.a" "RECORD" []);
        OQueued 1 (LineRecords "mc/sfe.a" "RECORD" []); OQueued 0 (LineHeartbeat "mc/sfe.a" "HEARTBEAT" 1 1 "a");
        OCalled 0 (LineHeartbeat "mc/sfe.a" "HEARTBEAT" 1 2 "a"); OPrinted (LineRecords "mc/sfe.a" "RECORD" []);
        OQueued 0 (LineHeartbeat "mc/sfe.a" "HEARTBEAT" 1 2 "a");
        OFailed; OSkipped (LineHeartbeat "mc/sfe.a" "HEARTBEAT" 1 1 "a"); OSkipped (LineHeartbeat "mc/sfe.a" "HEARTBEAT" 1 2 "a"); OReturned].
Proof. vm_compute. reflexivity. Qed.

Print Assumptions C104_order.
Print Assumptions C104_printed.
Print Assumptions C104_skipped.
Print Assumptions C104_filter.
Print Assumptions C104_progress.
Print Assumptions C104_return.
Print Assumptions C104_lines.
Print Assumptions C104_refuted_stop.
Print Assumptions C104_refuted_year.
Print Assumptions C104_refuted_write.
