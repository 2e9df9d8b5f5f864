(** Properties C83 and C84: how vanflow-tool secures its connections. *)
From Coq Require Import ZArith NArith Ascii String.
From stdpp Require Import base strings list.
From Verif Require Import GoBase Connect.

Local Open Scope string_scope.

(** ** Vocabulary *)

(** [t] is what the settings [c] ask for: peers are verified against exactly
    the certificates in the CA file, or not at all; a client certificate is
    used if either of its files exists. *)
Definition asked_for (w : world) (c : tls_conf) (t : tls) : Prop :=
  (tc_verify c = true -> tl_skip_verify t = false /\
     exists file, w_read w (tc_ca c) = Some file /\ tl_roots t = Some (w_pem w file)) /\
  (tc_verify c = false -> tl_skip_verify t = true) /\
  ((w_stat w (tc_cert c) = true \/ w_stat w (tc_key c) = true) ->
     exists p, w_pair w (tc_cert c) (tc_key c) = Some p /\ tl_certs t = [p]) /\
  (w_stat w (tc_cert c) = false -> w_stat w (tc_key c) = false -> tl_certs t = []).

(** What [c] needs can be read. *)
Definition obtainable (w : world) (c : tls_conf) : Prop :=
  (tc_verify c = true -> exists file, w_read w (tc_ca c) = Some file) /\
  ((w_stat w (tc_cert c) = true \/ w_stat w (tc_key c) = true) ->
     exists p, w_pair w (tc_cert c) (tc_key c) = Some p).

(** The settings given by the -cert, -key, -ca and -tls-verify flags. *)
Definition flag_settings (f : flags) : tls_conf :=
  TlsConf (fl_ca f) (fl_cert f) (fl_key f) (fl_verify f).

(** The messaging config the flags name. *)
Definition configured (w : world) (f : flags) (cfg : connect_json) : Prop :=
  fl_config f <> "" /\ exists b, w_read w (fl_config f) = Some b /\ w_json w b = Some cfg.

(** ** Proofs *)

Lemma parse_asked w c t : parse_tls w c = Some t -> asked_for w c t.
Proof.
  unfold parse_tls, asked_for. destruct (tc_verify c) eqn:Ev.
  - destruct (w_read w (tc_ca c)) as [file|] eqn:Er; [|done].
    destruct (w_stat w (tc_cert c)) eqn:E1; destruct (w_stat w (tc_key c)) eqn:E2; simpl;
      try destruct (w_pair w (tc_cert c) (tc_key c)) as [p|] eqn:Ep; intros H; simplify_eq; simpl;
      repeat split; try done; try (by eexists); try (intros [?|?]; done); eauto.
  - destruct (w_stat w (tc_cert c)) eqn:E1; destruct (w_stat w (tc_key c)) eqn:E2; simpl;
      try destruct (w_pair w (tc_cert c) (tc_key c)) as [p|] eqn:Ep; intros H; simplify_eq; simpl;
      repeat split; try done; try (by eexists); try (intros [?|?]; done); eauto.
Qed.

Lemma parse_obtainable w c : (exists t, parse_tls w c = Some t) <-> obtainable w c.
Proof.
  unfold obtainable. split.
  - intros (t & Ht). pose proof (parse_asked _ _ _ Ht) as (H1 & _ & H3 & _). split.
    + intros Hv. destruct (H1 Hv) as (_ & file & ? & _). eauto.
    + intros Hs. destruct (H3 Hs) as (p & ? & _). eauto.
  - intros [H1 H2]. unfold parse_tls. destruct (tc_verify c).
    + destruct (H1 eq_refl) as (file & ->).
      destruct (w_stat w (tc_cert c)); destruct (w_stat w (tc_key c)); simpl; eauto;
        destruct H2 as (p & ->); eauto.
    + destruct (w_stat w (tc_cert c)); destruct (w_stat w (tc_key c)); simpl; eauto;
        destruct H2 as (p & ->); eauto.
Qed.

(** A world with a CA file, a key pair and three messaging configs. *)
Definition ex_world : world :=
  World (fun p => if bool_decide (p = "ca.crt") then Some "CA"
                  else if bool_decide (p = "empty.crt") then Some ""
                  else if bool_decide (p = "connect.json") then Some "J1"
                  else if bool_decide (p = "noca.json") then Some "J2" else None)
        (fun p => bool_decide (p = "tls.crt") || bool_decide (p = "tls.key"))
        (fun b => if bool_decide (b = "J1") then
                    Some (ConnectJSON "amqps" "router" "5671" (TlsConf "ca.crt" "tls.crt" "tls.key" false))
                  else if bool_decide (b = "J2") then
                    Some (ConnectJSON "amqps" "router" "5671" (TlsConf "" "tls.crt" "tls.key" true))
                  else None)
        (fun c k => if bool_decide (c = "tls.crt") && bool_decide (k = "tls.key") then Some "pair" else None)
        (fun f => if bool_decide (f = "CA") then ["root"] else []).

(** ** C83: the connection is secured as asked *)

(** With -cert: exactly as the flags ask, whatever the messaging config says;
    the tool exits if it cannot. *)
Theorem C83_flags_obeyed w f cmd url t ext :
  fl_cert f <> "" -> setup w f = Runs cmd url t ext ->
  exists t', t = Some t' /\ asked_for w (flag_settings f) t'.
Proof.
  intros Hc. unfold setup. destruct (fl_args f) as [|a [|]]; try done.
  destruct (from_config w f) as [[u t0]|]; [|done]. rewrite bool_decide_eq_false_2 by done.
  destruct (parse_tls w _) as [t'|] eqn:E; [|done]. destruct (known a); [|done].
  intros [= <- <- <- <-]. exists t'. split; [done|]. by apply parse_asked.
Qed.

(** Without -cert: exactly as the messaging config asks, if it names a CA. *)
Theorem C83_config_obeyed w f cfg cmd url t ext :
  fl_cert f = "" -> configured w f cfg -> tc_ca (cj_tls cfg) <> "" -> setup w f = Runs cmd url t ext ->
  exists t', t = Some t' /\ asked_for w (cj_tls cfg) t'.
Proof.
  intros Hc (Hn & b & Hb & Hj) Hca. unfold setup, from_config.
  rewrite (bool_decide_eq_false_2 (fl_config f = "")) by done. rewrite Hb, Hj, Hc.
  rewrite bool_decide_eq_false_2 by done.
  destruct (parse_tls w _) as [t'|] eqn:E; [|by destruct (fl_args f) as [|? [|]]].
  destruct (fl_args f) as [|a [|]]; try done. rewrite bool_decide_eq_true_2 by done.
  destruct (known a); [|done]. intros [= <- <- <- <-]. exists t'. split; [done|]. by apply parse_asked.
Qed.

(** The client authenticates with its certificate's identity (SASL EXTERNAL)
    exactly when there is a TLS configuration. *)
Theorem C83_external_iff_tls w f cmd url t ext :
  setup w f = Runs cmd url t ext -> (ext = true <-> exists t', t = Some t').
Proof.
  unfold setup. destruct (fl_args f) as [|a [|]]; try done. destruct (from_config w f) as [[u t0]|]; [|done].
  destruct (if bool_decide _ then _ else _) as [[t'|]|]; [| |done]; (destruct (known a); [|done]);
    intros [= <- <- <- <-]; naive_solver.
Qed.

(** Refuted in three ways.  Without -cert, -ca and -tls-verify have no effect:
    the tool behaves as if they were not given... *)
Theorem C83_refuted_flags_ignored w f ca key verify :
  fl_cert f = "" ->
  setup w (Flags (fl_args f) (fl_config f) (fl_server f) verify ca (fl_cert f) key) = setup w f.
Proof. intros Hc. unfold setup, from_config. simpl. by rewrite Hc. Qed.

(** ...a messaging config with verification but without CA gives a connection
    without TLS settings... *)
Theorem C83_refuted_config_without_ca w f cfg cmd url t ext :
  fl_cert f = "" -> configured w f cfg -> tc_ca (cj_tls cfg) = "" -> setup w f = Runs cmd url t ext -> t = None.
Proof.
  intros Hc (Hn & b & Hb & Hj) Hca. unfold setup, from_config.
  rewrite (bool_decide_eq_false_2 (fl_config f = "")) by done. rewrite Hb, Hj, Hc, Hca.
  rewrite !bool_decide_eq_true_2 by done.
  destruct (fl_args f) as [|a [|]]; try done. destruct (known a); [|done]. by intros [= <- <- <- <-].
Qed.

(** ...and a -cert that does not exist (nor its key) goes unnoticed: no
    certificate is presented although EXTERNAL is chosen.  Likewise a CA file
    without certificates is accepted. *)
Theorem C83_refuted_missing_files :
  setup ex_world (Flags ["serve"] "" "amqps://r" true "ca.crt" "typo.crt" "typo.key") =
    Runs "serve" "amqps://r" (Some (Tls false (Some ["root"]) [] version_tls10)) true /\
  setup ex_world (Flags ["serve"] "" "amqps://r" true "empty.crt" "tls.crt" "tls.key") =
    Runs "serve" "amqps://r" (Some (Tls false (Some []) ["pair"] version_tls10)) true.
Proof. split; vm_compute; reflexivity. Qed.

Example C83_example :
  setup ex_world (Flags ["log"] "" "amqps://r" true "ca.crt" "tls.crt" "tls.key") =
    Runs "log" "amqps://r" (Some (Tls false (Some ["root"]) ["pair"] version_tls10)) true /\
  setup ex_world (Flags ["log"] "connect.json" "amqps://r" true "ca.crt" "" "") =
    Runs "log" "amqps://router:5671" (Some (Tls true None ["pair"] version_tls10)) true /\
  setup ex_world (Flags ["log"] "noca.json" "amqps://r" true "ca.crt" "" "") =
    Runs "log" "amqps://router:5671" None false.
Proof. split; [|split]; vm_compute; reflexivity. Qed.

Example C83_configured_example :
  configured ex_world (Flags ["log"] "connect.json" "amqps://r" true "ca.crt" "" "")
    (ConnectJSON "amqps" "router" "5671" (TlsConf "ca.crt" "tls.crt" "tls.key" false)) /\
  configured ex_world (Flags ["log"] "noca.json" "amqps://r" true "ca.crt" "" "")
    (ConnectJSON "amqps" "router" "5671" (TlsConf "" "tls.crt" "tls.key" true)).
Proof. split; (split; [done|]); eexists; split; reflexivity. Qed.

(** ** C84: which server the tool talks to, and when it starts at all *)

Theorem C84_server w f cmd url t ext :
  setup w f = Runs cmd url t ext ->
  (fl_config f = "" -> url = fl_server f) /\
  (fl_config f <> "" -> exists cfg, configured w f cfg /\
     url = cj_scheme cfg ++ "://" ++ cj_host cfg ++ ":" ++ cj_port cfg) /\
  fl_args f = [cmd] /\ (cmd = "log" \/ cmd = "serve" \/ cmd = "fixture").
Proof.
  unfold setup. destruct (fl_args f) as [|a [|]]; try done.
  destruct (from_config w f) as [[u t0]|] eqn:E; [|done].
  destruct (if bool_decide _ then _ else _) as [t'|]; [|done].
  destruct (known a) eqn:Ek; [|done]. intros [= <- <- <- <-].
  assert (Hk : a = "log" \/ a = "serve" \/ a = "fixture").
  { unfold known in Ek. repeat (case_bool_decide; [by auto|]). done. }
  unfold from_config in E. case_bool_decide as Hc.
  - injection E as <- <-. split; [done|]. split; [done|]. done.
  - split; [done|]. split; [|done]. intros _.
    destruct (w_read w (fl_config f)) as [b|] eqn:Eb; [|done].
    destruct (w_json w b) as [cfg|] eqn:Ej; [|done]. exists cfg. split; [split; [done|]; eauto|].
    case_bool_decide; [by injection E as <- <-|]. destruct (parse_tls w (cj_tls cfg)); [|done]. by injection E as <- <-.
Qed.

(** The tool starts exactly when it has one known command and everything it
    needs can be read. *)
Theorem C84_starts_iff w f :
  (exists cmd url t ext, setup w f = Runs cmd url t ext) <->
  (exists cmd, fl_args f = [cmd] /\ (cmd = "log" \/ cmd = "serve" \/ cmd = "fixture")) /\
  (fl_config f <> "" -> exists cfg, configured w f cfg /\
     (tc_ca (cj_tls cfg) <> "" -> obtainable w (cj_tls cfg))) /\
  (fl_cert f <> "" -> obtainable w (flag_settings f)).
Proof.
  split.
  - intros (cmd & url & t & ext & H). pose proof (C84_server _ _ _ _ _ _ H) as (_ & _ & Ha & Hk).
    split; [eauto|]. unfold setup in H. rewrite Ha in H.
    destruct (from_config w f) as [[u t0]|] eqn:E; [|done]. split.
    + intros Hc. unfold from_config in E. rewrite bool_decide_eq_false_2 in E by done.
      destruct (w_read w (fl_config f)) as [b|] eqn:Eb; [|done].
      destruct (w_json w b) as [cfg|] eqn:Ej; [|done]. exists cfg. split; [split; [done|]; eauto|].
      intros Hca. rewrite bool_decide_eq_false_2 in E by done. apply parse_obtainable.
      destruct (parse_tls w (cj_tls cfg)); [eauto|done].
    + intros Hc. rewrite bool_decide_eq_false_2 in H by done. apply parse_obtainable. unfold flag_settings.
      destruct (parse_tls w _); [eauto|done].
  - intros ((cmd & Ha & Hk) & Hconf & Hflags). unfold setup. rewrite Ha.
    assert (exists u t0, from_config w f = Some (u, t0)) as (u & t0 & ->).
    { unfold from_config. case_bool_decide as Hc; [eauto|]. destruct (Hconf Hc) as (cfg & (_ & b & -> & ->) & Ht).
      case_bool_decide as Hca; [eauto|]. destruct (proj2 (parse_obtainable _ _) (Ht Hca)) as (t & ->). eauto. }
    assert (exists t, (if bool_decide (fl_cert f = "") then Some t0
      else match parse_tls w (TlsConf (fl_ca f) (fl_cert f) (fl_key f) (fl_verify f)) with
           | None => None | Some t => Some (Some t) end) = Some t) as (t & ->).
    { case_bool_decide as Hc; [eauto|]. destruct (proj2 (parse_obtainable _ _) (Hflags Hc)) as (t & Ht). unfold flag_settings in Ht. rewrite Ht. eauto. }
    assert (known cmd = true) as ->; [|eauto].
    unfold known. by destruct Hk as [->|[->| ->]].
Qed.

Example C84_example :
  setup ex_world (Flags ["log"; "x"] "" "amqps://r" true "" "" "") = Exit1 /\
  setup ex_world (Flags ["log"] "missing.json" "amqps://r" true "" "" "") = Exit1 /\
  setup ex_world (Flags ["log"] "" "amqps://r" true "" "tls.crt" "tls.key") = Exit1 /\
  setup ex_world (Flags ["log"] "" "amqps://r" false "" "tls.crt" "tls.key") <> Exit1.
Proof. split; [|split; [|split]]; try (vm_compute; reflexivity). vm_compute. discriminate. Qed.

Print Assumptions C83_flags_obeyed.
Print Assumptions C83_config_obeyed.
Print Assumptions C83_external_iff_tls.
Print Assumptions C83_refuted_flags_ignored.
Print Assumptions C83_refuted_config_without_ca.
Print Assumptions C83_refuted_missing_files.
Print Assumptions C84_server.
Print Assumptions C84_starts_iff.
