(** Model of how vanflow-tool turns its flags and files into connection
    settings (cmd/vanflow-tool/main.go).  Flag parsing itself, the usage text
    and logging are left out. *)
From Coq Require Import ZArith NArith Ascii String.
From stdpp Require Import base strings list.
From Verif Require Import GoBase.

Local Open Scope string_scope.

(** main.go l.150-155, tlsConfig. *)
Record tls_conf := TlsConf { tc_ca : string; tc_cert : string; tc_key : string; tc_verify : bool }.

(** main.go l.157-162, connectJSON. *)
Record connect_json := ConnectJSON {
  cj_scheme : string; cj_host : string; cj_port : string; cj_tls : tls_conf }.

(** main.go l.19-35: the flags used here; [fl_args] are the remaining
    arguments. *)
Record flags := Flags {
  fl_args : list string;
  fl_config : string;        (* -messaging-config *)
  fl_server : string;        (* -server *)
  fl_verify : bool;          (* -tls-verify *)
  fl_ca : string;            (* -ca *)
  fl_cert : string;          (* -cert *)
  fl_key : string;           (* -key *)
}.

(** What the operating system and the libraries answer: os.ReadFile, os.Stat
    without error, json.Unmarshal, tls.LoadX509KeyPair, and the certificates
    AppendCertsFromPEM finds. *)
Record world := World {
  w_read : string -> option string;
  w_stat : string -> bool;
  w_json : string -> option connect_json;
  w_pair : string -> string -> option string;
  w_pem : string -> list string;
}.

(** tls.Config: the fields main.go sets; [None] roots are the system's. *)
Record tls := Tls {
  tl_skip_verify : bool;
  tl_roots : option (list string);
  tl_certs : list string;
  tl_min : N;
}.

Definition version_tls10 : N := 769.

(** main.go l.164-189, tlsConfig.Parse.  The result of AppendCertsFromPEM is
    ignored. *)
Definition parse_tls (w : world) (c : tls_conf) : option tls :=
  match (if tc_verify c then
           match w_read w (tc_ca c) with
           | None => None
           | Some file => Some (false, Some (w_pem w file))
           end
         else Some (true, None)) with
  | None => None
  | Some (skip, roots) =>
      if w_stat w (tc_cert c) || w_stat w (tc_key c) then
        match w_pair w (tc_cert c) (tc_key c) with
        | None => None
        | Some p => Some (Tls skip roots [p] version_tls10)
        end
      else Some (Tls skip roots [] version_tls10)
  end.

Inductive outcome :=
  | Exit1                                                        (* os.Exit(1) *)
  | Runs (cmd : string) (url : string) (t : option tls) (external : bool).

(** main.go l.76-101: the messaging config; [None] is exit. *)
Definition from_config (w : world) (f : flags) : option (string * option tls) :=
  if bool_decide (fl_config f = "") then Some (fl_server f, None)
  else
    match w_read w (fl_config f) with
    | None => None
    | Some b =>
        match w_json w b with
        | None => None
        | Some cfg =>
            let url := cj_scheme cfg ++ "://" ++ cj_host cfg ++ ":" ++ cj_port cfg in
            if bool_decide (tc_ca (cj_tls cfg) = "") then Some (url, None)
            else match parse_tls w (cj_tls cfg) with
                 | None => None
                 | Some t => Some (url, Some t)
                 end
        end
    end.

(** main.go l.130-143: the commands. *)
Definition known (cmd : string) : bool :=
  bool_decide (cmd = "log") || bool_decide (cmd = "serve") || bool_decide (cmd = "fixture").

(** main.go l.64-147, main, up to running the command. *)
Definition setup (w : world) (f : flags) : outcome :=
  match fl_args f with
  | [cmd] =>
      match from_config w f with
      | None => Exit1
      | Some (url, t0) =>
          match (if bool_decide (fl_cert f = "") then Some t0
                 else match parse_tls w (TlsConf (fl_ca f) (fl_cert f) (fl_key f) (fl_verify f)) with
                      | None => None
                      | Some t => Some (Some t)
                      end) with
          | None => Exit1
          | Some t =>
              let external := match t with Some _ => true | None => false end in
              if known cmd then Runs cmd url t external else Exit1
          end
      end
  | _ => Exit1
  end.
