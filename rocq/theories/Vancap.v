(** Model of the capture tool (vancap/main.go l.96-265, Vancap.Run): what it
    does to the cluster and to the output file, whatever Kubernetes, the
    network and the file system answer.  Logging and the contents of the
    deployment are left out. *)
From Coq Require Import ZArith NArith Ascii String.
From stdpp Require Import base strings list.
From Verif Require Import GoBase.

Local Open Scope string_scope.

(** How waiting for the port forward ends (l.236-242). *)
Inductive forwarding := FReady | FInterrupted | FFailed.

(** The answer to the capture request: status, body, and how much of the body
    was copied to the file before an error, if any (l.251-261). *)
Record response := Response { rs_status : N; rs_body : list N; rs_copied : option nat }.

(** What the outside answers, in order. *)
Record world := World {
  w_router : bool;                 (* l.100: skupper-router found *)
  w_create : bool;                 (* l.162: deployment created *)
  w_ready : bool;                  (* l.179-190: became ready in time *)
  w_pods : option (list string);   (* l.193: the pods listed *)
  w_wait : bool;                   (* l.202-207: waited, not interrupted *)
  w_upgrade : bool;                (* l.209 *)
  w_forwarder : bool;              (* l.225 *)
  w_forward : forwarding;          (* l.236 *)
  w_file : bool;                   (* l.244: output file created *)
  w_response : option response;    (* l.251 *)
}.

(** What it does. *)
Inductive effect :=
  | CreateDeployment
  | DeleteDeployment                       (* attempted *)
  | Forward (host : string) (pod : string)
  | TruncateFile                           (* os.Create *)
  | WriteFile (b : list N).

Inductive result := Succeeds | Fails | Crashes.

(** strings.TrimLeft: drops leading characters of the cutset. *)
Fixpoint trim_left (cut s : string) : string :=
  match s with
  | EmptyString => EmptyString
  | String c s' =>
      if existsb (Ascii.eqb c) (list_ascii_of_string cut) then trim_left cut s' else s
  end.

(** l.215: the API server address. *)
Definition host_ip (host : string) : string := trim_left "htps:/" host.

(** l.244-264, once the port is forwarded. *)
Definition fetch (w : world) : list effect * result :=
  if w_file w then
    match w_response w with
    | None => ([TruncateFile], Fails)
    | Some r =>
        match rs_copied r with
        | Some n => ([TruncateFile; WriteFile (firstn n (rs_body r))], Fails)
        | None => ([TruncateFile; WriteFile (rs_body r)], Succeeds)
        end
    end
  else ([], Fails).

(** l.177-264, after the deployment was created.  The result of RetryNotify is
    ignored (l.179). *)
Definition capture (w : world) (host : string) : list effect * result :=
  match w_pods w with
  | None => ([], Fails)
  | Some [] => ([], Crashes)                       (* l.199: index out of range *)
  | Some (pod :: _) =>
      if w_wait w then
        if w_upgrade w then
          if w_forwarder w then
            match w_forward w with
            | FReady => let '(effs, r) := fetch w in (Forward (host_ip host) pod :: effs, r)
            | _ => ([Forward (host_ip host) pod], Fails)
            end
          else ([], Fails)
        else ([], Fails)
      else ([], Fails)
  end.

(** l.96-265, Run: the deferred deletion (l.167-174) also runs when the body
    panics. *)
Definition run (w : world) (host : string) : list effect * result :=
  if w_router w then
    if w_create w then
      let '(effs, r) := capture w host in ((CreateDeployment :: effs) ++ [DeleteDeployment], r)%list
    else ([], Fails)
  else ([], Fails).
