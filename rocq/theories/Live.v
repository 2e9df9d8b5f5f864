(** Sources and the tool that collects them: which addresses the one uses and the
    other listens on. *)
From Coq Require Import ZArith NArith Ascii String.
From stdpp Require Import base gmap strings list.
From Verif Require Import GoBase Encoding Records Messages Run Keepalive Discovery Client.

Local Open Scope list_scope.

(** cmd/vanflow-tool/serve.go l.146-163 and log.go l.88-105, with the flags for flows
    and logs. *)
Definition tool_listens (flows logs : bool) (i : info) : list provider :=
  [FromAddress] ++ (if flows then [FromFlows] else []) ++ (if logs then [FromLogs] else []) ++
  (if bool_decide (i_type i = "CONTROLLER"%string) then [FromHeartbeats] else []).
Definition tool_addresses (flows logs : bool) (i : info) : list string := listen_address i <$> tool_listens flows logs i.

(** serve.go l.131 and log.go l.62. *)
Definition tool_watch (i : info) : wcfg := WCfg (i_id i) 30000000000 0 0.

(** cmd/vanflow-tool/fixture.go l.115-128: the manager of a source given by name and
    type, as far as keepalives go. *)
Definition fixture_manager (name type : string) : kcfg :=
  KCfg (Info name 1 type ("mc/sfe." ++ name)%string ("sfe." ++ name)%string) 0 0 (bool_decide (type = "CONTROLLER"%string)).
