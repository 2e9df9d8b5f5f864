(** Start called more than once on a container (session/container.go l.157-233):
    once it has ended, with a new context, or while it runs.  Each call starts a
    goroutine with variables of its own (l.168-169) over the container's fields and
    channels; its steps, and those of the links, are those of Session.v.

    A call that waits and is woken by a session with the number it waits to pass
    goes on waiting (l.135-142); waking up and waiting again is not a step here.
    The strategy the goroutines share, and its default set by the first call
    (l.158-165), are left out, as in Session.v. *)
From Coq Require Import ZArith NArith Ascii String.
From stdpp Require Import base gmap strings list.
From Verif Require Import GoBase Run Session.

Local Open Scope list_scope.

(** l.167-171: the variables of one goroutine. *)
Record crun := CRun { n_pc : cpc; n_local : nat; n_prev : option nat; n_ctx : option ctx_err }.
(** l.112-124: the container, with the goroutines of the calls of Start. *)
Record astate := AState { a_c : cstate; a_runs : list crun }.

(** l.167-231: a goroutine acts on the container's fields and its own variables. *)
Definition load (n : crun) (s : cstate) : cstate :=
  CState (n_pc n) (n_local n) (n_prev n) (c_sess s) (c_gen s) (c_lock s) (n_ctx n) (c_errs s) (c_oks s) (c_links s) (c_ops s) (c_panic s).
Definition save (s : cstate) : crun := CRun (c_pc s) (c_local s) (c_prev s) (c_ctx s).
Definition keep (s : cstate) : cstate := load (CRun CIdle 0 None None) s.

(** l.157-457: a call of Start; a step of the goroutine of the [r]-th; the end of
    the context it was given; a step of links (Session.v). *)
Inductive alabel := AStart | ARun (r : nat) (lb : clabel) | ACancel (r : nat) (c : ctx_err) | ALink (lb : clabel).
(** l.234-457: what does not concern these goroutines. *)
Definition link_label (lb : clabel) : bool :=
  match lb with LLink | LOp _ _ | LCtx _ _ | LStep _ | LWaitCtx _ | LNet _ _ => true | _ => false end.

(** l.98-233.  Events carry the number of the goroutine, if it is one's. *)
Definition astep (a : astate) (lb : alabel) : option (astate * list (option nat * cev)) :=
  if c_panic (a_c a) then None else
  match lb with
  | AStart => Some (AState (a_c a) (a_runs a ++ [CRun CDial 0 None None]), [])
  | ARun r lb =>
      match a_runs a !! r with
      | Some n =>
          match cont_step (load n (a_c a)) lb with
          | Some (s', ev) => Some (AState (keep s') (<[r := save s']> (a_runs a)), (fun e => (Some r, e)) <$> ev)
          | None => None
          end
      | None => None
      end
  | ACancel r c =>
      match a_runs a !! r with
      | Some (CRun p k v None) => Some (AState (a_c a) (<[r := CRun p k v (Some c)]> (a_runs a)), [(Some r, EvCancel)])
      | _ => None
      end
  | ALink lb =>
      if link_label lb then
        match sstep (a_c a) lb with Some (s', ev) => Some (AState s' (a_runs a), (fun e => (None, e)) <$> ev) | None => None end
      else None
  end.

(** l.101-110. *)
Definition a_init : astate := AState c_init [].
Notation arun := (run astep).
