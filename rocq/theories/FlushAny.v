(** The manager over stores of any kind: what List answers is left to the stores. *)
From Coq Require Import ZArith NArith Ascii String.
From stdpp Require Import base gmap strings list.
From Verif Require Import GoBase Encoding Records Messages Env SyncMap Tokens Cache Dispatch Diff Run Manager.

Local Open Scope list_scope.

(** What a call of List gives (store/store.go, Interface): the records of the
    entries, nil ones included, with the token to go on; an error, which is the
    context's or another one; or it panics.  A store that changes the selector it
    is given is left out. *)
Inductive lres := LOk (l : mmsg) (tok : string) | LErr (ctx : bool) | LPanics.

(** eventsource/manager.go l.196-217, one round of the loop over the stores.  The
    context's error ends serve if the context is done: before, ctx.Err() is nil,
    and no error is nil. *)
Definition listed (r : lres) (i : nat) (q : list nat) (tok : string) (s : mstate) : mstate :=
  match r with
  | LOk l tok' =>
      let q' := if bool_decide (tok' = ""%string) then q else i :: q in
      match l with
      | [] => set_serve (SPass q' tok') s
      | _ => set_serve (SPassSend l q' tok') s
      end
  | LErr ctx => if ctx && m_cancelled s then set_serve SStopped s else s
  | LPanics => set_crashed s
  end.

(** As in Manager.v; the call of List is a label of its own, and the stores in the
    state say nothing. *)
Inductive alabel := AL (l : mlabel) | AListed (r : lres).
Inductive aev := AM (e : mev) | AAsked (i : nat) (limit : Z) (tok : string) (r : lres).

Definition astep (c : mcfg) (s : mstate) (l : alabel) : option (mstate * list aev) :=
  match l with
  | AListed r =>
      if m_crashed s then None
      else match m_serve s with
      | SPass (i :: q) tok => Some (listed r i q tok s, [AAsked i (mc_flush_batch c) tok r])
      | _ => None
      end
  | AL l =>
      match l, m_serve s with
      | LServe _ ADo, SPass (_ :: _) _ => None
      | _, _ => match mstep c s l with Some (s', ev) => Some (s', AM <$> ev) | None => None end
      end
  end.

Definition arun (c : mcfg) := run (astep c).
