(** Vocabulary for the properties of the fixture server: what a schedule asks
    for and what a reader can see, independently of how the server works. *)
From Coq Require Import ZArith String.
From stdpp Require Import base gmap strings list.
From Verif Require Import GoBase Cache Diff Tool Run Fixture.

Local Open Scope list_scope.

(** The configurations the server has received in the schedule, oldest first:
    those of the POST requests it has taken. *)
Definition received_step (a : gmap nat (list source_ref) * list (list source_ref)) (l : flabel) :=
  match l with
  | Post r cfg => (<[r := cfg]> a.1, a.2)
  | Take r => (a.1, a.2 ++ [default [] (a.1 !! r)])
  | _ => a
  end.
Definition received (ls : list flabel) : list (list source_ref) := (fold_left received_step ls (∅, [])).2.

(** The names of the sources. *)
Definition named (cfg : list source_ref) (n : string) : Prop := exists src, src ∈ cfg /\ sr_name src = n.

(** All sources of all configurations. *)
Definition all_sources (cfgs : list (list source_ref)) : list (nat * source_ref) :=
  concat (imap (fun g cfg => (fun src => (g, src)) <$> cfg) cfgs).

(** The answers to POST requests. *)
Definition answers (evs : list fevent) : list nat :=
  omap (fun e => match e with EvAnswer r _ => Some r | _ => None end) evs.

(** The replays that have ended. *)
Definition ended (evs : list fevent) : list nat :=
  omap (fun e => match e with EvReplayed k => Some k | _ => None end) evs.

(** The steps of the server's own loop. *)
Definition own (l : flabel) : Prop := l = Loop \/ exists n, l = StartOne n.
