(** Model of the pacing of reconnection: the exponential strategy of
    github.com/cenkalti/backoff v4.2.1 as used by session containers
    (session/container.go l.158-231, session/factory.go l.13-18 and l.37-39,
    cmd/vanflow-tool/main.go l.123-128).  Times are nanoseconds.  What a
    container does between connecting and failing is in Session.v; here it is
    reduced to its effect on the strategy.  ExponentialBackOff has no lock;
    each method call is one step here. *)
From Coq Require Import ZArith Lia.
From stdpp Require Import base list functions.
From Verif Require Import Run.

Local Open Scope Z_scope.

(** ExponentialBackOff's settings, with the default multiplier 1.5 and
    randomization factor 0.5; a zero limit (MaxElapsedTime) means none. *)
Record bcfg := BCfg { b_init : Z; b_max : Z; b_limit : Z }.

(** NewExponentialBackOff with main.go l.124: 500 ms, 60 s, at most 60 s. *)
Definition tool_cfg : bcfg := BCfg 500000000 60000000000 60000000000.

(** session/container.go l.159-166: 250 ms, 30 s, no limit. *)
Definition default_cfg : bcfg := BCfg 250000000 30000000000 0.

(** currentInterval and startTime. *)
Record bo := Bo { bo_cur : Z; bo_start : Z }.

(** ExponentialBackOff.Reset. *)
Definition reset (c : bcfg) (now : Z) : bo := Bo (b_init c) now.

(** incrementCurrentInterval; float64 arithmetic is exact here. *)
Definition increment (c : bcfg) (cur : Z) : Z :=
  if 2 * b_max c <=? 3 * cur then b_max c else 3 * cur / 2.

(** getRandomValueFromInterval: what it can return, give or take rounding. *)
Definition drawn (cur d : Z) : bool := (cur <=? 2 * d + 2) && (2 * d <=? 3 * cur + 2) && (0 <=? d).

(** ExponentialBackOff.NextBackOff when [d] is drawn; [None] is Stop. *)
Definition next_backoff (c : bcfg) (now d : Z) (b : bo) : bo * option Z :=
  (Bo (increment c (bo_cur b)) (bo_start b),
   if negb (b_limit c =? 0) && (b_limit c <? now - bo_start b + d) then None else Some d).

(** A container: not started; dialling; with a session; pausing until a time;
    given up. *)
Inductive phase := PNew | PTrying | PUp | PWaiting (till : Z) | PGaveUp.

Record st := St { s_now : Z; s_bo : nat -> bo; s_phase : nat -> phase }.

Inductive label :=
  | Tick (d : Z)               (* time passes *)
  | Start (i : nat)            (* container.go l.158; RetryNotify resets the strategy *)
  | Connected (i : nat)        (* l.174-192 *)
  | Success (i : nat)          (* l.199-202: a send or accept was reported *)
  | Failure (i : nat) (d : Z)  (* l.176, l.180 or l.204: the operation fails; RetryNotify asks for the next delay *)
  | Retry (i : nat).           (* the pause is over *)

Inductive event := Delay (i : nat) (d : Z) | GivesUp (i : nat).

Section machine.
(** The settings, and the strategy object each container uses.  main.go passes
    one object to the factory, which passes it to every container. *)
Context (c : bcfg) (own : nat -> nat).

Definition init : st := St 0 (fun _ => Bo (b_init c) 0) (fun _ => PNew).

(** [strategy s i]: the object container [i] uses. *)
Definition strategy (s : st) (i : nat) : bo := s_bo s (own i).

(** session/container.go l.168-220 with RetryNotify of backoff v4. *)
Definition step (s : st) (l : label) : option (st * list event) :=
  match l with
  | Tick d => if 0 <=? d then Some (St (s_now s + d) (s_bo s) (s_phase s), []) else None
  | Start i =>
      match s_phase s i with
      | PNew => Some (St (s_now s) (<[own i := reset c (s_now s)]> (s_bo s)) (<[i := PTrying]> (s_phase s)), [])
      | _ => None
      end
  | Connected i =>
      match s_phase s i with
      | PTrying => Some (St (s_now s) (s_bo s) (<[i := PUp]> (s_phase s)), [])
      | _ => None
      end
  | Success i =>
      match s_phase s i with
      | PUp => Some (St (s_now s) (<[own i := reset c (s_now s)]> (s_bo s)) (s_phase s), [])
      | _ => None
      end
  | Failure i d =>
      if (match s_phase s i with PTrying | PUp => true | _ => false end) && drawn (bo_cur (strategy s i)) d then
        let '(b, next) := next_backoff c (s_now s) d (strategy s i) in
        match next with
        | Some d => Some (St (s_now s) (<[own i := b]> (s_bo s)) (<[i := PWaiting (s_now s + d)]> (s_phase s)), [Delay i d])
        | None => Some (St (s_now s) (<[own i := b]> (s_bo s)) (<[i := PGaveUp]> (s_phase s)), [GivesUp i])
        end
      else None
  | Retry i =>
      match s_phase s i with
      | PWaiting till =>
          if till <=? s_now s then Some (St (s_now s) (s_bo s) (<[i := PTrying]> (s_phase s)), []) else None
      | _ => None
      end
  end.
End machine.
