(** What the Go runtime and library choose freely, as explicit arguments of the
    modelled calls: the clock, map iteration orders, and the result of
    sort.Slice. *)
From Coq Require Import ZArith NArith Ascii String.
From stdpp Require Import base gmap strings list sorting.
From Verif Require Import GoBase.

(** One call's environment.  [env_iter site l] is the order in which the loop
    named [site] visits a map whose entries are [l]; [env_sort less l] is what
    sort.Slice leaves in the slice. *)
Record env := Env {
  env_now : gotime;                                      (* time.Now *)
  env_iter : string -> forall A : Type, list A -> list A;
  env_sort : forall A : Type, (A -> A -> bool) -> list A -> list A;
}.

(** A strict weak order. *)
Record strict_weak {A} (lt : A -> A -> Prop) : Prop := {
  sw_irrefl : forall x, ~ lt x x;
  sw_trans : forall x y z, lt x y -> lt y z -> lt x z;
  sw_incomp : forall x y z, ~ lt x y -> ~ lt y z -> ~ lt x z;
}.

(** The contract of package sort for sort.Slice: the result is a permutation,
    and it is sorted if the comparison agrees with some strict weak order on
    elements at different positions (sort.Slice never compares an element with
    itself). *)
Definition sort_contract (sort : forall A : Type, (A -> A -> bool) -> list A -> list A) : Prop :=
  forall A (less : A -> A -> bool) (l : list A),
    sort A less l ≡ₚ l /\
    forall lt : A -> A -> Prop, strict_weak lt ->
      (forall i j x y, i <> j -> l !! i = Some x -> l !! j = Some y ->
         (less x y = true <-> lt x y)) ->
      StronglySorted (fun x y => ~ lt y x) (sort A less l).

(** A map loop visits every entry once, in some order. *)
Definition env_ok (e : env) : Prop :=
  (forall site A (l : list A), env_iter e site A l ≡ₚ l) /\ sort_contract (env_sort e).
