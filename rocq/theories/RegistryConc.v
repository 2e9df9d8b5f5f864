(** Model of the record registry under concurrent use: the mutex of
    encoding/encoding.go with MustRegisterRecord, Encode and Decode called by any
    number of goroutines, and by the codecs of attribute types that Encode and
    Decode call while they hold it.

    sync.RWMutex as documented and implemented: writers exclude each other; one
    that has its turn keeps out readers that come later and waits for those that
    are in; when it is done, all readers that wait are in before the next writer
    has its turn. *)
From Coq Require Import ZArith NArith.
From stdpp Require Import base gmap list.
From Verif Require Import GoBase Encoding Run.

Local Open Scope list_scope.

(** The calls that use the registry: encoding.go l.63, encoder.go l.36, decoder.go
    l.22. *)
Inductive rcall :=
  | RReg (code : N) (record : goany)       (* MustRegisterRecord *)
  | REnc (record : goany)                  (* Encode *)
  | RDec (set : option attrset).           (* Decode *)

(** encoder.go l.38-39; decoder.go l.24-38: Decode looks at the record type first. *)
Definition reads_registry (c : rcall) : bool :=
  match c with
  | RReg _ _ => false
  | REnc _ => true
  | RDec (Some a) => match a !! type_of_record with Some (AU32 _) => true | _ => false end
  | RDec None => false
  end.

(** Where a call of a goroutine is: encoding.go l.64-75, encoder.go l.37-59,
    decoder.go l.36-46. *)
Inductive rframe :=
  | FQueued (c : rcall)                    (* RLock waits for a writer *)
  | FIn (c : rcall) (reg : registry)       (* has the read lock, and has looked up its type in these maps *)
  | FMutex (c : rcall)                     (* Lock waits for another writer *)
  | FDrain (c : rcall).                    (* Lock has its turn and waits for the readers *)

Section conc.
(** What Encode and Decode return, codecs included, given the maps (encoder.go
    l.39-59, decoder.go l.38-46).  Simplification: nothing else decides it; the
    maps do not change while the codecs run, so calls they make see the same. *)
Context {R : Type} (answer : registry -> rcall -> R).

(** What a call returns: encoding.go l.63, encoder.go l.36, decoder.go l.22; a
    panic of a codec passes through. *)
Inductive rout := OutReg (r : res unit unit) | OutVal (v : R) | OutPanicked.

(** Calls and returns: encoding.go l.63-76, encoder.go l.36-60, decoder.go l.22-47. *)
Inductive regev :=
  | ECall (g : nat) (c : rcall)
  | ERet (g : nat) (c : rcall) (o : rout).

(** encoding.go l.43-47: the maps, the mutex (a writer has its turn; how many
    readers are in).  [st_g]: the calls each goroutine is in, innermost first. *)
Record rstate := RState { st_reg : registry; st_busy : bool; st_active : nat; st_g : list (list rframe) }.

(** encoding.go l.64-76, encoder.go l.37-60, decoder.go l.36-47. *)
Inductive rlabel :=
  | LCall (g : nat) (c : rcall)            (* by a goroutine, or a codec it runs *)
  | LTake (g : nat)                        (* Lock has its turn *)
  | LReg (g : nat)                         (* the readers are out: MustRegisterRecord runs and unlocks *)
  | LEnd (g : nat)                         (* Encode or Decode returns *)
  | LPanic (g : nat).                      (* a codec panics; the deferred RUnlock runs *)

(** encoding.go l.65 with encoder.go l.37, decoder.go l.36: when the writer
    unlocks, those that wait in RLock are in and look up. *)
Definition let_in (reg : registry) (fs : list rframe) : list rframe :=
  match fs with FQueued c :: rest => FIn c reg :: rest | _ => fs end.
Definition waits_in (fs : list rframe) : bool := match fs with FQueued _ :: _ => true | _ => false end.

(** encoding.go l.63-76; encoder.go l.37-60; decoder.go l.23-52.  A call and its
    attempt to take the lock are one step, as are a registration and the release
    of the lock: no other goroutine can tell. *)
Definition rstep (s : rstate) (l : rlabel) : option (rstate * list regev) :=
  match l with
  | LCall g c =>
      match st_g s !! g with
      | Some fs =>
          match fs with
          | [] | FIn _ _ :: _ =>
              match c with
              | RReg _ _ => Some (RState (st_reg s) (st_busy s) (st_active s) (<[g := FMutex c :: fs]> (st_g s)), [ECall g c])
              | _ =>
                  if reads_registry c then
                    if st_busy s then Some (RState (st_reg s) true (st_active s) (<[g := FQueued c :: fs]> (st_g s)), [ECall g c])
                    else Some (RState (st_reg s) false (S (st_active s)) (<[g := FIn c (st_reg s) :: fs]> (st_g s)), [ECall g c])
                  else Some (s, [ECall g c; ERet g c (OutVal (answer (st_reg s) c))])
              end
          | _ => None
          end
      | None => None
      end
  | LTake g =>
      match st_g s !! g with
      | Some (FMutex c :: fs) =>
          if st_busy s then None else Some (RState (st_reg s) true (st_active s) (<[g := FDrain c :: fs]> (st_g s)), [])
      | _ => None
      end
  | LReg g =>
      match st_g s !! g, st_active s with
      | Some (FDrain (RReg code x as c) :: fs), O =>
          let '(reg, o) := match must_register code x (st_reg s) with Ok r => (r, Ok tt) | Err e => (st_reg s, Err e) | Panic => (st_reg s, Panic) end in
          let gs := <[g := fs]> (st_g s) in
          Some (RState reg false (length (filter (fun fs => waits_in fs = true) gs)) (let_in reg <$> gs), [ERet g c (OutReg o)])
      | _, _ => None
      end
  | LEnd g =>
      match st_g s !! g with
      | Some (FIn c reg :: fs) => Some (RState (st_reg s) (st_busy s) (pred (st_active s)) (<[g := fs]> (st_g s)), [ERet g c (OutVal (answer reg c))])
      | _ => None
      end
  | LPanic g =>
      match st_g s !! g with
      | Some (FIn c reg :: fs) => Some (RState (st_reg s) (st_busy s) (pred (st_active s)) (<[g := fs]> (st_g s)), [ERet g c OutPanicked])
      | _ => None
      end
  end.

(** encoding.go l.43-47, with [n] goroutines and the types registered so far. *)
Definition r_init (n : nat) (reg : registry) : rstate := RState reg false 0 (replicate n []).
Definition rrun := run rstep.

(** Steps that are not a new call. *)
Definition going_on (l : rlabel) : bool := match l with LCall _ _ => false | _ => true end.
End conc.
