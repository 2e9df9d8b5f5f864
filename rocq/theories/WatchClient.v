(** Model of watches together with the clients they watch
    (eventsource/discovery.go l.139-248 over Discovery.v, eventsource/client.go
    over Client.v): the handlers a watch registers with its client, and its
    closing of that client when it ends.

    All clients exist from the beginning.  Handler number 2w of a client is that
    of watch w; odd numbers are left to the users of the client.  A handler of
    a watch takes two steps: being called and looking at the clock, and storing
    what it saw; its listener waits for the second. *)
From Coq Require Import ZArith NArith String.
From stdpp Require Import base gmap strings list.
From Verif Require Import GoBase Encoding Records Messages Run Keepalive Client Discovery.

Local Open Scope list_scope.

(** The discovery, the clients, and what ties them: discovery.go l.139-142 and
    172-176 (WatchConfig.Client, watch). *)
Record jstate := JState {
  j_d : dstate;
  j_cl : list cstate;                   (* the clients *)
  j_of : list nat;                      (* WatchConfig.Client, by watch *)
  j_reg : gmap nat nat;                 (* watches in newWatch: 1 before OnHeartbeat, 0 before OnRecord *)
  j_in : gmap (nat * nat) (nat * Z);    (* client and listener that run a watch's handler: the watch and the time it saw *)
  j_by : gmap nat nat;                  (* clients being closed by a watch *)
  j_close : gmap nat bool;              (* watches that called Close; whether it returned *)
}.

(** [n] clients, nothing watched. *)
Definition j_init (n : nat) (now : Z) : jstate := JState (d_init now) (replicate n c_init) [] ∅ ∅ ∅ ∅.

(** What happens: to the discovery, to a client; and what time a watch's handler
    saw, for which message. *)
Inductive jev :=
  | JED (e : dev)
  | JEC (j : nat) (e : cev)
  | JNow (w j i : nat) (t : Z) (x : message).

(** Steps: discovery.go l.162-248 and client.go l.61-161. *)
Inductive jlabel :=
  | JD (l : dlabel)                     (* a step of the discovery or of a watch *)
  | JC (j : nat) (l : clabel)           (* a step of a client, its listeners and users *)
  | JNew (j : nat) (c : wcfg)           (* NewWatchClient for client [j] *)
  | JReg (w : nat)                      (* a watch registers a handler *)
  | JStore (j i : nat)                  (* the watch's handler listener [i] runs stores the time *)
  | JClose (w : nat).                   (* the deferred Close of the watch begins *)

(** Replacing the discovery's state. *)
Definition js_d (d : dstate) (s : jstate) : jstate := JState d (j_cl s) (j_of s) (j_reg s) (j_in s) (j_by s) (j_close s).

(** The process is gone. *)
Definition j_crashed (s : jstate) : bool := d_crashed (j_d s) || existsb c_crashed (j_cl s).

(** A step of the discovery or of a watch (discovery.go). *)
Definition lift_d (s : jstate) (l : dlabel) : option (jstate * list jev) :=
  match dstep (j_d s) l with Some (d, ev) => Some (js_d d s, JED <$> ev) | None => None end.

(** Close returned. *)
Definition is_closed (e : cev) : bool := match e with CClosed => true | _ => false end.

(** Client [j] is in [c'] after events [ev]; if its Close returned, the watch
    that called it, if it was one, is told. *)
Definition after_c (s : jstate) (j : nat) (c' : cstate) (ev : list cev) : jstate :=
  let back := existsb is_closed ev in
  JState (j_d s) (<[j := c']> (j_cl s)) (j_of s) (j_reg s) (j_in s)
    (if back then delete j (j_by s) else j_by s)
    (if back then match j_by s !! j with Some w => <[w := true]> (j_close s) | None => j_close s end else j_close s).

(** A step of client [j] (client.go). *)
Definition lift_c (infos : nat -> info) (s : jstate) (j : nat) (l : clabel) : option (jstate * list jev) :=
  match j_cl s !! j with
  | None => None
  | Some c =>
      match cstep (infos j) c l with
      | None => None
      | Some (c', ev) => Some (after_c s j c' ev, JEC j <$> ev)
      end
  end.

(** The watch whose handler was called, with the message. *)
Definition watch_called (ev : list cev) : option (nat * message) :=
  match ev with
  | [CCall _ (User n) x] => if Nat.even n then Some (Nat.div2 n, x) else None
  | _ => None
  end.

(** One step of the whole.  A crash anywhere ends it all. *)
Definition jstep (infos : nat -> info) (s : jstate) (lb : jlabel) : option (jstate * list jev) :=
  if j_crashed s then None else
  match lb with
  | JD l =>
      match l with
      | LWatch _ | LActNow _ | LActStore _ _ => None              (* JNew, JC, JStore *)
      | LWStart w =>
          (* discovery.go l.168-169: go w.run after newWatch *)
          match j_reg s !! w with Some _ => None | None => lift_d s l end
      | LWEnd w =>
          (* discovery.go l.215: the deferred Close comes first *)
          match j_close s !! w with Some true => lift_d s l | _ => None end
      | _ => lift_d s l
      end
  | JNew j c =>
      (* discovery.go l.162-169 *)
      if decide (j < length (j_cl s)) then
        match dstep (j_d s) (LWatch c) with
        | None => None
        | Some (d, ev) =>
            Some (if decide (length (d_watches d) = length (d_watches (j_d s))) then js_d d s
                  else JState d (j_cl s) (j_of s ++ [j]) (<[length (d_watches (j_d s)) := 1]> (j_reg s)) (j_in s) (j_by s) (j_close s),
                  JED <$> ev)
        end
      else None
  | JReg w =>
      (* discovery.go l.183 and 188: OnHeartbeat, then OnRecord *)
      match j_reg s !! w, j_of s !! w with
      | Some n, Some j =>
          match lift_c infos s j (LReg (match n with O => OnRec | S _ => OnHb end) (2 * w)) with
          | Some (s', ev) =>
              Some (JState (j_d s') (j_cl s') (j_of s') (match n with O => delete w (j_reg s') | S n' => <[w := n']> (j_reg s') end)
                      (j_in s') (j_by s') (j_close s'), ev)
          | None => None
          end
      | _, _ => None
      end
  | JC j l =>
      match l with
      | LReg _ n => if Nat.odd n then lift_c infos s j l else None
      | LLRun i =>
          (* client.go l.122-131: the loop goes on when the handler has returned *)
          match j_in s !! (j, i), j_cl s !! j with
          | None, Some c =>
              match cstep (infos j) c l with
              | None => None
              | Some (_, ev) =>
                  match lift_c infos s j l, watch_called ev with
                  | Some (s', jev), None => Some (s', jev)
                  | Some (s', jev), Some (w, x) =>
                      (* discovery.go l.184 and 189 *)
                      match dstep (j_d s') (LActNow w) with
                      | Some (d, _) =>
                          Some (JState d (j_cl s') (j_of s') (j_reg s') (<[(j, i) := (w, d_now d)]> (j_in s')) (j_by s') (j_close s'),
                                jev ++ [JNow w j i (d_now d) x])
                      | None => None
                      end
                  | None, _ => None
                  end
              end
          | _, _ => None
          end
      | _ => lift_c infos s j l
      end
  | JStore j i =>
      (* discovery.go l.185 and 190 *)
      match j_in s !! (j, i) with
      | Some (w, ts) =>
          match d_watches (j_d s) !! w with
          | Some x =>
              match list_find (fun t => t = ts) (wt_pend x) with
              | Some (k, _) =>
                  match dstep (j_d s) (LActStore w k) with
                  | Some (d, ev) => Some (JState d (j_cl s) (j_of s) (j_reg s) (delete (j, i) (j_in s)) (j_by s) (j_close s), JED <$> ev)
                  | None => None
                  end
              | None => None
              end
          | None => None
          end
      | None => None
      end
  | JClose w =>
      (* discovery.go l.215 *)
      match d_watches (j_d s) !! w, j_close s !! w, j_of s !! w with
      | Some x, None, Some j =>
          match wt_pc x with
          | WClosing =>
              match lift_c infos s j LCloseBegin with
              | Some (s', ev) =>
                  Some (JState (j_d s') (j_cl s') (j_of s') (j_reg s') (j_in s') (<[j := w]> (j_by s')) (<[w := false]> (j_close s')), ev)
              | None => None
              end
          | _ => None
          end
      | _, _, _ => None
      end
  end.

Notation jrun infos := (run (jstep infos)).

(** What concerns the discovery, and what concerns client [j]. *)
Definition devs (tr : list jev) : list dev := omap (fun e => match e with JED x => Some x | _ => None end) tr.
Definition cevs (j : nat) (tr : list jev) : list cev :=
  omap (fun e => match e with JEC k x => if bool_decide (k = j) then Some x else None | _ => None end) tr.
