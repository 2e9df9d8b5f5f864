(** Model of eventsource/discovery.go: the collection of known sources, its
    notifications, Run, and watches.

    Every critical section of d.lock is one step, except that a call that has to
    send on a full channel keeps the lock until there is room.  Time is in
    nanoseconds; time.Time is modelled by one number, so that wall clock and
    monotonic clock are not told apart.  One call of Run is modelled. *)
From Coq Require Import ZArith NArith Ascii String.
From stdpp Require Import base gmap strings list.
From Verif Require Import GoBase Encoding Records Messages Run Keepalive.

Local Open Scope list_scope.

(** eventsource/source.go l.8-15, with LastSeen. *)
Record dsource := DSource { ds_info : info; ds_seen : Z }.
Global Instance info_eq_dec : EqDecision info.
Proof. solve_decision. Defined.
Global Instance dsource_eq_dec : EqDecision dsource.
Proof. solve_decision. Defined.

(** The two kinds of notification. *)
Inductive note := Disc | Forg.
Global Instance note_eq_dec : EqDecision note.
Proof. solve_decision. Defined.

(** What is done under the lock: Add, Forget, Get, List with the order in which
    the map was iterated, observe, lastSeen. *)
Inductive dop :=
  | OAdd (x : dsource)
  | OForget (id : string)
  | OGet (id : string)
  | OList (l : list dsource)
  | OObserve (b : beacon)
  | OSeen (id : string) (latest : Z).
Inductive dres := RBool (b : bool) | RGot (r : option dsource) | RListed (l : list dsource) | RUnit.

(** l.260-267: what is kept of a beacon. *)
Definition of_beacon (b : beacon) (now : Z) : dsource :=
  DSource (Info (bc_identity b) (Z.of_N (bc_version b)) (bc_source_type b) (bc_address b) (bc_direct b)) now.

(** l.88-96, 99-108, 111-125, 128-136, 250-275 and 277-288: the new map, the
    result and the notification to send. *)
Definition effect (now : Z) (o : dop) (m : gmap string dsource) : option (gmap string dsource * dres * option (note * dsource)) :=
  match o with
  | OGet id => Some (m, RGot (m !! id), None)
  | OAdd x =>
      match m !! i_id (ds_info x) with
      | Some _ => Some (m, RBool false, None)
      | None => Some (<[i_id (ds_info x) := x]> m, RBool true, Some (Disc, x))
      end
  | OForget id =>
      match m !! id with
      | Some x => Some (delete id m, RBool true, Some (Forg, x))
      | None => Some (m, RBool false, None)
      end
  | OList l => if bool_decide (l ≡ₚ (map_to_list m).*2) then Some (m, RListed l, None) else None
  | OObserve b =>
      match m !! bc_identity b with
      | Some x => Some (<[bc_identity b := DSource (ds_info x) now]> m, RUnit, None)
      | None => Some (<[bc_identity b := of_beacon b now]> m, RUnit, Some (Disc, of_beacon b now))
      end
  | OSeen id latest =>
      match m !! id with
      | Some x => Some (if (ds_seen x <? latest)%Z then <[id := DSource (ds_info x) latest]> m else m, RUnit, None)
      | None => Some (m, RUnit, None)
      end
  end.

(** l.42-43. *)
Definition chan_cap : nat := 32.

(** Who makes a call: a user's goroutine, a handler, Run, a watch. *)
Inductive who := ByUser | ByHandler | ByRun | ByWatch (w : nat).

(** Run (l.49-70): not called; in Next; before observe; in observe, blocked;
    returned. *)
Inductive rpc := RIdle | RNext | RObserve (b : beacon) | RBlocked | RDoneRun.
(** handleDiscovery (l.72-88): not started; in the select; running a handler;
    the handler waits for the lock, or for its call to return; ended. *)
Inductive hpc := HNone | HSelect | HRunning (k : note) (x : dsource) | HWants (k : note) (x : dsource) (o : dop) | HBlocked (k : note) (x : dsource) | HEnded.

(** l.139-158, WatchConfig without the client. *)
Record wcfg := WCfg { w_id : string; w_timeout : Z; w_grace : Z; w_update : Z }.
(** l.209-212. *)
Definition update_interval (c : wcfg) : Z := if (w_update c <=? 0)%Z then 1000000000 else w_update c.

(** watch.run (l.196-248): before the timers; before the first look at the
    activity; in the select; in lastSeen with what was seen, after the timer or
    after the ticker; before Reset; waiting for a value of the timer's channel
    forever; in Forget; Forget blocked; in the deferred functions; returned. *)
Inductive wpc :=
  | WStart | WLook | WSelect
  | WSeen (tick : bool) (n : Z) | WReset (tick : bool) (n : Z) | WStuck
  | WForget | WBlocked | WClosing | WEnded.

Record watch := Watch {
  wt_cfg : wcfg;
  wt_pc : wpc;
  wt_last : option Z;         (* the atomic pointer *)
  wt_pend : list Z;           (* handlers between time.Now and Store *)
  wt_prev : option Z;         (* prevObserved; None is the zero time *)
  wt_fire : option Z;         (* when the timer will fire, if it is running *)
  wt_chan : bool;             (* a value in the timer's channel *)
  wt_next : Z;                (* the next tick *)
  wt_tick : bool;             (* a value in the ticker's channel *)
  wt_cancelled : bool;
}.

Record dstate := DState {
  d_map : gmap string dsource;
  d_disc : list dsource;      (* the channels *)
  d_forg : list dsource;
  d_held : option (who * note * dsource);   (* the call that holds the lock, blocked on a channel *)
  d_run : rpc;
  d_hand : hpc;
  d_cancelled : bool;         (* the context given to Run *)
  d_watches : list watch;
  d_now : Z;
  d_crashed : bool;
}.

Definition d_init (now : Z) : dstate := DState ∅ [] [] None RIdle HNone false [] now false.

Inductive dev :=
  | DOp (c : who) (o : dop) (r : dres)     (* the effect of a call, with its result *)
  | DRet (c : who)                         (* it returned *)
  | DHandle (k : note) (x : dsource)       (* a notification was taken *)
  | DHandled
  | DSkip                                  (* Run skipped a message *)
  | DRunRet
  | DWatch (w : nat) (id : string)         (* NewWatchClient *)
  | DNoWatch (id : string)
  | DStart (w : nat) (t : Z)               (* the timers were set *)
  | DLook (w : nat) (t : Z)                (* the first look at the activity *)
  | DAct (w : nat) (ts : Z)                (* activity recorded *)
  | DReset (w : nat) (t : Z)
  | DDecide (w : nat) (t : Z)              (* the timeout was found to be over *)
  | DWatchEnd (w : nat)
  | DPanic.

Inductive dlabel :=
  | LDTime (dt : Z)
  | LUser (o : dop)
  | LUnblock                               (* the blocked send succeeds *)
  | LRun | LRunMsg (m : amqp_msg) | LRunErr | LObserve
  | LDCancel
  | LTake (k : note) | LHandlerRet | LHandlerCall (o : dop) | LHandlerOp | LHandlerEnd
  | LWatch (c : wcfg)
  | LWStart (w : nat) | LWLook (w : nat)
  | LActNow (w : nat) | LActStore (w : nat) (k : nat)
  | LWFire (w : nat) | LWTick (w : nat)
  | LWTakeTimer (w : nat) | LWTakeTick (w : nat)
  | LWSeen (w : nat) | LWReset (w : nat) | LWForget (w : nat)
  | LWCancel (w : nat) | LWCtx (w : nat) | LWEnd (w : nat).

Definition ds_map (m : gmap string dsource) (s : dstate) : dstate :=
  DState m (d_disc s) (d_forg s) (d_held s) (d_run s) (d_hand s) (d_cancelled s) (d_watches s) (d_now s) (d_crashed s).
Definition ds_chans (dc fg : list dsource) (s : dstate) : dstate :=
  DState (d_map s) dc fg (d_held s) (d_run s) (d_hand s) (d_cancelled s) (d_watches s) (d_now s) (d_crashed s).
Definition ds_held (h : option (who * note * dsource)) (s : dstate) : dstate :=
  DState (d_map s) (d_disc s) (d_forg s) h (d_run s) (d_hand s) (d_cancelled s) (d_watches s) (d_now s) (d_crashed s).
Definition ds_run (r : rpc) (s : dstate) : dstate :=
  DState (d_map s) (d_disc s) (d_forg s) (d_held s) r (d_hand s) (d_cancelled s) (d_watches s) (d_now s) (d_crashed s).
Definition ds_hand (h : hpc) (s : dstate) : dstate :=
  DState (d_map s) (d_disc s) (d_forg s) (d_held s) (d_run s) h (d_cancelled s) (d_watches s) (d_now s) (d_crashed s).
Definition ds_watches (l : list watch) (s : dstate) : dstate :=
  DState (d_map s) (d_disc s) (d_forg s) (d_held s) (d_run s) (d_hand s) (d_cancelled s) l (d_now s) (d_crashed s).
Definition ds_crash (s : dstate) : dstate :=
  DState (d_map s) (d_disc s) (d_forg s) (d_held s) (d_run s) (d_hand s) (d_cancelled s) (d_watches s) (d_now s) true.

Definition chan_of (s : dstate) (k : note) : list dsource := match k with Disc => d_disc s | Forg => d_forg s end.
Definition set_chan (k : note) (l : list dsource) (s : dstate) : dstate :=
  match k with Disc => ds_chans l (d_forg s) s | Forg => ds_chans (d_disc s) l s end.
Definition roomy (s : dstate) (k : note) : bool := length (chan_of s k) <? chan_cap.

Definition upd_watch (w : nat) (f : watch -> watch) (s : dstate) : dstate := ds_watches (alter f w (d_watches s)) s.
Definition w_goto (p : wpc) (x : watch) : watch :=
  Watch (wt_cfg x) p (wt_last x) (wt_pend x) (wt_prev x) (wt_fire x) (wt_chan x) (wt_next x) (wt_tick x) (wt_cancelled x).

(** What the caller does when its call has returned. *)
Definition returns_to (c : who) (s : dstate) : dstate :=
  match c with
  | ByUser => s
  | ByHandler => match d_hand s with HWants k x _ | HBlocked k x => ds_hand (HRunning k x) s | _ => s end
  | ByRun => ds_run RNext s
  | ByWatch w => upd_watch w (fun x => match wt_pc x with WSeen t n => w_goto (WReset t n) x | _ => w_goto WClosing x end) s
  end.
Definition blocks_in (c : who) (s : dstate) : dstate :=
  match c with
  | ByUser => s
  | ByHandler => match d_hand s with HWants k x _ => ds_hand (HBlocked k x) s | _ => s end
  | ByRun => ds_run RBlocked s
  | ByWatch w => upd_watch w (w_goto WBlocked) s
  end.

(** A call: it takes the lock, has its effect, and returns or is blocked. *)
Definition call (c : who) (o : dop) (s : dstate) : option (dstate * list dev) :=
  match d_held s with
  | Some _ => None
  | None =>
      match effect (d_now s) o (d_map s) with
      | None => None
      | Some (m, r, None) => Some (returns_to c (ds_map m s), [DOp c o r; DRet c])
      | Some (m, r, Some (k, x)) =>
          if roomy s k then Some (returns_to c (set_chan k (chan_of s k ++ [x]) (ds_map m s)), [DOp c o r; DRet c])
          else Some (blocks_in c (ds_held (Some (c, k, x)) (ds_map m s)), [DOp c o r])
      end
  end.

(** l.243-249, advanceLastSeen. *)
Definition newer (x : watch) : option Z :=
  match wt_last x with
  | None => None
  | Some t => match wt_prev x with None => Some t | Some p => if (p <? t)%Z then Some t else None end
  end.

(** A watch's own steps. *)
Definition watch_step (s : dstate) (w : nat) (x : watch) (lb : dlabel) : option (dstate * list dev) :=
  let c := wt_cfg x in
  let put y ev := Some (upd_watch w (fun _ => y) s, ev) in
  match lb, wt_pc x with
  | LWStart _, WStart =>
      (* l.202-214 *)
      put (Watch c WLook (wt_last x) (wt_pend x) None (if (0 <? w_timeout c)%Z then Some (d_now s + (w_grace c + w_timeout c))%Z else None) false
             (d_now s + update_interval c) false (wt_cancelled x)) [DStart w (d_now s)]
  | LWLook _, WLook =>
      (* l.217-218 *)
      put (Watch c WSelect (wt_last x) (wt_pend x) (newer x) (wt_fire x) (wt_chan x) (wt_next x) (wt_tick x) (wt_cancelled x)) [DLook w (d_now s)]
  | LActNow _, _ =>
      (* l.184-192: a handler of the client *)
      put (Watch c (wt_pc x) (wt_last x) (wt_pend x ++ [d_now s]) (wt_prev x) (wt_fire x) (wt_chan x) (wt_next x) (wt_tick x) (wt_cancelled x)) []
  | LActStore _ k, _ =>
      match wt_pend x !! k with
      | Some ts =>
          put (Watch c (wt_pc x) (Some ts) (take k (wt_pend x) ++ drop (S k) (wt_pend x)) (wt_prev x) (wt_fire x) (wt_chan x) (wt_next x) (wt_tick x)
                 (wt_cancelled x)) [DAct w ts]
      | None => None
      end
  | LWFire _, _ =>
      match wt_fire x with
      | Some t =>
          if (t <=? d_now s)%Z then put (Watch c (wt_pc x) (wt_last x) (wt_pend x) (wt_prev x) None true (wt_next x) (wt_tick x) (wt_cancelled x)) []
          else None
      | None => None
      end
  | LWTick _, WStart => None
  | LWTick _, _ =>
      (* a late ticker drops ticks; the model may tick once for each *)
      if (wt_next x <=? d_now s)%Z then
        put (Watch c (wt_pc x) (wt_last x) (wt_pend x) (wt_prev x) (wt_fire x) (wt_chan x) (wt_next x + update_interval c) true (wt_cancelled x)) []
      else None
  | LWTakeTimer _, WSelect =>
      (* l.223-231 *)
      if wt_chan x then
        let y p := Watch c p (wt_last x) (wt_pend x) (wt_prev x) (wt_fire x) false (wt_next x) (wt_tick x) (wt_cancelled x) in
        match newer x with
        | Some n => put (y (WSeen false n)) []
        | None => put (y WForget) [DDecide w (d_now s)]
        end
      else None
  | LWTakeTick _, WSelect =>
      (* l.234-238 *)
      if wt_tick x then
        let y p := Watch c p (wt_last x) (wt_pend x) (wt_prev x) (wt_fire x) (wt_chan x) (wt_next x) false (wt_cancelled x) in
        match newer x with
        | Some n => put (y (WSeen true n)) []
        | None => put (y WSelect) []
        end
      else None
  | LWSeen _, WSeen _ n => call (ByWatch w) (OSeen (w_id c) n) s
  | LWReset _, WReset tick n =>
      (* l.232-233 and 240-246 *)
      if negb tick || (0 <? w_timeout c)%Z then
        let reset ch := put (Watch c WSelect (wt_last x) (wt_pend x) (Some n) (Some (d_now s + w_timeout c)%Z) ch (wt_next x) (wt_tick x) (wt_cancelled x))
                          [DReset w (d_now s)] in
        if tick then
          match wt_fire x with
          | Some _ => reset (wt_chan x)                      (* Stop returned true *)
          | None => if wt_chan x then reset false            (* the value is received *)
                    else put (w_goto WStuck x) []
          end
        else reset (wt_chan x)
      else put (Watch c WSelect (wt_last x) (wt_pend x) (Some n) (wt_fire x) (wt_chan x) (wt_next x) (wt_tick x) (wt_cancelled x)) []
  | LWForget _, WForget => call (ByWatch w) (OForget (w_id c)) s
  | LWCancel _, _ =>
      put (Watch c (wt_pc x) (wt_last x) (wt_pend x) (wt_prev x) (wt_fire x) (wt_chan x) (wt_next x) (wt_tick x) true) []
  | LWCtx _, WSelect => if wt_cancelled x then put (w_goto WClosing x) [] else None
  | LWEnd _, WClosing =>
      (* l.214-215: the client is closed (Client.v), the timers are stopped *)
      put (Watch c WEnded (wt_last x) (wt_pend x) (wt_prev x) None (wt_chan x) (wt_next x) (wt_tick x) (wt_cancelled x)) [DWatchEnd w]
  | _, _ => None
  end.

(** l.55-69: a message. *)
Definition run_msg (s : dstate) (m : amqp_msg) : dstate * list dev :=
  match am_props m with
  | None => (ds_crash s, [DPanic])
  | Some p =>
      match ap_subject p with
      | None => (ds_crash s, [DPanic])
      | Some sub =>
          if bool_decide (sub = beacon_subject) then
            match decode_beacon m with
            | Ok b => (ds_run (RObserve b) s, [])
            | _ => (ds_crash s, [DPanic])
            end
          else (s, [DSkip])
      end
  end.

Definition dstep (s : dstate) (lb : dlabel) : option (dstate * list dev) :=
  if d_crashed s then None else
  match lb with
  | LDTime dt =>
      if (0 <=? dt)%Z then
        Some (DState (d_map s) (d_disc s) (d_forg s) (d_held s) (d_run s) (d_hand s) (d_cancelled s) (d_watches s) (d_now s + dt) false, [])
      else None
  | LUser o => match o with OObserve _ | OSeen _ _ => None | _ => call ByUser o s end
  | LUnblock =>
      match d_held s with
      | Some (c, k, x) => if roomy s k then Some (returns_to c (ds_held None (set_chan k (chan_of s k ++ [x]) s)), [DRet c]) else None
      | None => None
      end
  | LRun => match d_run s with RIdle => Some (ds_run RNext (ds_hand HSelect s), []) | _ => None end
  | LRunMsg m => match d_run s with RNext => Some (run_msg s m) | _ => None end
  | LRunErr => match d_run s with RNext => Some (ds_run RDoneRun s, [DRunRet]) | _ => None end
  | LObserve => match d_run s with RObserve b => call ByRun (OObserve b) s | _ => None end
  | LDCancel =>
      Some (DState (d_map s) (d_disc s) (d_forg s) (d_held s) (d_run s) (d_hand s) true (d_watches s) (d_now s) false, [])
  | LTake k =>
      match d_hand s, chan_of s k with
      | HSelect, x :: q => Some (ds_hand (HRunning k x) (set_chan k q s), [DHandle k x])
      | _, _ => None
      end
  | LHandlerRet => match d_hand s with HRunning _ _ => Some (ds_hand HSelect s, [DHandled]) | _ => None end
  | LHandlerCall o =>
      match d_hand s, o with
      | HRunning _ _, (OObserve _ | OSeen _ _) => None
      | HRunning k x, _ => Some (ds_hand (HWants k x o) s, [])
      | _, _ => None
      end
  | LHandlerOp => match d_hand s with HWants _ _ o => call ByHandler o s | _ => None end
  | LHandlerEnd =>
      (* the derived context is cancelled with Run's, and when Run returns *)
      match d_hand s, d_run s with
      | HSelect, RDoneRun => Some (ds_hand HEnded s, [])
      | HSelect, _ => if d_cancelled s then Some (ds_hand HEnded s, []) else None
      | _, _ => None
      end
  | LWatch c =>
      (* l.162-171 *)
      match d_held s with
      | Some _ => None
      | None =>
          match d_map s !! w_id c with
          | None => Some (s, [DNoWatch (w_id c)])
          | Some _ => Some (ds_watches (d_watches s ++ [Watch c WStart None [] None None false 0 false false]) s, [DWatch (length (d_watches s)) (w_id c)])
          end
      end
  | LWStart w | LWLook w | LActNow w | LActStore w _ | LWFire w | LWTick w | LWTakeTimer w | LWTakeTick w
  | LWSeen w | LWReset w | LWForget w | LWCancel w | LWCtx w | LWEnd w =>
      match d_watches s !! w with Some x => watch_step s w x lb | None => None end
  end.

Notation drun := (run dstep).
