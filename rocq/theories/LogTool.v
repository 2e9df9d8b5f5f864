(** Model of the tool's log command (cmd/vanflow-tool/log.go l.17-40 and
    l.111-122): what its handlers put into the output channel and the loop that
    prints it.

    The clients' listeners (Client.v) call the handlers, one message at a time
    each; listener [i] is any one of any client.  A handler that finds the channel
    full waits; it watches no context.  Discovery, watches and flushes are in
    Discovery.v and FlushTool.v.  When logOnly returns, main returns and the
    process ends (main.go l.147). *)
From Coq Require Import ZArith NArith Ascii String.
From stdpp Require Import base gmap strings list.
From Verif Require Import GoBase Encoding Records Messages Env SyncMap Tokens Cache Tool Http Run.

Local Open Scope list_scope.

(** l.124-138: Message and RecordData, as far as the handlers set them; V and Now
    are printed in decimal, and of a record its value is kept, from which "%T"
    and the JSON follow. *)
Inductive line :=
  | LineHeartbeat (to subject : string) (version now : N) (id : string)
  | LineRecords (to subject : string) (l : list (option vrec)).

(** l.22-40, l.67-72: the handler of a message, if one is registered.  The client
    passes on nothing but records and heartbeats (client.go l.121-130). *)
Definition render (heartbeats records : bool) (m : message) : option line :=
  match m with
  | MsgHeartbeat h => if heartbeats then Some (LineHeartbeat (mp_to (hb_props h)) (mp_subject (hb_props h)) (hb_version h) (hb_now h) (hb_identity h)) else None
  | MsgRecord r => if records then Some (LineRecords (mp_to (rm_props r)) (mp_subject (rm_props r)) (rm_records r)) else None
  | _ => None
  end.

(** Whether json.Marshal takes it (Http.v). *)
Definition line_json_ok (zone : gotime -> Z) (o : line) : bool :=
  match o with
  | LineHeartbeat _ _ _ _ _ => true
  | LineRecords _ _ l => forallb (fun r => match r with Some r => json_ok zone (vr_val r) | None => true end) l
  end.

Inductive opc := OLoop | OHas (o : line) | OEnd.

Record ostate := OState {
  o_pc : opc;
  o_chan : list line;             (* l.18 *)
  o_busy : gmap nat line;         (* the handlers that wait to send *)
  o_cancelled : bool;
  o_broken : bool;               (* the encoder keeps the error of a failed write *)
}.

Inductive olabel :=
  | OHandle (i : nat) (m : message)  (* listener [i] has a message *)
  | OSend (i : nat)              (* its handler's send succeeds *)
  | OTake
  | OWrite (ok : bool)           (* Encode; [ok] is the result of writing to stdout *)
  | OCancel
  | OStop.                       (* l.114 *)

Inductive oev :=
  | OCalled (i : nat) (o : line)
  | OQueued (i : nat) (o : line)
  | OPrinted (o : line)
  | OSkipped (o : line)           (* l.118: only an error is logged *)
  | OFailed                      (* writing failed *)
  | OReturned.

(** l.18. *)
Definition out_cap : nat := 64.

Definition ostep (zone : gotime -> Z) (heartbeats records : bool) (s : ostate) (l : olabel) : option (ostate * list oev) :=
  match o_pc s with
  | OEnd => None
  | pc =>
    match l with
    | OHandle i m =>
        match o_busy s !! i with
        | Some _ => None
        | None =>
            match render heartbeats records m with
            | Some o => Some (OState pc (o_chan s) (<[i := o]> (o_busy s)) (o_cancelled s) (o_broken s), [OCalled i o])
            | None => Some (s, [])
            end
        end
    | OSend i =>
        match o_busy s !! i with
        | Some o =>
            if length (o_chan s) <? out_cap
            then Some (OState pc (o_chan s ++ [o]) (delete i (o_busy s)) (o_cancelled s) (o_broken s), [OQueued i o])
            else None
        | None => None
        end
    | OTake =>
        match pc, o_chan s with
        | OLoop, o :: q => Some (OState (OHas o) q (o_busy s) (o_cancelled s) (o_broken s), [])
        | _, _ => None
        end
    | OWrite ok =>
        (* json.Encoder: an earlier write error, then marshalling, then writing *)
        match pc with
        | OHas o =>
            let s' b := OState OLoop (o_chan s) (o_busy s) (o_cancelled s) b in
            if o_broken s then Some (s' true, [OSkipped o])
            else if line_json_ok zone o then
              if ok then Some (s' false, [OPrinted o]) else Some (s' true, [OFailed; OSkipped o])
            else Some (s' false, [OSkipped o])
        | _ => None
        end
    | OCancel => Some (OState pc (o_chan s) (o_busy s) true (o_broken s), [])
    | OStop =>
        match pc with
        | OLoop => if o_cancelled s then Some (OState OEnd (o_chan s) (o_busy s) true (o_broken s), [OReturned]) else None
        | _ => None
        end
    end
  end.

Definition o_init : ostate := OState OLoop [] ∅ false false.
