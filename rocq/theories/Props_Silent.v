(** C126: a source that falls silent is forgotten. *)
From Coq Require Import ZArith NArith Ascii String Lia.
From stdpp Require Import base gmap strings list sorting.
From Verif Require Import GoBase Encoding Records Messages Run Keepalive Discovery DiscoveryFacts DiscoveryLive WatchFacts SilentFacts Client Live LiveFacts.

Local Open Scope list_scope.
Local Open Scope Z_scope.

(** A watch of a source that is given the processor and the lock within [P]
    whenever it has something to do.  If nothing is recorded for it after [T], it
    has forgotten the source one update interval and one timeout later, and three
    times [P], or when the grace period and the timeout from its start are over. *)
Theorem C126_forgotten P T now ls s evs w y t0 : 0 <= P -> t0 <= T -> drun (d_init now) ls = Some (s, evs) -> d_watches s !! w = Some y -> 0 < w_timeout (wt_cfg y) ->
  DStart w t0 ∈ evs -> quiet_after T w (d_init now) ls -> prompt P w None (d_init now) ls -> LWCancel w ∉ ls ->
  Z.max (T + update_interval (wt_cfg y) + 2 * P) (t0 + w_grace (wt_cfg y)) + w_timeout (wt_cfg y) + P < d_now s ->
  exists r, DOp (ByWatch w) (OForget (w_id (wt_cfg y))) r ∈ evs.
Proof. exact (silent_forgotten P T now ls s evs w y t0). Qed.

(** The tool's watches: 31 seconds. *)
Theorem C126_tool P T i now ls s evs w y t0 : wt_cfg y = tool_watch i ->
  0 <= P -> t0 <= T -> drun (d_init now) ls = Some (s, evs) -> d_watches s !! w = Some y ->
  DStart w t0 ∈ evs -> quiet_after T w (d_init now) ls -> prompt P w None (d_init now) ls -> LWCancel w ∉ ls ->
  T + 31000000000 + 3 * P < d_now s -> exists r, DOp (ByWatch w) (OForget (i_id i)) r ∈ evs.
Proof.
  intros Ec HP Ht Hr Hy Hst Hq Hp Hnc Hn.
  assert (w_timeout (wt_cfg y) = 30000000000 /\ w_grace (wt_cfg y) = 0 /\ update_interval (wt_cfg y) = 1000000000 /\ w_id (wt_cfg y) = i_id i) as (E1 & E2 & E3 & E4) by (by rewrite Ec).
  rewrite <- E4. apply (C126_forgotten P T now ls s evs w y t0); try done; rewrite ?E1, ?E2, ?E3; lia.
Qed.

(** A source that stopped, and nothing of what it sent is recorded more than [D]
    after it was sent: the delay counts from its last heartbeat or record. *)
Theorem C126_stopped P D E i now ls s evs w y t0 : wt_cfg y = tool_watch i ->
  0 <= P -> t0 <= E + D -> drun (d_init now) ls = Some (s, evs) -> d_watches s !! w = Some y ->
  DStart w t0 ∈ evs -> prompt P w None (d_init now) ls -> LWCancel w ∉ ls ->
  (forall s1 k s2, transition dstep (d_init now) ls s1 (LActStore w k) s2 -> exists sent, sent <= E /\ d_now s1 <= sent + D) ->
  E + D + 31000000000 + 3 * P < d_now s -> exists r, DOp (ByWatch w) (OForget (i_id i)) r ∈ evs.
Proof.
  intros Ec HP Ht Hr Hy Hst Hp Hnc Hd Hn. apply (C126_tool P (E + D) i now ls s evs w y t0); try done.
  intros s1 k s2 Htr. destruct (Hd _ _ _ Htr) as (u & Hu & Hle). lia.
Qed.

(** ** Cases *)

(** Activity at 4 is recorded at 5, after the tick of 3, and seen at 7, after the
    one of 6; the timer is set to 17 and taken at 18. *)
Definition ex_src : dsource := DSource (Info "a" 1 "ROUTER" "mc/sfe.a" "sfe.a") 0.
Definition ex_tick : list dlabel := [LWTick 0; LWTakeTick 0].
Definition ex_silent : list dlabel :=
  [LUser (OAdd ex_src); LWatch (WCfg "a" 10 2 3); LWStart 0; LWLook 0; LDTime 3] ++ ex_tick ++ [LDTime 1; LActNow 0; LDTime 1; LActStore 0 0; LDTime 2] ++ ex_tick ++
  [LWSeen 0; LWReset 0; LDTime 2] ++ ex_tick ++ [LDTime 3] ++ ex_tick ++ [LDTime 3] ++ ex_tick ++ [LDTime 3; LWFire 0; LWTakeTimer 0; LWForget 0; LDTime 4].

Example C126_example : exists s evs y, drun (d_init 0) ex_silent = Some (s, evs) /\ d_watches s !! 0%nat = Some y /\ 0 < w_timeout (wt_cfg y) /\
  DStart 0 0 ∈ evs /\ quiet_after 5 0 (d_init 0) ex_silent /\ prompt 1 0 None (d_init 0) ex_silent /\ LWCancel 0 ∉ ex_silent /\
  Z.max (5 + update_interval (wt_cfg y) + 2 * 1) (0 + w_grace (wt_cfg y)) + w_timeout (wt_cfg y) + 1 < d_now s /\
  decides 0 evs = [18] /\ DOp (ByWatch 0) (OForget "a") (RBool true) ∈ evs.
Proof.
  assert (match drun (d_init 0) ex_silent with Some (s, evs) => exists y, d_watches s !! 0%nat = Some y /\ 0 < w_timeout (wt_cfg y) /\
      evs = take 3 evs ++ DStart 0 0 :: drop 4 evs /\
      Z.max (5 + update_interval (wt_cfg y) + 2 * 1) (0 + w_grace (wt_cfg y)) + w_timeout (wt_cfg y) + 1 < d_now s /\
      decides 0 evs = [18] /\ evs = take 10 evs ++ DOp (ByWatch 0) (OForget "a") (RBool true) :: drop 11 evs | None => False end) as H
    by (vm_compute; eexists; repeat split).
  destruct (drun (d_init 0) ex_silent) as [[s evs]|]; [|done]. destruct H as (y & H1 & H2 & H3 & H4 & H5 & H6). exists s, evs, y.
  split; [reflexivity|]. split; [exact H1|]. split; [exact H2|]. split; [rewrite H3; apply elem_of_app; right; left|]. split.
  { intros s1 k s2 Ht.
    apply (transitions_check _ (fun s l _ => match l with LActStore _ _ => d_now s <=? 5 | _ => true end)) in Ht; [by apply Z.leb_le|vm_compute; reflexivity]. }
  split; [vm_compute; repeat split; discriminate|]. split.
  { intros Hin. repeat (apply elem_of_cons in Hin as [Hin|Hin]; [discriminate Hin|]). by apply elem_of_nil in Hin. }
  split; [exact H4|]. split; [exact H5|]. rewrite H6. apply elem_of_app. right. left.
Qed.

Print Assumptions C126_forgotten.
Print Assumptions C126_tool.
Print Assumptions C126_stopped.
