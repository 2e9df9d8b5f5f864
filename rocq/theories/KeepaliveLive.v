(** The keepalives go on until they are cancelled: facts for C44. *)
From Coq Require Import ZArith NArith Ascii String Lia.
From stdpp Require Import base gmap strings list.
From Verif Require Import GoBase Encoding Records Messages Run Keepalive KeepaliveFacts.

Local Open Scope list_scope.
Local Opaque encode_beacon encode_heartbeat.

(** Waiting for a tick, and ready to take it. *)
Definition attentive (c : kcfg) (s : kstate) : Prop :=
  k_pc s = KSelect /\ forall k, pending k s = 1%Z -> is_Some (kstep c s (LTake k)).
(** Time can pass, or a ticker can fire. *)
Definition clock_runs (c : kcfg) (s : kstate) : Prop :=
  (exists d, is_Some (kstep c s (LTime d))) \/ exists k, is_Some (kstep c s (LFire k)).

Definition on_inv (s : kstate) (cancelled : Prop) (evs : list kev) : Prop :=
  (k_cancelled s = true -> cancelled) /\ (KEnd ∈ evs \/ k_pc s = KStopped -> k_cancelled s = true) /\
  (k_pc s = KSelect -> k_tickers s <> None) /\ (forall i k d cx, k_pc s = KSend i k d cx -> i = false -> k_tickers s <> None) /\
  forall t k, k_tickers s = Some t -> (k_now s <= t_next (ticker_of k t))%Z.

Lemma on_step c s (P : Prop) evs l s' ev : on_inv s P evs -> (l = LCancelRun -> P) -> kstep c s l = Some (s', ev) -> on_inv s' P (evs ++ ev).
Proof.
  intros (H1 & H2 & H3 & H4 & H5) Hl Hs. unfold on_inv. destruct l as [d|k|  | |k| |o]; cbn [kstep] in Hs.
  - destruct (0 <? d)%Z eqn:Ed; cbn [andb] in Hs; [|discriminate]. apply Z.ltb_lt in Ed.
    destruct (k_tickers s) as [t|] eqn:Et; [destruct (_ && _) eqn:Ea; [|discriminate]|]; injection Hs as <- <-; cbn; rewrite app_nil_r.
    + apply andb_true_iff in Ea as [Ea Eb]. apply Z.leb_le in Ea, Eb. rewrite ?Et. repeat (split; [done|]).
      intros t' [] [= <-]; cbn; lia.
    + rewrite ?Et. repeat (split; [done|]). done.
  - destruct (k_tickers s) as [t|] eqn:Et; [|discriminate]. destruct (_ =? _)%Z eqn:En; [|discriminate]. apply Z.eqb_eq in En.
    injection Hs as <- <-. cbn. rewrite app_nil_r, ?Et. cbn. repeat (split; [done|]). intros t' k' [= <-].
    rewrite ticker_of_set. case_bool_decide; [|by apply H5]. subst. cbn. pose proof (interval_pos c k'). lia.
  - injection Hs as <- <-. cbn. rewrite app_nil_r. repeat (split; [tauto|]). done.
  - destruct (k_pc s) eqn:Ep; [|discriminate..]. injection Hs as <- <-. cbn. split; [done|]. split.
    + intros [H|H]; [|discriminate]. apply elem_of_app in H as [H|H]; [tauto|]. apply elem_of_list_singleton in H. discriminate.
    + split; [done|]. split; [|done]. intros ? ? ? ? [= <- <- <- <-] H. discriminate.
  - destruct (k_pc s) eqn:Ep; [discriminate..| |discriminate]. destruct (k_tickers s) as [t|] eqn:Et; [|discriminate].
    destruct (t_full _) eqn:Ef; [|discriminate]. injection Hs as <- <-. cbn. split; [done|]. split.
    + intros [H|H]; [|discriminate]. apply elem_of_app in H as [H|H]; [tauto|]. destruct k; apply elem_of_list_singleton in H; discriminate.
    + split; [done|]. rewrite ?Et. cbn. split; [done|]. intros t' k' [= <-]. rewrite ticker_of_set. case_bool_decide; [|by apply H5]. subst. cbn. by apply H5.
  - destruct (k_pc s) eqn:Ep; [discriminate..| |discriminate]. destruct (k_cancelled s) eqn:Ec; [|discriminate]. injection Hs as <- <-. cbn.
    split; [tauto|]. split; [done|]. done.
  - destruct (k_pc s) as [|i k d cx| |] eqn:Ep; [discriminate| |discriminate..]. unfold returned in Hs.
    destruct i; [destruct o; injection Hs as <- <-|destruct k; [|destruct (_ && _)]; injection Hs as <- <-]; cbn;
      (split; [done|]; split; [intros [H|H]; [|discriminate];
        apply elem_of_app in H as [H|H]; [tauto|]; repeat (apply elem_of_cons in H as [H|H]; [discriminate|]); by apply elem_of_nil in H|]);
      (split; [try done; intros _; by eapply H4|]; split; [done|]); try done.
    intros t' k' [= <-]. destruct k'; cbn; [pose proof (interval_pos c Bcn)|pose proof (interval_pos c Hbt)]; cbn in *; lia.
Qed.

Lemma on_run c now ls s evs : krun c (k_init now) ls = Some (s, evs) -> on_inv s (LCancelRun ∈ ls) evs.
Proof.
  intros Hr. refine (run_inv_rel (kstep c) (fun s evs => on_inv s (LCancelRun ∈ ls) evs) (k_init now) [] ls s evs _ _ Hr).
  - split; [done|]. split; [intros [H|H]; [by apply elem_of_nil in H|discriminate]|]. repeat (split; [done|]). done.
  - intros s1 evs1 l s2 ev HI Hl _ Hs. eapply on_step; [exact HI| |exact Hs]. by intros <-.
Qed.

Lemma goes_on c now ls s evs : krun c (k_init now) ls = Some (s, evs) -> LCancelRun ∉ ls ->
  ~ KEnd ∈ evs /\ clock_runs c s /\
  (is_Some (kstep c s LCall) \/ (forall o, is_Some (kstep c s (LReturn o))) \/ attentive c s).
Proof.
  intros Hr Hn. destruct (on_run _ _ _ _ _ Hr) as (H1 & H2 & H3 & H4 & H5). split; [tauto|]. split.
  - unfold clock_runs. cbn [kstep]. destruct (k_tickers s) as [t|] eqn:Et; [|left; by exists 1%Z].
    pose proof (H5 t Bcn eq_refl) as Hb. pose proof (H5 t Hbt eq_refl) as Hh. cbn in Hb, Hh.
    destruct (t_next t.1 =? k_now s)%Z eqn:E1; [right; exists Bcn; cbn; by rewrite E1|].
    destruct (t_next t.2 =? k_now s)%Z eqn:E2; [right; exists Hbt; cbn; by rewrite E2|].
    apply Z.eqb_neq in E1, E2. left. exists 1%Z. cbn [andb Z.ltb]. rewrite (proj2 (Z.leb_le _ _)), (proj2 (Z.leb_le _ _)) by lia. cbn. done.
  - cbn [kstep]. destruct (k_pc s) as [|i k d cx| |] eqn:Ep; [by left|right; left; intros o; done| |].
    + right; right. split; [done|]. intros k Hk. cbn [kstep]. rewrite Ep. unfold pending in Hk. destruct (k_tickers s); [|discriminate].
      by destruct (t_full _).
    + exfalso. tauto.
Qed.
