(** Which texts are accepted as tokens. *)
From Coq Require Import ZArith NArith Ascii String Lia.
From stdpp Require Import base strings list.
From Verif Require Import GoBase SpecTokens Tokens.

Local Open Scope list_scope.

Definition is_base64 (c : ascii) : bool :=
  let n := N_of_ascii c in
  ((65 <=? n) && (n <=? 90) || (97 <=? n) && (n <=? 122) || (48 <=? n) && (n <=? 57) || (n =? 43) || (n =? 47))%N.

Lemma base64_char_bool c : base64_char c <-> is_base64 c = true.
Proof.
  unfold base64_char, is_base64. cbn zeta. rewrite !orb_true_iff, !andb_true_iff, !N.leb_le, !N.eqb_eq. tauto.
Qed.

Lemma base64_char_val c : base64_char c <-> is_Some (b64_val c).
Proof.
  rewrite base64_char_bool. unfold is_Some.
  assert (is_base64 c = match b64_val c with Some _ => true | None => false end) as ->.
  { destruct c as [[] [] [] [] [] [] [] []]; vm_compute; reflexivity. }
  destruct (b64_val c) as [v|]; [by split; eauto|]. split; [done|]. by intros [x H].
Qed.

Lemma strip_newlines_spec s : list_ascii_of_string (strip_newlines s) = filter (fun c => ~ newline c) (list_ascii_of_string s).
Proof.
  induction s as [|c s IH]; [done|]. cbn [strip_newlines list_ascii_of_string]. rewrite filter_cons.
  destruct (Ascii.eqb_spec c "010") as [->|H1]; [rewrite decide_False; [done|]; intros H; apply H; by left|].
  destruct (Ascii.eqb_spec c "013") as [->|H2]; [rewrite decide_False; [done|]; intros H; apply H; by right|].
  rewrite decide_True by (intros [?|?]; done). cbn. by rewrite IH.
Qed.

Lemma pad_char : ~ base64_char "=".
Proof. rewrite base64_char_val. vm_compute. intros [x H]. discriminate H. Qed.

Lemma base64_cons4 c1 c2 c3 c4 t n : base64_char c1 -> base64_char c2 -> base64_char c3 -> base64_char c4 ->
  base64_text t n -> base64_text (c1 :: c2 :: c3 :: c4 :: t) (3 + n).
Proof.
  intros H1 H2 H3 H4 (body & pad & -> & Hb & Hp & Hm & ->). exists (c1 :: c2 :: c3 :: c4 :: body), pad.
  split; [done|]. split; [by repeat (apply Forall_cons_2; [assumption|]); first [assumption|apply Forall_nil_2]|]. split; [done|]. split.
  - cbn [length]. replace (S (S (S (S (length (body ++ pad)))))) with (length (body ++ pad) + 1 * 4) by lia.
    rewrite Nat.mod_add by lia. exact Hm.
  - cbn [length]. replace (S (S (S (S (length body)))) * 6) with (length body * 6 + 3 * 8) by lia.
    rewrite Nat.div_add by lia. lia.
Qed.

Lemma base64_cons4_inv c1 c2 c3 c4 t n : base64_text (c1 :: c2 :: c3 :: c4 :: t) n ->
  base64_char c1 /\ base64_char c2 /\
  ((c3 = "="%char /\ c4 = "="%char /\ t = [] /\ n = 1) \/
   (base64_char c3 /\ c4 = "="%char /\ t = [] /\ n = 2) \/
   (base64_char c3 /\ base64_char c4 /\ exists n', n = 3 + n' /\ base64_text t n')).
Proof.
  intros (body & pad & Ht & Hb & Hp & Hm & ->).
  assert (length pad <= 2) as Hpl by (destruct Hp as [->|[->| ->]]; simpl; lia).
  destruct body as [|b1 [|b2 [|b3 [|b4 body]]]].
  - destruct Hp as [->|[->| ->]]; discriminate Ht.
  - destruct Hp as [->|[->| ->]]; discriminate Ht.
  - destruct Hp as [->|[->| ->]]; try discriminate Ht. injection Ht as -> -> -> -> ->.
    inversion Hb as [|? ? ? Hb']; subst. inversion Hb'; subst. split; [done|]. split; [done|]. left. done.
  - destruct Hp as [->|[->| ->]]; try discriminate Ht.
    + injection Ht as -> -> -> -> ->. inversion Hb as [|? ? ? Hb']; subst. inversion Hb' as [|? ? ? Hb'']; subst.
      inversion Hb''; subst. split; [done|]. split; [done|]. right; left. done.
    + injection Ht as -> -> -> -> ->. by vm_compute in Hm.
  - injection Ht as -> -> -> -> ->. inversion Hb as [|? ? H1 Hb1]; subst. inversion Hb1 as [|? ? H2 Hb2]; subst.
    inversion Hb2 as [|? ? H3 Hb3]; subst. inversion Hb3 as [|? ? H4 Hb4]; subst.
    split; [done|]. split; [done|]. right; right. split; [done|]. split; [done|].
    exists (length body * 6 / 8). split.
    + cbn [length]. replace (S (S (S (S (length body)))) * 6) with (length body * 6 + 3 * 8) by lia.
      rewrite Nat.div_add by lia. lia.
    + exists body, pad. split; [done|]. split; [done|]. split; [done|]. split; [|done].
      cbn [length] in Hm. replace (S (S (S (S (length (body ++ pad)))))) with (length (body ++ pad) + 1 * 4) in Hm by lia.
      rewrite Nat.mod_add in Hm by lia. exact Hm.
Qed.

Lemma base64_nil : base64_text [] 0.
Proof. exists [], []. split; [done|]. split; [constructor|]. split; [by left|]. done. Qed.

Lemma base64_short t n : base64_text t n -> length t < 4 -> t = [] /\ n = 0.
Proof.
  intros (body & pad & -> & Hb & Hp & Hm & ->) Hl. rewrite Nat.mod_small in Hm by done.
  apply nil_length_inv in Hm. apply app_eq_nil in Hm as [-> ->]. done.
Qed.

Lemma quanta_spec : forall s n, base64_text (list_ascii_of_string s) n <-> exists l, b64_quanta s = Some l /\ length l = n.
Proof.
  fix IH 1. intros [|c1 [|c2 [|c3 [|c4 s]]]] n.
  - split.
    + intros H. apply base64_short in H as [_ ->]; [|simpl; lia]. by exists [].
    + intros (l & [= <-] & <-). exact base64_nil.
  - split; [intros H; apply base64_short in H as [H _]; [discriminate H|simpl; lia]|by intros (l & H & _)].
  - split; [intros H; apply base64_short in H as [H _]; [discriminate H|simpl; lia]|by intros (l & H & _)].
  - split; [intros H; apply base64_short in H as [H _]; [discriminate H|simpl; lia]|by intros (l & H & _)].
  - specialize (IH s). cbn [list_ascii_of_string b64_quanta]. split.
    + intros H. apply base64_cons4_inv in H as (H1 & H2 & H).
      apply base64_char_val in H1 as [v1 ->]. apply base64_char_val in H2 as [v2 ->].
      destruct H as [(-> & -> & Hs & ->)|[(H3 & -> & Hs & ->)|(H3 & H4 & n' & -> & Hn)]].
      * destruct s; [|discriminate Hs]. cbn. eauto.
      * destruct s; [|discriminate Hs]. destruct (Ascii.eqb_spec c3 "=") as [->|_]; [by destruct pad_char|].
        apply base64_char_val in H3 as [v3 ->]. cbn. eauto.
      * destruct (Ascii.eqb_spec c3 "=") as [->|_]; [by destruct pad_char|].
        destruct (Ascii.eqb_spec c4 "=") as [->|_]; [by destruct pad_char|].
        apply base64_char_val in H3 as [v3 ->]. apply base64_char_val in H4 as [v4 ->].
        apply IH in Hn as (l & -> & <-). eauto.
    + intros (l & H & <-). destruct (b64_val c1) as [v1|] eqn:E1; [|done]. destruct (b64_val c2) as [v2|] eqn:E2; [|done].
      assert (base64_char c1 /\ base64_char c2) as [H1 H2] by (rewrite !base64_char_val; eauto).
      destruct (Ascii.eqb_spec c3 "=") as [->|H3].
      * destruct (Ascii.eqb_spec c4 "=") as [->|H4]; [|done]. destruct s; [|done]. injection H as <-.
        exists [c1; c2], ["="%char; "="%char]. split; [done|]. split; [by repeat (apply Forall_cons_2; [assumption|]); first [assumption|apply Forall_nil_2]|]. split; [by right; right|]. done.
      * destruct (b64_val c3) as [v3|] eqn:E3; [|done].
        assert (base64_char c3) as H3' by (rewrite base64_char_val; eauto).
        destruct (Ascii.eqb_spec c4 "=") as [->|H4].
        -- destruct s; [|done]. injection H as <-.
           exists [c1; c2; c3], ["="%char]. split; [done|]. split; [by repeat (apply Forall_cons_2; [assumption|]); first [assumption|apply Forall_nil_2]|]. split; [by right; left|]. done.
        -- destruct (b64_val c4) as [v4|] eqn:E4; [|done].
           assert (base64_char c4) as H4' by (rewrite base64_char_val; eauto).
           destruct (b64_quanta s) as [l'|] eqn:Eq; [|done]. injection H as <-. apply base64_cons4; try done.
           apply IH. eauto.
Qed.

Lemma decode_spec s n : base64_text (filter (fun c => ~ newline c) (list_ascii_of_string s)) n <->
  exists l, b64_decode s = Some l /\ length l = n.
Proof. rewrite <- strip_newlines_spec. apply quanta_spec. Qed.

Lemma etag_accepted_iff s : is_Some (decode_etag s) <->
  exists n, base64_text (filter (fun c => ~ newline c) (list_ascii_of_string s)) n /\ 16 <= n.
Proof.
  unfold decode_etag. split.
  - intros [r H]. destruct (b64_decode s) as [l|] eqn:E; [|done]. destruct (Nat.leb_spec 16 (length l)); [|done].
    exists (length l). split; [|done]. apply decode_spec. eauto.
  - intros (n & H & Hn). apply decode_spec in H as (l & -> & <-). destruct (Nat.leb_spec 16 (length l)); [eauto|lia].
Qed.

Lemma continue_accepted_iff s : is_Some (decode_continue s) <->
  exists n, base64_text (filter (fun c => ~ newline c) (list_ascii_of_string s)) n /\ 12 <= n.
Proof.
  unfold decode_continue. split.
  - intros [r H]. destruct (b64_decode s) as [l|] eqn:E; [|done]. destruct (Nat.leb_spec 12 (length l)); [|done].
    exists (length l). split; [|done]. apply decode_spec. eauto.
  - intros (n & H & Hn). apply decode_spec in H as (l & -> & <-). destruct (Nat.leb_spec 12 (length l)); [eauto|lia].
Qed.
