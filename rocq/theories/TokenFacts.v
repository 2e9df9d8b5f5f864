(** Proofs about tokens. *)
From Coq Require Import ZArith NArith Ascii String Lia.
From stdpp Require Import base strings list.
From Verif Require Import GoBase Tokens.

Local Open Scope list_scope.

Lemma below_64 (P : N -> bool) :
  forallb P (map N.of_nat (seq 0 64)) = true -> forall n, (n < 64)%N -> P n = true.
Proof.
  intros H n Hn. rewrite forallb_forall in H. apply H. apply in_map_iff. exists (N.to_nat n).
  split; [lia|]. apply in_seq. lia.
Qed.

Lemma b64_val_char n : (n < 64)%N -> b64_val (b64_char n) = Some n.
Proof.
  intros Hn.
  assert (match b64_val (b64_char n) with Some m => N.eqb m n | None => false end = true) as H.
  { revert n Hn. apply below_64. vm_compute. reflexivity. }
  destruct (b64_val (b64_char n)) as [m|]; [|done]. apply N.eqb_eq in H as ->. done.
Qed.

Lemma b64_char_plain n : (n < 64)%N ->
  Ascii.eqb (b64_char n) "=" = false /\ Ascii.eqb (b64_char n) "010" = false /\
  Ascii.eqb (b64_char n) "013" = false.
Proof.
  intros Hn.
  assert (negb (Ascii.eqb (b64_char n) "=") && negb (Ascii.eqb (b64_char n) "010") &&
    negb (Ascii.eqb (b64_char n) "013") = true) as H.
  { revert n Hn. apply below_64. vm_compute. reflexivity. }
  apply andb_true_iff in H as [H H3]. apply andb_true_iff in H as [H1 H2].
  by rewrite negb_true_iff in H1, H2, H3.
Qed.

Definition bytes (l : list N) : Prop := Forall (fun b => (b < 256)%N) l.

Lemma three_ind (P : list N -> Prop) :
  P [] -> (forall a, P [a]) -> (forall a b, P [a; b]) ->
  (forall a b c l, P l -> P (a :: b :: c :: l)) -> forall l, P l.
Proof.
  intros H0 H1 H2 H3. fix IH 1. intros [|a [|b [|c l]]]; [apply H0|apply H1|apply H2|apply H3, IH].
Qed.

Lemma div_lt a k m : (0 < k)%N -> (a < k * m)%N -> (a / k < m)%N.
Proof. intros. apply N.div_lt_upper_bound; lia. Qed.

Lemma strip_cons n s : (n < 64)%N -> strip_newlines (String (b64_char n) s) = String (b64_char n) (strip_newlines s).
Proof. intros Hn. simpl. by destruct (b64_char_plain n Hn) as (_ & -> & ->). Qed.

Lemma quad (a b c d : N) s l :
  (a < 64)%N -> (b < 64)%N -> (c < 64)%N -> (d < 64)%N -> b64_quanta s = Some l ->
  b64_quanta (String (b64_char a) (String (b64_char b) (String (b64_char c) (String (b64_char d) s)))) =
  Some (a * 4 + b / 16 :: b mod 16 * 16 + c / 4 :: c mod 4 * 64 + d :: l)%N.
Proof.
  intros Ha Hb Hc Hd Hs. cbn [b64_quanta]. rewrite !b64_val_char by done.
  destruct (b64_char_plain c Hc) as (-> & _). destruct (b64_char_plain d Hd) as (-> & _).
  by rewrite Hs.
Qed.

Lemma b64_round_trip l : bytes l -> b64_decode (b64_encode l) = Some l.
Proof.
  unfold b64_decode. induction l as [|a|a b|a b c l IH] using three_ind; intros Hb.
  - done.
  - apply Forall_inv in Hb. cbn [b64_encode].
    pose proof (div_lt a 4 64 ltac:(lia) ltac:(lia)).
    pose proof (N.mod_lt a 4 ltac:(lia)).
    rewrite !strip_cons by lia. cbn [strip_newlines b64_quanta]. simpl.
    rewrite !b64_val_char by lia. f_equal. f_equal.
    rewrite N.div_mul by lia. pose proof (N.div_mod a 4). lia.
  - inversion Hb as [|? ? Ha Hb']; subst. inversion Hb' as [|? ? Hb2 _]; subst. cbn [b64_encode].
    pose proof (div_lt a 4 64 ltac:(lia) ltac:(lia)). pose proof (div_lt b 16 16 ltac:(lia) ltac:(lia)).
    pose proof (N.mod_lt a 4 ltac:(lia)). pose proof (N.mod_lt b 16 ltac:(lia)).
    rewrite !strip_cons by lia. simpl.
    rewrite !b64_val_char by lia.
    destruct (b64_char_plain (b mod 16 * 4) ltac:(lia)) as (-> & _).
    pose proof (N.div_mod a 4 ltac:(lia)). pose proof (N.div_mod b 16 ltac:(lia)).
    assert ((a mod 4 * 16 + b / 16) / 16 = a mod 4)%N as ->.
    { rewrite N.add_comm, N.div_add by lia. rewrite (N.div_small (b/16) 16) by lia. lia. }
    assert ((a mod 4 * 16 + b / 16) mod 16 = b / 16)%N as ->.
    { rewrite N.add_comm, N.mod_add by lia. by apply N.mod_small. }
    rewrite N.div_mul by lia. f_equal. f_equal; [lia|]. f_equal. lia.
  - inversion Hb as [|? ? Ha Hb']; subst. inversion Hb' as [|? ? Hb2 Hb'']; subst.
    inversion Hb'' as [|? ? Hc Hl]; subst. cbn [b64_encode].
    pose proof (div_lt a 4 64 ltac:(lia) ltac:(lia)). pose proof (div_lt b 16 16 ltac:(lia) ltac:(lia)).
    pose proof (div_lt c 64 4 ltac:(lia) ltac:(lia)).
    pose proof (N.mod_lt a 4 ltac:(lia)). pose proof (N.mod_lt b 16 ltac:(lia)). pose proof (N.mod_lt c 64 ltac:(lia)).
    pose proof (N.div_mod a 4 ltac:(lia)). pose proof (N.div_mod b 16 ltac:(lia)). pose proof (N.div_mod c 64 ltac:(lia)).
    rewrite !strip_cons by lia.
    rewrite (quad _ _ _ _ _ l) by (first [lia|by apply IH]).
    assert ((a mod 4 * 16 + b / 16) / 16 = a mod 4)%N as ->.
    { rewrite N.add_comm, N.div_add by lia. rewrite (N.div_small (b/16) 16) by lia. lia. }
    assert ((a mod 4 * 16 + b / 16) mod 16 = b / 16)%N as ->.
    { rewrite N.add_comm, N.mod_add by lia. by apply N.mod_small. }
    assert ((b mod 16 * 4 + c / 64) / 4 = b mod 16)%N as ->.
    { rewrite N.add_comm, N.div_add by lia. rewrite (N.div_small (c/64) 4) by lia. lia. }
    assert ((b mod 16 * 4 + c / 64) mod 4 = c / 64)%N as ->.
    { rewrite N.add_comm, N.mod_add by lia. by apply N.mod_small. }
    f_equal. f_equal; [lia|]. f_equal; [lia|]. f_equal. lia.
Qed.

Lemma le_bytes_bytes n x : bytes (le_bytes n x).
Proof.
  revert x; induction n as [|n IH]; intros x; [constructor|]. constructor; [|apply IH].
  apply N.mod_lt. lia.
Qed.

Lemma le_bytes_length n x : length (le_bytes n x) = n.
Proof. revert x; induction n as [|n IH]; intros x; simpl; auto. Qed.

Lemma of_le_bytes_le n x : (x < 2 ^ (8 * N.of_nat n))%N -> of_le_bytes (le_bytes n x) = x.
Proof.
  revert x; induction n as [|n IH]; intros x Hx.
  - simpl in *. lia.
  - cbn [le_bytes of_le_bytes]. rewrite IH.
    + pose proof (N.div_mod x 256). lia.
    + apply N.div_lt_upper_bound; [lia|].
      replace (8 * N.of_nat (S n))%N with (8 + 8 * N.of_nat n)%N in Hx by lia.
      rewrite N.pow_add_r in Hx. exact Hx.
Qed.

Lemma put_int_length n z : length (put_int n z) = n.
Proof. apply le_bytes_length. Qed.

Lemma get_put_int n z l :
  (0 < n) -> (- 2 ^ (8 * Z.of_nat n - 1) <= z < 2 ^ (8 * Z.of_nat n - 1))%Z ->
  get_int n (put_int n z ++ l) = z.
Proof.
  intros Hn Hz. unfold get_int. rewrite take_app_alt by (by rewrite put_int_length).
  unfold put_int. set (w := (8 * Z.of_nat n)%Z) in *.
  assert (0 < 2 ^ w)%Z as Hw by (apply Z.pow_pos_nonneg; lia).
  assert (2 ^ w = 2 * 2 ^ (w - 1))%Z as Hw2.
  { rewrite <- Z.pow_succ_r by lia. f_equal. lia. }
  pose proof (Z.mod_pos_bound z (2^w) Hw) as Hm.
  assert (Z.of_N (2 ^ (8 * N.of_nat n)) = 2 ^ w)%Z as Hnz.
  { rewrite N2Z.inj_pow. f_equal. lia. }
  assert (Z.of_N (2 ^ (8 * N.of_nat n - 1)) = 2 ^ (w - 1))%Z as Hnz1.
  { rewrite N2Z.inj_pow. f_equal. lia. }
  rewrite of_le_bytes_le by lia. unfold signed. fold w.
  destruct (N.ltb_spec (Z.to_N (z mod 2^w)) (2 ^ (8 * N.of_nat n - 1))) as [Hlt|Hge].
  - rewrite Z2N.id by lia. destruct (Z.lt_ge_cases z 0) as [Hneg|Hpos].
    + exfalso. assert (z mod 2^w = z + 2^w)%Z as E.
      { symmetry. apply Z.mod_unique with (-1)%Z; lia. }
      rewrite E in Hlt. lia.
    + apply Z.mod_small. lia.
  - rewrite Z2N.id by lia. destruct (Z.lt_ge_cases z 0) as [Hneg|Hpos].
    + assert (z mod 2^w = z + 2^w)%Z as ->; [|lia].
      symmetry. apply Z.mod_unique with (-1)%Z; lia.
    + exfalso. rewrite Z.mod_small in Hge by lia. lia.
Qed.

(** The general case: the low bytes, as a signed number. *)
Lemma get_put_wrap n z l :
  (0 < n) ->
  exists k, get_int n (put_int n z ++ l) = (z + k * 2 ^ (8 * Z.of_nat n))%Z /\
    (- 2 ^ (8 * Z.of_nat n - 1) <= get_int n (put_int n z ++ l) < 2 ^ (8 * Z.of_nat n - 1))%Z.
Proof.
  intros Hn. set (w := (8 * Z.of_nat n)%Z).
  assert (0 < 2 ^ w)%Z as Hw by (apply Z.pow_pos_nonneg; lia).
  assert (2 ^ w = 2 * 2 ^ (w - 1))%Z as Hw2.
  { rewrite <- Z.pow_succ_r by lia. f_equal. lia. }
  set (z' := ((z + 2 ^ (w-1)) mod 2^w - 2^(w-1))%Z).
  assert (- 2 ^ (w - 1) <= z' < 2 ^ (w - 1))%Z as Hz'.
  { unfold z'. pose proof (Z.mod_pos_bound (z + 2^(w-1)) (2^w) Hw). lia. }
  assert (exists k, z' = z + k * 2^w)%Z as [k Hk].
  { unfold z'. exists (- ((z + 2^(w-1)) / 2^w))%Z. pose proof (Z.div_mod (z + 2^(w-1)) (2^w)). lia. }
  assert (put_int n z = put_int n z') as ->.
  { unfold put_int. fold w. f_equal. f_equal. rewrite Hk. by rewrite Z.mod_add by lia. }
  rewrite (get_put_int n z' l Hn Hz'). exists k. done.
Qed.

Lemma put_int_bytes n z : bytes (put_int n z).
Proof. apply le_bytes_bytes. Qed.

Lemma etag_round_trip v u :
  (- 2^63 <= v < 2^63)%Z -> (- 2^63 <= u < 2^63)%Z -> decode_etag (make_etag v u) = Some (v, u).
Proof.
  intros Hv Hu. unfold decode_etag, make_etag.
  rewrite b64_round_trip by (apply Forall_app; split; apply put_int_bytes).
  rewrite app_length, !put_int_length. cbn [Nat.leb plus].
  rewrite get_put_int by (simpl; lia).
  rewrite drop_app_alt by (by rewrite put_int_length).
  rewrite <- (app_nil_r (put_int 8 u)). rewrite get_put_int by (simpl; lia). done.
Qed.

Lemma continue_round_trip nonce off :
  (- 2^31 <= off < 2^31)%Z -> decode_continue (make_continue nonce off) = Some off.
Proof.
  intros Ho. unfold decode_continue, make_continue.
  rewrite b64_round_trip by (apply Forall_app; split; apply put_int_bytes).
  rewrite app_length, !put_int_length. cbn [Nat.leb plus].
  rewrite drop_app_alt by (by rewrite put_int_length).
  rewrite <- (app_nil_r (put_int 4 off)). rewrite get_put_int by (simpl; lia). done.
Qed.

Lemma continue_wrap nonce off :
  exists k, decode_continue (make_continue nonce off) = Some (off + k * 2^32)%Z /\
    (- 2^31 <= off + k * 2^32 < 2^31)%Z.
Proof.
  unfold decode_continue, make_continue.
  rewrite b64_round_trip by (apply Forall_app; split; apply put_int_bytes).
  rewrite app_length, !put_int_length. cbn [Nat.leb plus].
  rewrite drop_app_alt by (by rewrite put_int_length).
  rewrite <- (app_nil_r (put_int 4 off)).
  destruct (get_put_wrap 4 off [] ltac:(lia)) as (k & Hk & Hb). exists k.
  change (8 * Z.of_nat 4)%Z with 32%Z in *. rewrite Hk in *. done.
Qed.

(** Only base64 text holding enough bytes is accepted. *)
Lemma decode_etag_Some s v u :
  decode_etag s = Some (v, u) ->
  exists l, b64_decode s = Some l /\ 16 <= length l /\ v = get_int 8 l /\ u = get_int 8 (drop 8 l).
Proof.
  unfold decode_etag. destruct (b64_decode s) as [l|]; [|done].
  destruct (Nat.leb_spec 16 (length l)); [|done]. intros [= <- <-]. eauto.
Qed.

Lemma decode_continue_Some s o :
  decode_continue s = Some o ->
  exists l, b64_decode s = Some l /\ 12 <= length l /\ o = get_int 4 (drop 8 l).
Proof.
  unfold decode_continue. destruct (b64_decode s) as [l|]; [|done].
  destruct (Nat.leb_spec 12 (length l)); [|done]. intros [= <-]. eauto.
Qed.
