(** The record registry under concurrent use: C116.  The vocabulary is at the top
    of RegistryConcFacts.v; [register_all], [holds] and [record_any] are those of
    C01-C10 (SpecEncoding.v). *)
From Coq Require Import ZArith NArith Ascii String Lia.
From stdpp Require Import base gmap strings list.
From Verif Require Import GoBase Encoding SpecEncoding CodecTop BuiltinFacts CodecExamples Run RegistryConc RegistryConcFacts.

Local Open Scope list_scope.
Local Opaque must_register.

(** ** C116 *)

(** The registrations that returned, whether they succeeded or panicked, in order. *)
Definition registrations {R} (ev : list (@regev R)) : list (N * goany) :=
  omap (fun e => match e with ERet _ (RReg code x) _ => Some (code, x) | _ => None end) ev.

(** Encode and Decode as modelled for C01-C10. *)
Definition answers (reg : registry) (c : rcall) : encres + res encerr goany :=
  match c with REnc x => inl (Encode reg x) | RDec set => inr (Decode reg set) | RReg _ _ => inl EncPanic end.

Lemma replays_all {R} (answer : registry -> rcall -> R) reg l reg' : replays answer reg l reg' -> forall calls, reg = register_all calls ->
  reg' = register_all (calls ++ omap (fun p => match p with (RReg code x, _) => Some (code, x) | _ => None end) l).
Proof.
  induction 1 as [reg|reg code x reg1 l reg' Hm Hr IH|reg code x o l reg' Hno Ho Hr IH|reg c l reg' Hc Hr IH|reg c l reg' Hc Hr IH]; intros calls ->; cbn [omap list_omap].
  - by rewrite app_nil_r.
  - rewrite (IH (calls ++ [(code, x)])); [by rewrite <- app_assoc|]. unfold register_all at 1. rewrite fold_left_app. cbn [fold_left]. fold (register_all calls). by rewrite Hm.
  - rewrite (IH (calls ++ [(code, x)])); [by rewrite <- app_assoc|]. unfold register_all at 2. rewrite fold_left_app. cbn [fold_left]. fold (register_all calls).
    destruct (must_register code x (register_all calls)) as [r0| |] eqn:E; [by destruct (Hno r0)|done..].
  - destruct c; [by destruct (Hc code record)|by apply IH..].
  - destruct c; [by destruct (Hc code record)|by apply IH..].
Qed.

Lemma registrations_returned {R} (ev : list (@regev R)) :
  registrations ev = omap (fun p => match p with (RReg code x, _) => Some (code, x) | _ => None end) (returned ev).
Proof. unfold registrations, returned. induction ev as [|[g c|g [code x|x|a] o] ev IH]; [done|..]; cbn; by rewrite ?IH. Qed.

(** Whatever goroutines and codecs do, each call returns what it would had the
    registrations that returned before it been made one after the other, in that
    order, and nothing else: C01-C10 apply. *)
Theorem C116_answers {R} (answer : registry -> rcall -> R) n calls ls s ev1 g c o ev2 :
  rrun answer (r_init n (register_all calls)) ls = Some (s, ev1 ++ ERet g c o :: ev2) ->
  let reg := register_all (calls ++ registrations ev1) in
  match c with
  | RReg code x => o = OutReg (match must_register code x reg with Ok _ => Ok tt | Err e => Err e | Panic => Panic end)
  | _ => o = RegistryConc.OutVal (answer reg c) \/ o = OutPanicked
  end.
Proof.
  intros Hr reg. apply sequential in Hr. unfold returned in Hr. rewrite omap_app in Hr. apply replays_app_inv in Hr as (reg1 & H1 & H2).
  apply (replays_all _ _ _ _) with (calls := calls) in H1; [|done]. change (omap _ ev1) with (returned ev1) in H1. rewrite <- registrations_returned in H1. fold reg in H1.
  subst reg1. cbn in H2. inversion H2 as [|? ? ? reg1 ? ? Hm|? ? ? ? ? ? Hno Ho|? ? ? ? Hc|? ? ? ? Hc]; subst.
  - by rewrite Hm.
  - destruct o0; [done|by rewrite Ho..].
  - destruct c; [by destruct (Hc code record)|by left..].
  - destruct c; [by destruct (Hc code record)|by right..].
Qed.

(** And the maps hold just that. *)
Theorem C116_maps {R} (answer : registry -> rcall -> R) n calls ls s ev : rrun answer (r_init n (register_all calls)) ls = Some (s, ev) ->
  st_reg s = register_all (calls ++ registrations ev).
Proof. intros Hr. apply sequential in Hr. rewrite registrations_returned. by eapply replays_all. Qed.

Lemma register_all_snoc calls code x reg : must_register code x (register_all calls) = Ok reg -> register_all (calls ++ [(code, x)]) = reg.
Proof. intros H. unfold register_all. rewrite fold_left_app. cbn [fold_left]. fold (register_all calls). by rewrite H. Qed.
Lemma register_all_mono calls more t c : registered (register_all calls) t c -> registered (register_all (calls ++ more)) t c.
Proof.
  revert calls. induction more as [|[code x] more IH]; intros calls H; [by rewrite app_nil_r|].
  replace (calls ++ (code, x) :: more) with ((calls ++ [(code, x)]) ++ more) by (by rewrite <- app_assoc). apply IH.
  unfold register_all. rewrite fold_left_app. cbn [fold_left]. fold (register_all calls). destruct (must_register code x (register_all calls)) eqn:E; [|exact H..].
  apply (must_register_registered _ _ _ _ _ _ (register_all_wf calls) E). by left.
Qed.

(** Once a registration has returned without a panic, its codepoint and its type
    are known to every call that returns later, and no other registration with
    that codepoint succeeds. *)
Theorem C116_known n calls ls s ev1 g code x ev2 t :
  rrun answers (r_init n (register_all calls)) ls = Some (s, ev1 ++ ERet g (RReg code x) (OutReg (Ok tt)) :: ev2) -> holds x t ->
  (forall g' set o, ERet g' (RDec (Some set)) (RegistryConc.OutVal (inr o)) ∈ ev2 -> set !! type_of_record = Some (AU32 code) -> o <> Err EUnknownType) /\
  (forall g' by_ptr v p, ERet g' (REnc (record_any by_ptr t v)) (RegistryConc.OutVal (inl (EncErr p EUnregistered))) ∉ ev2) /\
  (forall g' y o, ERet g' (RReg code y) o ∈ ev2 -> o = OutReg Panic).
Proof.
  intros Hr Hh. pose proof (C116_answers _ _ _ _ _ _ _ _ _ _ Hr) as H0. cbn in H0.
  destruct (must_register code x (register_all (calls ++ registrations ev1))) as [reg| |] eqn:Em; [|discriminate H0..]. clear H0.
  assert (forall g' c o, ERet g' c o ∈ ev2 -> exists more, registered (register_all more) t code /\
    match c with
    | RReg code x => o = OutReg (match must_register code x (register_all more) with Ok _ => Ok tt | Err e => Err e | Panic => Panic end)
    | _ => o = RegistryConc.OutVal (answers (register_all more) c) \/ o = OutPanicked
    end) as Hall.
  { intros g' c o Hin. apply elem_of_list_split in Hin as (a & b & ->).
    exists ((calls ++ registrations ev1) ++ [(code, x)] ++ registrations a). split.
    - rewrite app_assoc. apply register_all_mono. rewrite (register_all_snoc _ _ _ _ Em).
      apply (must_register_registered _ _ _ _ _ _ (register_all_wf _) Em). by right.
    - replace (ev1 ++ ERet g (RReg code x) (OutReg (Ok tt)) :: a ++ ERet g' c o :: b) with ((ev1 ++ ERet g (RReg code x) (OutReg (Ok tt)) :: a) ++ ERet g' c o :: b) in Hr by (by rewrite <- app_assoc).
      apply C116_answers in Hr. assert (registrations (ev1 ++ ERet g (RReg code x) (OutReg (Ok tt)) :: a) = registrations ev1 ++ [(code, x)] ++ registrations a) as E by (unfold registrations; by rewrite omap_app).
      cbv zeta in Hr. rewrite E in Hr. rewrite <- app_assoc. exact Hr. }
  split; [|split].
  - intros g' set o Hin Hset. destruct (Hall _ _ _ Hin) as (more & (te & Hl & Hc) & [[= ->]|[=]]).
    destruct (register_all_wf more) as [Hwf _]. destruct (Hwf _ _ Hl) as (_ & Hd & _). rewrite Hc in Hd. cbn [Decode]. rewrite Hset, Hd.
    destruct (decode_fields (te_fields te) set (zero_value (te_t te))) as [v|e|] eqn:Ef; [done| |done]. intros [= ->].
    assert (forall fs cur, decode_fields fs set cur <> Err EUnknownType) as Hn.
    { clear. induction fs as [|f fs IH]; intros cur; cbn [decode_fields]; [done|].
      destruct (set !! KU32 (f_code f)); [|destruct (f_req f); [done|apply IH]]. destruct (get_path (f_index f) cur); [|done].
      destruct (run_dec (f_dec f) (f_type f) a g) as [w| |]; [|done..]. destruct (set_path (f_index f) w cur); [apply IH|done]. }
    by apply Hn in Ef.
  - intros g' by_ptr v p Hin. destruct (Hall _ _ _ Hin) as (more & (te & Hl & Hc) & [E|[=]]).
    assert (forall te v, encode_with te v <> EncErr p EUnregistered) as Hn.
    { clear. intros te v. unfold encode_with. assert (forall fs acc q, encode_fields fs v acc <> EncErr q EUnregistered) as H.
      { induction fs as [|f fs IH]; intros acc q; cbn [encode_fields]; [done|]. destruct (get_path (f_index f) v); [|done].
        destruct (run_enc (f_enc f) g) as [[]| | |]; try done; try apply IH. destruct (f_req f); [done|apply IH]. }
      destruct (encode_fields (te_fields te) v ∅) as [|[]|] eqn:E; [done|intros [= _ ->]; by apply H in E..|done]. }
    cbn [answers] in E. injection E as E. symmetry in E. destruct by_ptr; cbn [record_any Encode] in E.
    + destruct (lookup_encoding (GPtr t) (encodings (register_all more))) as [te'|]; [by apply Hn in E|]. rewrite Hl in E. by apply Hn in E.
    + rewrite Hl in E. by apply Hn in E.
  - intros g' y o Hin. destruct (Hall _ _ _ Hin) as (more & (te & Hl & Hc) & ->).
    destruct (register_all_wf more) as [Hwf _]. destruct (Hwf _ _ Hl) as (_ & Hd & _). rewrite Hc in Hd.
    Local Transparent must_register. unfold must_register. by rewrite Hd.
Qed.
Local Opaque must_register.

(** A goroutine's calls return innermost first. *)
Theorem C116_nested {R} (answer : registry -> rcall -> R) n reg ls s ev g : rrun answer (r_init n reg) ls = Some (s, ev) -> g < n -> exists cs, inside g ev cs.
Proof.
  intros Hr Hg. assert (forall ls s ev, rrun answer (r_init n reg) ls = Some (s, ev) -> length (st_g s) = n) as Hlen.
  { clear. induction ls as [|l ls IH] using rev_ind; intros s ev Hr; [injection Hr as <- <-; cbn; apply replicate_length|].
    apply run_snoc in Hr as (s1 & ev1 & ev2 & H1 & H2 & ->). rewrite <- (IH _ _ H1). unfold RegistryConc.rstep in H2.
    repeat (match goal with H : context [match ?x with _ => _ end] |- _ => destruct x end; try discriminate H2); injection H2 as <- <-; cbn; by rewrite ?fmap_length, ?insert_length. }
  destruct (st_g s !! g) as [fs|] eqn:E; [|apply lookup_ge_None in E; rewrite (Hlen _ _ _ Hr) in E; lia]. eexists. by eapply nested.
Qed.

(** If calls are under way and nothing but a new call can happen, then a codec
    waits for the mutex that its own goroutine has for reading. *)
Theorem C116_stuck_only {R} (answer : registry -> rcall -> R) n reg ls s ev : rrun answer (r_init n reg) ls = Some (s, ev) ->
  (forall l, going_on l = true -> rstep answer s l = None) -> (exists fs, fs ∈ st_g s /\ fs <> []) -> exists g, waits_in_codec s g.
Proof. intros Hr. eapply stuck_why, inv_run; [apply inv_init|exact Hr]. Qed.

(** While no goroutine is in more than one call, or no registration is under
    way, all calls return: the steps left are bounded, and when there is none
    every goroutine is out of its calls. *)
Theorem C116_returns {R} (answer : registry -> rcall -> R) n reg ls s ev : rrun answer (r_init n reg) ls = Some (s, ev) ->
  (forall g cs, inside g ev cs -> length cs <= 1) \/ (forall g cs code x, inside g ev cs -> RReg code x ∉ cs) ->
  exists bound, forall ls' s' ev', Forall (fun l => going_on l = true) ls' -> rrun answer s ls' = Some (s', ev') ->
    length ls' <= bound /\ ((forall l, going_on l = true -> rstep answer s' l = None) -> forall g, g < n -> inside g (ev ++ ev') []).
Proof.
  intros Hr Hcase. pose proof (inv_run _ _ _ _ _ (inv_init n reg) Hr) as HI.
  assert (forall g, ~ waits_in_codec s g) as Hfree.
  { intros g (f & fs & Hg & Hw & Hne). pose proof (nested _ _ _ _ _ _ _ _ Hr Hg) as Hin. destruct Hcase as [Hc|Hc].
    - specialize (Hc _ _ Hin). rewrite fmap_length in Hc. destruct fs; [done|cbn in Hc; lia].
    - assert (forall g' c q code x, st_g s !! g' = Some (c :: q) -> frame_call c <> RReg code x) as Hno.
      { intros g' c q code x Hg' E. apply (Hc g' _ code x (nested _ _ _ _ _ _ _ _ Hr Hg')). cbn [fmap list_fmap]. rewrite E. left. }
      destruct (stack_lookup s g _ HI Hg) as [A _]. apply Forall_cons in A as [A _]. destruct f as [c|c r|c|c]; [|done|destruct A as (code & x & ->); by eapply Hno..].
      destruct A as [A _]. destruct HI as (HA & HB & HC). rewrite A in HC. destruct (sum_positive ndrain (st_g s)) as (q & Hq & Hd); [lia|].
      apply elem_of_list_lookup in Hq as [g' Hg']. destruct q as [|[c'|c' r|c'|c'] q]; cbn in Hd; try lia.
      pose proof (proj1 (Forall_lookup _ _) HA g' _ Hg') as [A' _]. apply Forall_cons in A' as [(code & x & ->) _]. by eapply Hno. }
  destruct (calls_return answer s HI Hfree) as [_ Hall]. exists (cost s). intros ls' s' ev' HF Hr'. destruct (Hall _ _ _ HF Hr') as [Hle Hend]. split; [exact Hle|].
  intros Hst g Hg. specialize (Hend Hst).
  assert (rrun answer (r_init n reg) (ls ++ ls') = Some (s', ev ++ ev')) as Hboth by (unfold RegistryConc.rrun in *; by rewrite run_app, Hr; cbn; rewrite Hr').
  assert (length (st_g s') = n) as Hlen.
  { clear -Hboth. revert s' ev' Hboth. generalize (ev). generalize (ls ++ ls') as l. intros l e s' ev' H. revert H. generalize (e ++ ev') as ev''. revert s'.
    induction l as [|x l IH] using rev_ind; intros s' ev'' Hr; [injection Hr as <- <-; cbn; apply replicate_length|].
    apply run_snoc in Hr as (s1 & ev1 & ev2 & H1 & H2 & ->). rewrite <- (IH _ _ H1). unfold RegistryConc.rstep in H2.
    repeat (match goal with H : context [match ?x with _ => _ end] |- _ => destruct x end; try discriminate H2); injection H2 as <- <-; cbn; by rewrite ?fmap_length, ?insert_length. }
  destruct (st_g s' !! g) as [fs|] eqn:E; [|apply lookup_ge_None in E; lia].
  pose proof (Hend fs (elem_of_list_lookup_2 _ _ _ E)) as ->. exact (nested _ _ _ _ _ _ _ _ Hboth E).
Qed.

(** Registrations, every Encode, and Decode of a set with a record type. *)
Definition uses_lock (c : rcall) : Prop :=
  match c with
  | RReg _ _ | REnc _ => True
  | RDec None => False
  | RDec (Some a) => exists code, a !! type_of_record = Some (AU32 code)
  end.

Lemma uses_lock_reads c : uses_lock c -> reads_registry c = true \/ (exists code x, c = RReg code x).
Proof.
  destruct c as [code x|x|[a|]]; cbn; [right; by do 2 eexists|by left|intros [code ->]; by left|done].
Qed.

(** Decode of anything else returns at once, whatever the other calls do. *)
Theorem C116_no_lock {R} (answer : registry -> rcall -> R) s g c s' ev :
  ~ uses_lock c -> rstep answer s (LCall g c) = Some (s', ev) ->
  s' = s /\ ev = [ECall g c; ERet g c (RegistryConc.OutVal (answer (st_reg s) c))].
Proof.
  intros Hc Hs. assert (reads_registry c = false /\ forall code x, c <> RReg code x) as [Hrd Hnr].
  { destruct c as [code x|x|[a|]]; cbn in Hc |- *; [by destruct Hc..| |by split].
    destruct (a !! type_of_record) as [[| | | | | |]|]; try (by split). destruct Hc. by eexists. }
  unfold RegistryConc.rstep in Hs. rewrite Hrd in Hs.
  destruct (st_g s !! g) as [[|[]]|]; try discriminate Hs;
    (destruct c as [code x|x|x]; [by destruct (Hnr code x)|injection Hs as <- <-; done..]).
Qed.

(** Once a codec waits so, its goroutine returns from no call ever again, no
    registration ever returns and the maps stay as they are; and if a writer has
    its turn, nor does any later call that needs the maps return. *)
Theorem C116_forever {R} (answer : registry -> rcall -> R) n reg ls s ev g : rrun answer (r_init n reg) ls = Some (s, ev) -> waits_in_codec s g ->
  forall ls' s' ev', rrun answer s ls' = Some (s', ev') ->
    (forall c o, ERet g c o ∉ ev') /\ (forall g' code x o, ERet g' (RReg code x) o ∉ ev') /\ st_reg s' = st_reg s /\
    (st_busy s = true -> forall a g' c b, ls' = a ++ LCall g' c :: b -> uses_lock c ->
       exists e1 e2, ev' = e1 ++ ECall g' c :: e2 /\ forall c' o, ERet g' c' o ∉ e2).
Proof.
  intros Hr Hw ls' s' ev' Hr'. pose proof (inv_run _ _ _ _ _ (inv_init n reg) Hr) as HI.
  destruct (dead_run answer s ls' s' ev' g HI Hw Hr') as (A1 & A2 & A3 & A4 & A5). split; [|split; [|split; [exact A4|]]].
  - intros c o Hin. by apply A3 in Hin as [Hin _].
  - intros g' code x o Hin. apply A3 in Hin as [_ Hin]. by eapply Hin.
  - intros Hb a g' c b -> Hc. unfold RegistryConc.rrun in Hr'. apply run_app_inv in Hr' as (s1 & e1 & e2 & H1 & H2 & ->).
    destruct (dead_run answer s a s1 e1 g HI Hw H1) as (B1 & B2 & _). specialize (B2 Hb). pose proof (inv_run _ _ _ _ _ HI H1) as HI1.
    cbn [run] in H2. destruct (rstep answer s1 (LCall g' c)) as [[s2 e3]|] eqn:Hs; [|discriminate H2].
    destruct (run (rstep answer) s2 b) as [[s3 e4]|] eqn:H3; [|discriminate H2]. injection H2 as <- <-.
    apply uses_lock_reads in Hc. destruct (late_call answer s1 g' c s2 e3 B2 Hc Hs) as (-> & Hb2 & f & fs & Hg' & Hwf).
    destruct (dead_step answer s1 _ s2 _ g HI1 B1 Hs) as (C1 & _). pose proof (inv_step _ _ _ _ _ HI1 Hs) as HI2.
    destruct (dead_run answer s2 b s3 e4 g HI2 C1 H3) as (_ & _ & _ & _ & D). destruct (D g' f fs Hb2 Hg' Hwf) as [_ D']. exists e1, e4. split; [done|].
    intros c' o Hin. by apply D' in Hin.
Qed.

(** It does happen: a codec that encodes while another goroutine registers a
    type, and a codec that registers one. *)
Theorem C116_refuted {R} (answer : registry -> rcall -> R) reg x y code :
  (exists s, rrun answer (r_init 2 reg) [LCall 0 (REnc x); LCall 1 (RReg code y); LTake 1; LCall 0 (REnc x)] =
      Some (s, [ECall 0 (REnc x); ECall 1 (RReg code y); ECall 0 (REnc x)]) /\ waits_in_codec s 0 /\ st_busy s = true /\
      forall l, going_on l = true -> rstep answer s l = None) /\
  (exists s, rrun answer (r_init 1 reg) [LCall 0 (REnc x); LCall 0 (RReg code y)] = Some (s, [ECall 0 (REnc x); ECall 0 (RReg code y)]) /\ waits_in_codec s 0).
Proof.
  split; eexists; (split; [reflexivity|]).
  - split; [do 2 eexists; split; [reflexivity|split; [exact I|discriminate]]|]. split; [reflexivity|].
    intros [g c|[|[|g]]|[|[|g]]|[|[|g]]|[|[|g]]] Hl; try discriminate Hl; reflexivity.
  - do 2 eexists; split; [reflexivity|split; [exact I|discriminate]].
Qed.

(** Two goroutines use the registry at once, a codec's call among them, and all
    return; the record registered meanwhile is known afterwards. *)
Definition ex_rec : goany := record_any true ex_type (VStruct ex_vals).
Definition ex_ls : list rlabel :=
  [LCall 0 (REnc ex_rec); LCall 0 (REnc NilIface); LCall 1 (RReg 7 (record_any true ex_type (VStruct ex_vals))); LEnd 0; LTake 1; LCall 2 (REnc ex_rec); LEnd 0; LReg 1; LEnd 2].
Example C116_example :
  exists s a, rrun answers (r_init 3 empty_registry) ex_ls = Some (s,
    [ECall 0 (REnc ex_rec); ECall 0 (REnc NilIface); ECall 1 (RReg 7 ex_rec); ERet 0 (REnc NilIface) (RegistryConc.OutVal (inl (EncErr None ENilRecord)));
     ECall 2 (REnc ex_rec); ERet 0 (REnc ex_rec) (RegistryConc.OutVal (inl (EncErr None EUnregistered))); ERet 1 (RReg 7 ex_rec) (OutReg (Ok tt));
     ERet 2 (REnc ex_rec) (RegistryConc.OutVal (inl (EncOk a)))]) /\ a !! type_of_record = Some (AU32 7) /\ holds ex_rec ex_type.
Proof. Local Transparent must_register. do 2 eexists. split; [vm_compute; reflexivity|]. split; [vm_compute; reflexivity|]. right. by eexists. Qed.

Lemma inside_count {R} g (ev : list (@regev R)) cs : inside g ev cs ->
  length cs + sum_list ((fun e => match e with ERet g' _ _ => if g' =? g then 1 else 0 | _ => 0 end) <$> ev) =
  sum_list ((fun e => match e with ECall g' _ => if g' =? g then 1 else 0 | _ => 0 end) <$> ev).
Proof.
  set (k1 := fun e : @regev R => match e with ERet g' _ _ => if g' =? g then 1 else 0 | _ => 0 end).
  set (k2 := fun e : @regev R => match e with ECall g' _ => if g' =? g then 1 else 0 | _ => 0 end).
  assert (forall (k : @regev R -> nat) ev e, sum_list (k <$> ev ++ [e]) = sum_list (k <$> ev) + k e) as Hs.
  { intros k l e. induction l as [|x l IH]; [cbn; lia|]. change (k x + sum_list (k <$> l ++ [e]) = k x + sum_list (k <$> l) + k e). lia. }
  induction 1 as [|ev c cs H IH|ev c cs o H IH|ev e cs H IH Hne]; [done|..]; rewrite !Hs; cbn [length] in *.
  - assert (k1 (ECall g c) = 0 /\ k2 (ECall g c) = 1) as [-> ->] by (subst k1 k2; cbn; by rewrite Nat.eqb_refl). lia.
  - assert (k1 (ERet g c o) = 1 /\ k2 (ERet g c o) = 0) as [-> ->] by (subst k1 k2; cbn; by rewrite Nat.eqb_refl). lia.
  - assert (k1 e = 0 /\ k2 e = 0) as [-> ->] by (subst k1 k2; destruct e as [g' c|g' c o]; cbn in Hne |- *; by rewrite (proj2 (Nat.eqb_neq _ _) Hne)). lia.
Qed.

(** The hypotheses of [C116_returns] hold in the middle of it, of [C116_forever]
    in the states of [C116_refuted]. *)
Example C116_example_returns :
  exists s ev, rrun answers (r_init 3 empty_registry) (take 4 ex_ls) = Some (s, ev) /\ (exists fs, fs ∈ st_g s /\ fs <> []) /\ forall g cs, inside g ev cs -> length cs <= 1.
Proof.
  do 2 eexists. split; [vm_compute; reflexivity|]. split; [eexists; split; [left|discriminate]|].
  intros g cs Hin. apply inside_count in Hin. destruct g as [|[|g]]; cbn in Hin; lia.
Qed.

Print Assumptions C116_answers.
Print Assumptions C116_maps.
Print Assumptions C116_known.
Print Assumptions C116_nested.
Print Assumptions C116_stuck_only.
Print Assumptions C116_returns.
Print Assumptions C116_forever.
Print Assumptions C116_no_lock.
Print Assumptions C116_refuted.
