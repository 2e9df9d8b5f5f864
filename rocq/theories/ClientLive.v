(** Listeners go on until they are cancelled or the client is closed: facts for C48. *)
From Coq Require Import ZArith NArith Ascii String Lia.
From stdpp Require Import base gmap strings list.
From Verif Require Import GoBase Encoding Records Messages Run Keepalive Client ClientFacts.

Local Open Scope list_scope.
Local Opaque decode_msg flush_message.

(** The listener can go on: it takes whatever Next or Accept return, or reads
    or calls its handlers. *)
Definition listens_on (c : info) (s : cstate) (i : nat) : Prop :=
  (forall r, is_Some (cstep c s (LLNext i r))) \/ (forall r, is_Some (cstep c s (LLAccept i r))) \/
  is_Some (cstep c s (LLGet i)) \/ is_Some (cstep c s (LLRun i)).

Definition up (l : listener) : Prop := l_cancelled l = false /\ l_pc l <> LClosing /\ l_pc l <> LEnded.
Definition up_inv (i : nat) (s : cstate) (evs : list cev) : Prop :=
  c_close s = ClNone /\ (forall l, c_listeners s !! i = Some l -> up l) /\
  (forall ad cr, CListening i ad cr ∈ evs -> i < length (c_listeners s)) /\ ~ CEnded i ∈ evs.

Lemma up_alter i j (f : listener -> listener) (ls : list listener) : (forall l, ls !! i = Some l -> up l) ->
  (forall l, ls !! i = Some l -> i = j -> up l -> up (f l)) -> forall l, alter f j ls !! i = Some l -> up l.
Proof.
  intros H Hf l Hl. destruct (decide (i = j)) as [<-|Hn].
  - rewrite list_lookup_alter in Hl. destruct (ls !! i) as [x|] eqn:E; [|done]. injection Hl as <-. by apply Hf, H.
  - rewrite list_lookup_alter_ne in Hl by done. by apply H.
Qed.

Lemma up_listener i j s l lb s' ev : c_close s = ClNone -> (forall l, c_listeners s !! i = Some l -> up l) -> c_listeners s !! j = Some l ->
  listener_step s j l lb = Some (s', ev) ->
  c_close s' = ClNone /\ (forall l, c_listeners s' !! i = Some l -> up l) /\ length (c_listeners s') = length (c_listeners s) /\
  Forall (fun e => match e with CEnded k => k <> i | CListening _ _ _ => False | _ => True end) ev.
Proof.
  intros Hc Hu Hl H. destruct (listener_same _ _ _ _ _ _ H) as (_ & _ & _ & _ & Hlen & _). unfold listener_step in H.
  assert (forall p, p <> LClosing -> p <> LEnded -> forall l, c_listeners (set_pc j p s) !! i = Some l -> up l) as Hset.
  { intros p H1 H2 l' Hl'. revert l' Hl'. apply up_alter; [done|]. intros l' _ _ (H3 & _). done. }
  assert (forall p x, ends l x = true -> forall l, c_listeners (set_pc j p s) !! i = Some l -> up l) as Hend.
  { intros p x He l' Hl'. revert l' Hl'. apply up_alter; [done|]. intros l' Hl' <- _. exfalso. destruct (Hu l Hl) as [H1 _].
    unfold ends in He. by rewrite H1 in He. }
  destruct lb as [| | | |? [m|x]|? [|x]| | | | | | | | | | | | |]; try done; destruct (l_pc l) as [|m'|x'|x' [|h hs]| |] eqn:Ep; try done.
  - injection H as <- <-. split; [done|]. split; [by apply Hset|]. split; [done|]. by repeat constructor.
  - injection H as <- <-. destruct (ends l x) eqn:Ee; (split; [done|]); [split; [by eapply Hend|]|split; [done|]]; (split; [done|constructor]).
  - destruct (decode_msg (Some m')) as [[y|] [e|]|]; injection H as <- <-; (split; [done|]); (split; [first [by apply Hset|done]|]); (split; [done|]); by repeat constructor.
  - injection H as <- <-. destruct (ends l x) eqn:Ee; (split; [done|]); (split; [first [by eapply Hend|by apply Hset]|]); (split; [done|constructor]).
  - destruct (unlocked s); [|done]. injection H as <- <-. split; [done|]. split; [by apply Hset|]. split; [done|]. by repeat constructor.
  - injection H as <- <-. split; [done|]. split; [by apply Hset|]. split; [done|]. by repeat constructor.
  - injection H as <- <-. destruct (invoke_same h (set_pc j (LRun x' hs) s)) as (E1 & _ & _ & _ & E2 & _).
    split; [|split; [rewrite E1; by apply Hset|split; [done|by repeat constructor]]].
    destruct h as [n|f]; [done|]. cbn. case_match; [|done]. by case_match.
  - assert (i <> j) as Hij. { intros ->. destruct (Hu l Hl) as (_ & H1 & _). done. }
    rewrite Hc in H. injection H as <- <-. split; [done|]. split.
    + intros l' Hl'. cbn in Hl'. rewrite list_lookup_alter_ne in Hl' by done. by apply Hu.
    + split; [done|]. by repeat constructor.
Qed.

Lemma up_step c i s evs lb s' ev : up_inv i s evs -> lb <> LCancelCtx i -> lb <> LCloseBegin -> cstep c s lb = Some (s', ev) -> up_inv i s' (evs ++ ev).
Proof.
  intros (Hc & Hu & Hi & He) Hl Hb Hs.
  assert (forall ls : list cev, Forall (fun e => match e with CEnded k => k <> i | CListening _ _ _ => False | _ => True end) ls -> length (c_listeners s') = length (c_listeners s) ->
    c_close s' = ClNone -> (forall l, c_listeners s' !! i = Some l -> up l) -> up_inv i s' (evs ++ ls)) as Hdone.
  { intros ls HF Hlen H1 H2. rewrite Forall_forall in HF. split; [done|]. split; [done|]. split.
    - intros ad cr H. rewrite Hlen. apply elem_of_app in H as [H|H]; [by eapply Hi|]. by apply HF in H.
    - intros H. apply elem_of_app in H as [H|H]; [done|]. by apply HF in H. }
  unfold cstep in Hs. destruct (c_crashed s); [done|].
  assert (forall j, match c_listeners s !! j with Some l => listener_step s j l lb | None => None end = Some (s', ev) -> up_inv i s' (evs ++ ev)) as Hlis.
  { intros j H. destruct (c_listeners s !! j) as [l|] eqn:El; [|done]. destruct (up_listener i j s l lb s' ev Hc Hu El H) as (H1 & H2 & H3 & H4). by apply Hdone. }
  assert (forall f, match c_flushes s !! f with Some x => flush_step c s f x lb | None => None end = Some (s', ev) -> up_inv i s' (evs ++ ev)) as Hfl.
  { intros f H. destruct (c_flushes s !! f) as [x|]; [|done]. unfold flush_step in H.
    destruct lb; try done; destruct (f_pc x); try done.
    all: try (destruct (unlocked s); [|done]). all: try (destruct (f_closed x); [|done]). all: try (destruct (f_cancelled x); [|done]).
    all: injection H as <- <-; apply Hdone; [by repeat constructor|done..]. }
  destruct lb as [k n| |p|j|j r|j r|j|j|j| | | | | |f|f|f|f|f]; try done; try (by eapply Hlis); try (by eapply Hfl).
  - destruct (unlocked s); [|done]. injection Hs as <- <-. destruct k; apply Hdone; try done; by repeat constructor.
  - injection Hs as <- <-. apply Hdone; try done.
  - destruct (c_adding s); [done|]. destruct (unlocked s); [|done]. injection Hs as <- <-. split; [done|]. split.
    + intros l Hl'. cbn in Hl'. apply lookup_app_Some in Hl' as [H|[_ H]]; [by apply Hu|]. apply list_lookup_singleton_Some in H as [_ <-]. done.
    + cbn. split.
      * intros ad cr H. rewrite app_length. cbn. apply elem_of_app in H as [H|H]; [apply Hi in H; lia|]. apply elem_of_list_singleton in H as [= -> _ _]. lia.
      * intros H. apply elem_of_app in H as [H|H]; [done|]. apply elem_of_list_singleton in H. done.
  - injection Hs as <- <-. apply Hdone; try done; [by apply alter_length|]. apply up_alter; [done|]. intros l _ <-. by destruct Hl.
  - by rewrite Hc in Hs.
  - by rewrite Hc in Hs.
  - injection Hs as <- <-. apply Hdone; try done. by repeat constructor.
  - injection Hs as <- <-. apply Hdone; try done. by repeat constructor.
Qed.

Lemma survives c i ls s evs ad cr : crun c c_init ls = Some (s, evs) -> LCancelCtx i ∉ ls -> LCloseBegin ∉ ls ->
  ~ CEnded i ∈ evs /\ (CListening i ad cr ∈ evs -> c_crashed s = false -> listens_on c s i).
Proof.
  intros Hr H1 H2.
  assert (up_inv i s evs) as (Hc & Hu & Hi & He).
  { refine (run_inv_rel (cstep c) (up_inv i) c_init [] ls s evs _ _ Hr).
    - split; [done|]. split; [done|]. split; [intros ? ? H; by apply elem_of_nil in H|by apply not_elem_of_nil].
    - intros s1 evs1 l s2 ev HI Hl _ Hs. eapply up_step; [exact HI| | |exact Hs]; by intros ->. }
  split; [done|]. intros Hin Hcr. destruct (lookup_lt_is_Some_2 _ _ (Hi _ _ Hin)) as [l Hl]. destruct (Hu l Hl) as (_ & Hn1 & Hn2).
  unfold listens_on, cstep. rewrite Hcr, Hl. unfold listener_step, unlocked. rewrite Hc.
  destruct (l_pc l) as [|m|x|x [|h hs]| |]; try done.
  - left. intros [m|x]; done.
  - right. left. intros [|x]; [|done]. by repeat case_match.
  - right. right. left. done.
  - right. right. right. done.
  - right. right. right. done.
Qed.
