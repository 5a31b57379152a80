(** Property C56: the provider's digests (gost_prov_digest.c), over whole histories of calls on any number of contexts of
    any number of provider instances. *)
From Coq Require Import String ZArith NArith List Bool Lia.
From Verif Require Import Bytes BytesProofs Gost89Model Gost89Sboxes Gost89Spec Gost89SpecProofs Hash94Model Hash94Spec Hash94Proofs
  StreebogModel StreebogSpec StreebogProofs PmethModel PropHash94 PropStreebog ProvDigestModel ProvDigestSpec.
From Verif Require PropSum.
Import ListNotations.
Local Open Scope nat_scope.

Section Proof.
Variable bd : build.
Variable ac : bool.
Variable mem0 : gost_ctx.
Notation step := (step bd ac mem0).
Notation run := (run bd ac mem0).

Definition sb94 := GostR3411_94_CryptoProParamSet.
Lemma sb94_ok : subst_ok sb94.
Proof. pose proof all_subst_blocks_ok as A. rewrite Forall_forall in A. apply A. right. left. reflexivity. Qed.
Definition dinv (a : alg) (d : md_data) (m : list N) : Prop :=
  match a, d with
  | D94, M94 x => hinv sb94 x m /\ (N.of_nat (length m) < 2 ^ 60)%N
  | D256, M2012 x => tinv (repeat 1%N 64) 256 x (t_bufsize x) m
  | D512, M2012 x => tinv (zeros 64) 512 x (t_bufsize x) m
  | _, _ => False
  end.
Lemma dinv_init a old : dinv a (md_init mem0 a old) [].
Proof.
  destruct a; cbn [md_init dinv].
  - split; [apply init_inv|reflexivity].
  - exact (init_tinv 256).
  - exact (init_tinv 512).
Qed.
Lemma dinv_update a d m data : bytes m -> bytes data -> (a = D94 -> (N.of_nat (length m + length data) < 2 ^ 60)%N) ->
  dinv a d m -> dinv a (md_update bd ac d data) (m ++ data).
Proof.
  intros Bm Bd Hl. destruct a, d; cbn [dinv md_update]; try contradiction.
  - intros [H _]. split; [apply (hash_block_inv sb94 sb94_ok); assumption|]. rewrite app_length. apply Hl. reflexivity.
  - intros H. apply hash_block_tinv; assumption.
  - intros H. apply hash_block_tinv; assumption.
Qed.
Lemma dinv_final a d m : bytes m -> dinv a d m -> md_final bd ac d = standard a m.
Proof.
  intros Bm. destruct a, d; cbn [dinv md_final standard]; try contradiction.
  - intros [H L]. apply (finish_hash_spec sb94 sb94_ok); [exact Bm|exact H|]. change (2 ^ 60)%N with 1152921504606846976%N in L. exact L.
  - intros H. unfold streebog256. apply (finish_tinv bd ac (repeat 1%N 64) 256 _ m); assumption.
  - intros H. unfold streebog512. apply (finish_tinv bd ac (zeros 64) 512 _ m); assumption.
Qed.

Definition live (s : state) (id : nat) : Prop := freed s id = false /\ id < st_next s.
Definition cinv (s : state) (c : option gctx) (d : option ProvDigestSpec.sctx) : Prop :=
  match c, d with
  | Some c, Some d =>
      x_inst c = s_inst d /\ x_alg c = s_alg d /\ live s (x_md c) /\
      match x_dctx c, s_msg d with
      | None, None => True
      | Some (i, md), Some m => live s i /\ bytes m /\ dinv (s_alg d) md m
      | _, _ => False
      end
  | None, None => True
  | _, _ => False
  end.
Definition sinv (s : state) (w : world) : Prop :=
  length (st_ctxs s) = length w /\ (forall h, cinv s (nth h (st_ctxs s) None) (get w h)) /\
  (forall a id, st_desc s a = Some id -> live s id /\ forall b, st_desc s b = Some id -> a = b) /\ (forall id, In id (st_freed s) -> id < st_next s).

Lemma alg_eqb_ok a b : alg_eqb a b = true -> a = b.
Proof. destruct a, b; try discriminate; reflexivity. Qed.
Lemma cinv_mono s s' c d : (forall id, live s id -> live s' id) -> cinv s c d -> cinv s' c d.
Proof.
  intros M. unfold cinv. destruct c as [c|], d as [d|]; auto. intros (I & A & L & D). split; [exact I|]. split; [exact A|]. split; [apply M, L|].
  destruct (x_dctx c) as [[i md]|], (s_msg d); auto. destruct D as [D1 D2]. auto.
Qed.
Lemma nth_put {A} (l : list (option A)) h c k : h < length l ->
  nth k (firstn h l ++ c :: skipn (S h) l) None = if k =? h then c else nth k l None.
Proof.
  revert h k. induction l as [|x l IH]; intros h k H; [cbn in H; lia|].
  destruct h as [|h], k as [|k]; cbn [firstn skipn app nth Nat.eqb]; try reflexivity.
  apply IH. cbn [length] in H. lia.
Qed.
Lemma put_length {A} (l : list (option A)) h c : h < length l -> length (firstn h l ++ c :: skipn (S h) l) = length l.
Proof. intros H. rewrite app_length, firstn_length. cbn [length]. rewrite skipn_length. lia. Qed.
Lemma sinv_put s w h c d : sinv s w -> h < length w -> cinv s c d -> sinv (set_ctx s h c) (put w h d).
Proof.
  intros (L & C & D & F) H I. unfold sinv, set_ctx, put, get. cbn [st_ctxs st_desc st_freed st_next]. split; [|split; [|split]].
  - rewrite !put_length by lia. exact L.
  - intros k. rewrite !nth_put by lia. destruct (k =? h); [exact I|apply C].
  - exact D.
  - exact F.
Qed.
Lemma sinv_add s w c d : sinv s w -> cinv s (Some c) d -> sinv (add_ctx s c) (w ++ [d]).
Proof.
  intros (L & C & D & F) I. unfold sinv, add_ctx. cbn [st_ctxs st_desc st_freed st_next]. split; [|split; [|split]].
  - rewrite !app_length, L. reflexivity.
  - intros k. unfold get. destruct (Nat.lt_ge_cases k (length w)) as [K|K].
    + rewrite !app_nth1 by lia. apply C.
    + rewrite !app_nth2 by lia. rewrite L. destruct (k - length w) as [|n]; cbn [nth]; [exact I|destruct n; exact Logic.I].
  - exact D.
  - exact F.
Qed.
Lemma sinv_init_digest s w a : sinv s w -> let (s', id) := init_digest s a in
  sinv s' w /\ live s' id /\ (forall i, live s i -> live s' i) /\ st_ctxs s' = st_ctxs s /\ (forall i, freed s' i = freed s i).
Proof.
  intros (L & C & D & F). unfold init_digest. destruct (st_desc s a) as [id|] eqn:E.
  - split; [split; [exact L|split; [exact C|split; [exact D|exact F]]]|]. split; [apply (D a), E|]. auto.
  - assert (NF : freed s (st_next s) = false).
    { unfold freed. destruct (existsb (Nat.eqb (st_next s)) (st_freed s)) eqn:X; [|reflexivity].
      apply existsb_exists in X as (x & Ix & Q). apply Nat.eqb_eq in Q. subst x. apply F in Ix. lia. }
    set (s' := mk_state _ _ _ _).
    assert (M : forall i, live s i -> live s' i) by (intros i [H1 H2]; split; [exact H1|unfold s'; cbn [st_next]; lia]).
    assert (LN : live s' (st_next s)) by (split; [exact NF|unfold s'; cbn [st_next]; lia]).
    split; [|split; [exact LN|split; [exact M|split; reflexivity]]].
    split; [exact L|]. split; [|split].
    + intros h. eapply cinv_mono; [exact M|apply C].
    + intros b id. unfold s'. cbn [st_desc]. destruct (alg_eqb a b) eqn:Q; intros H.
      * injection H as <-. split; [exact LN|]. intros b'. destruct (alg_eqb a b') eqn:Q'; [intros _; apply alg_eqb_ok in Q, Q'; congruence|].
        intros H. apply D in H. destruct H as [[_ H] _]. lia.
      * destruct (D b id H) as [H1 H2]. split; [apply M, H1|]. intros b'. destruct (alg_eqb a b'); [|apply H2].
        intros X. injection X as <-. destruct H1 as [_ H1]. lia.
    + intros id H. unfold s' in *. cbn [st_freed st_next] in *. apply F in H. lia.
Qed.
Lemma get_lt w h c : get w h = Some c -> h < length w.
Proof. intros H. destruct (Nat.lt_ge_cases h (length w)); [assumption|]. unfold get in H. rewrite nth_overflow in H by lia. discriminate. Qed.
Lemma sinv_ctx s w h d : sinv s w -> get w h = Some d -> exists c, nth h (st_ctxs s) None = Some c /\ cinv s (Some c) (Some d).
Proof.
  intros (_ & C & _) G. specialize (C h). rewrite G in C. destruct (nth h (st_ctxs s) None) as [c|]; [exists c; auto|contradiction].
Qed.
Lemma sinv_deinit s w a : sinv s w -> (forall h, get w h = None) -> sinv (deinit_digest s a) w.
Proof.
  intros (L & C & D & F) N. unfold deinit_digest. destruct (st_desc s a) as [id|] eqn:E; [|split; [exact L|split; [exact C|split; [exact D|exact F]]]].
  split; [exact L|]. split; [|split].
  - intros h. specialize (C h). rewrite N in *. cbn [st_ctxs]. destruct (nth h (st_ctxs s) None); [contradiction|exact I].
  - intros b i. cbn [st_desc]. destruct (alg_eqb a b) eqn:Q; [discriminate|]. intros H. destruct (D b i H) as [[H1 HN] H2].
    split; [|intros b'; destruct (alg_eqb a b'); [discriminate|apply H2]]. split; [|exact HN]. unfold freed. cbn [st_freed existsb]. fold (freed s i). rewrite H1, orb_false_r.
    apply Nat.eqb_neq. intros ->. apply H2 in E. subst b. destruct a; discriminate Q.
  - intros i [<-|H]; cbn [st_next]; [apply (D a), E|apply F, H].
Qed.
Lemma update_len (data : list N) : (Z.of_nat (length data) < 2 ^ 31)%Z -> to_int (Z.of_nat (length data)) = Z.of_nat (length data).
Proof. intros H. unfold to_int. rewrite Z.mod_small; lia. Qed.

Lemma step_ok s w o : sinv s w -> legal w o -> snd (step s o) = snd (expected w o) /\ sinv (fst (step s o)) (fst (expected w o)).
Proof.
  intros SI LG. pose proof SI as (SL & SC & SD & SF). destruct o as [i a|h|h|h|h data|h n|a|i]; cbn [ProvDigestModel.step expected legal] in *.
  - unfold digest_newctx. pose proof (sinv_init_digest s w a SI) as ID. destruct (init_digest s a) as [s' id].
    destruct ID as (SI' & LV & M & EC & FR). cbn [fst snd]. rewrite EC, SL. split; [reflexivity|]. apply sinv_add; [exact SI'|].
    cbn. auto.
  - destruct (get w h) as [d|] eqn:G; [|congruence]. destruct (sinv_ctx s w h d SI G) as (c & N & CI). unfold on. rewrite N.
    unfold digest_dupctx. pose proof (sinv_init_digest s w (x_alg c) SI) as ID. destruct (init_digest s (x_alg c)) as [s' id].
    destruct ID as (SI' & LV & M & EC & FR). pose proof CI as CI'. cbn [cinv] in CI. destruct CI as (I & A & Lm & D).
    destruct (x_dctx c) as [[j md]|] eqn:X.
    + destruct (s_msg d) as [m|] eqn:Q; [|contradiction]. destruct D as ([Fj Nj] & Bm & DI). rewrite Fj. cbn [fst snd]. rewrite SL.
      split; [reflexivity|]. apply sinv_add; [exact SI'|]. cbn [cinv x_inst x_alg x_md x_dctx]. rewrite Q. split; [exact I|]. split; [exact A|]. split; [exact LV|]. split; [apply M; split; assumption|]. split; [exact Bm|exact DI].
    + destruct (s_msg d) as [m|] eqn:Q; [contradiction|]. cbn [fst snd]. rewrite SL. split; [reflexivity|]. apply sinv_add; [exact SI'|].
      cbn [cinv x_inst x_alg x_md x_dctx]. rewrite Q. split; [exact I|]. split; [exact A|]. split; [exact LV|exact Logic.I].
  - destruct (get w h) as [d|] eqn:G; [|congruence]. destruct (sinv_ctx s w h d SI G) as (c & N & CI). unfold on. rewrite N.
    unfold digest_freectx. cbn [cinv] in CI. destruct CI as (I & A & Lm & D). apply get_lt in G.
    destruct (x_dctx c) as [[j md]|] eqn:X.
    + destruct (s_msg d) as [m|]; [|contradiction]. destruct D as ([Fj Nj] & _). rewrite Fj. cbn [fst snd]. split; [reflexivity|].
      apply sinv_put; [exact SI|exact G|exact Logic.I].
    + cbn [fst snd]. split; [reflexivity|]. apply sinv_put; [exact SI|exact G|exact Logic.I].
  - destruct (get w h) as [d|] eqn:G; [|congruence]. destruct (sinv_ctx s w h d SI G) as (c & N & CI). unfold on. rewrite N.
    unfold digest_init. cbn [cinv] in CI. destruct CI as (I & A & [Fm Nm] & D). apply get_lt in G. rewrite Fm.
    assert (P : forall old, sinv (set_ctx s h (Some (mk_gctx (x_inst c) (x_alg c) (x_md c) (Some (x_md c, md_init mem0 (x_alg c) old)))))
      (put w h (Some (ProvDigestSpec.mk_sctx (s_inst d) (s_alg d) (Some []))))).
    { intros old. apply sinv_put; [exact SI|exact G|]. cbn [cinv x_inst x_alg x_md x_dctx s_inst s_alg s_msg]. split; [exact I|].
      split; [exact A|]. split; [split; assumption|]. split; [split; assumption|]. split; [constructor|]. rewrite A. apply dinv_init. }
    destruct (x_dctx c) as [[j md]|] eqn:X.
    + destruct (s_msg d) as [m|]; [|contradiction]. destruct D as ([Fj Nj] & _). rewrite Fj.
      destruct (j =? x_md c); cbn [fst snd]; (split; [reflexivity|apply P]).
    + cbn [fst snd]. split; [reflexivity|apply P].
  - destruct LG as (d & m & G & Q & Bd & Ld & L94). destruct (sinv_ctx s w h d SI G) as (c & N & CI). unfold on. rewrite N, G.
    destruct d as [di da dm]. cbn [s_msg s_alg] in *. subst dm.
    unfold digest_update. cbn [cinv s_inst s_alg s_msg] in CI. destruct CI as (I & A & Lm & D). apply get_lt in G as G'.
    destruct (x_dctx c) as [[j md]|] eqn:X; [|contradiction]. destruct D as ([Fj Nj] & Bm & DI).
    rewrite (update_len data Ld). destruct (Z.eqb_spec (Z.of_nat (length data)) 0) as [Z|NZ].
    + cbn [fst snd]. split; [reflexivity|]. assert (data = []) as -> by (destruct data; [reflexivity|cbn [length] in Z; lia]).
      rewrite app_nil_r.
      destruct SI as (_ & _ & SD' & SF'). split; [rewrite SL; symmetry; unfold put; apply put_length; exact G'|].
      split; [|split; [exact SD'|exact SF']]. intros k. unfold put, get. rewrite nth_put by exact G'.
      destruct (Nat.eqb_spec k h) as [->|]; [|apply SC]. specialize (SC h). rewrite G in SC. exact SC.
    + rewrite Fj. destruct (Z.ltb_spec (Z.of_nat (length data)) 0); [lia|]. rewrite Nat2Z.id, firstn_all. cbn [fst snd].
      split; [reflexivity|]. apply sinv_put; [exact SI|exact G'|].
      cbn [cinv x_inst x_alg x_md x_dctx s_inst s_alg s_msg]. split; [exact I|]. split; [exact A|]. split; [exact Lm|].
      split; [split; assumption|]. split; [apply bytes_app; assumption|]. apply dinv_update; assumption.
  - destruct LG as (d & m & G & Q & Bd). destruct (sinv_ctx s w h d SI G) as (c & N & CI). unfold on. rewrite N, G.
    destruct d as [di da dm]. cbn [s_msg s_alg] in *. subst dm.
    unfold digest_final. cbn [cinv s_inst s_alg s_msg] in CI. destruct CI as (I & A & Lm & D). apply get_lt in G.
    destruct (x_dctx c) as [[j md]|] eqn:X; [|contradiction]. destruct D as ([Fj Nj] & Bm & DI). rewrite Fj. cbn [fst snd]. split.
    + rewrite (dinv_final da md m Bm DI), A. destruct da; reflexivity.
    + apply sinv_put; [exact SI|exact G|]. cbn [cinv x_inst x_alg x_md x_dctx s_inst s_alg s_msg]. auto.
  - unfold digest_get_params. pose proof (sinv_init_digest s w a SI) as ID. destruct (init_digest s a) as [s' id].
    destruct ID as (SI' & _). cbn [fst snd]. split; [destruct a; reflexivity|exact SI'].
  - cbn [fst snd]. split; [reflexivity|]. unfold gost_teardown. cbn [fold_left]. repeat apply sinv_deinit; assumption.
Qed.
Lemma run_ok l : forall s w, sinv s w -> all_legal w l -> run s l = expected_results w l.
Proof.
  induction l as [|o l IH]; intros s w SI AL; [reflexivity|]. destruct AL as [LG AL]. destruct (step_ok s w o SI LG) as [E SI'].
  cbn [ProvDigestModel.run expected_results]. destruct (step s o) as [s' r], (expected w o) as [w' r']. cbn [fst snd] in *. rewrite E. f_equal. apply IH; assumption.
Qed.
Lemma start_ok : sinv start [].
Proof. split; [reflexivity|]. split; [intros [|h]; exact I|]. split; [intros a id H; discriminate H|intros id H; destruct H]. Qed.
End Proof.

(** Every history of calls in an allowed order, from the loading of the provider on: each hash is the standard's hash
    of the bytes given to the context - or inherited from the context it was duplicated from - since its
    initialisation, whatever happens to other contexts in between, on every build; sizes are reported as they are. *)
Theorem C56_histories : forall bd ac mem0 l, all_legal [] l -> run bd ac mem0 start l = expected_results [] l.
Proof. intros bd ac mem0 l H. apply run_ok; [apply start_ok|exact H]. Qed.
Print Assumptions C56_histories.

(** The size reported is the number of bytes a hash has. *)
Theorem C56_reported_sizes : forall a s, exists bs xof, snd (digest_get_params s a) = Params bs (hash_bytes a) xof /\
  forall m, bytes m -> length (standard a m) = N.to_nat (hash_bytes a).
Proof.
  intros a s. exists (block_bytes a), false. split; [destruct a; reflexivity|]. intros m B.
  assert (C19 : length (streebog512 m) = 64 /\ length (streebog256 m) = 32).
  { pose proof (C19_digest_sizes RefLE false [m] ltac:(repeat constructor; exact B)) as H.
    destruct (C19_streebog_chunks_match_standard RefLE false [m] ltac:(repeat constructor; exact B)) as [E1 E2].
    rewrite E1, E2 in H. cbn [concat] in H. rewrite app_nil_r in H. exact H. }
  destruct a; [|apply C19|apply C19]. apply PropSum.hash94_bytes, B.
Qed.
Print Assumptions C56_reported_sizes.

(** Contexts do not influence each other: the hash taken at the end of an allowed history is determined by the calls on
    the context itself; here, for calls that do not touch it and are allowed, its bytes stay. *)
Definition touches (h : nat) (o : call) : Prop :=
  match o with Free k | Init k | Update k _ | Final k _ => k = h | _ => False end.
Fixpoint world_after (w : world) (l : list call) : world :=
  match l with [] => w | o :: l' => world_after (fst (expected w o)) l' end.
Theorem C56_contexts_are_separate : forall w l h c, get w h = Some c -> all_legal w l -> Forall (fun o => ~ touches h o) l ->
  get (world_after w l) h = Some c.
Proof.
  intros w l h c. revert w. induction l as [|o l IH]; intros w G AL F; [exact G|].
  destruct AL as [LG AL]. apply Forall_cons_iff in F. destruct F as [NT F]. cbn [world_after]. apply IH; [|exact AL|exact F].
  assert (P : forall k d, k <> h -> get w k <> None -> get (put w k d) h = Some c).
  { intros k d K GK. destruct (get w k) as [x|] eqn:E; [|congruence]. unfold put, get. rewrite nth_put by (eapply get_lt; exact E).
    destruct (Nat.eqb_spec h k); [congruence|exact G]. }
  assert (Q : forall d, get (w ++ [d]) h = Some c).
  { intros d. unfold get. rewrite app_nth1 by (eapply get_lt; exact G). exact G. }
  destruct o as [i a|k|k|k|k data|k n|a|i]; cbn [expected touches legal fst] in *; try exact G; try apply Q.
  - apply P; assumption.
  - destruct (get w k) as [x|] eqn:E; [|exact G]. apply P; congruence.
  - destruct LG as (x & m & E & Em & _). rewrite E. destruct x as [xi xa xm]. cbn [s_msg] in Em. subst xm. apply P; congruence.
  - destruct LG as (x & m & E & Em & _). rewrite E. destruct x as [xi xa xm]. cbn [s_msg] in Em. subst xm. apply P; congruence.
Qed.
Print Assumptions C56_contexts_are_separate.

(** Defects outside the allowed histories. *)
(** A piece of 2^32 bytes or more loses its length's upper bits: only the first (length mod 2^32) bytes are hashed, with
    success; half of the lengths from 2^31 on make the program read past the buffer. *)
Theorem C56_long_pieces : forall bd ac s h c i d data, x_dctx c = Some (i, d) -> freed s i = false ->
  let n := (Z.of_nat (List.length data) mod 2 ^ 32)%Z in
  digest_update bd ac s h c data =
  if (n =? 0)%Z then (s, Returns true)
  else if (n <? 2 ^ 31)%Z then
    (set_ctx s h (Some (mk_gctx (x_inst c) (x_alg c) (x_md c) (Some (i, md_update bd ac d (firstn (Z.to_nat n) data))))), Returns true)
  else (s, Overrun).
Proof.
  intros bd ac s h c i d data X Fr n. unfold digest_update. rewrite X, Fr.
  pose proof (Z.mod_pos_bound (Z.of_nat (List.length data)) (2 ^ 32) ltac:(lia)) as B. fold n in B.
  assert (T : to_int (Z.of_nat (List.length data)) = if (n <? 2 ^ 31)%Z then n else (n - 2 ^ 32)%Z).
  { unfold to_int. rewrite Zplus_mod. fold n.
    destruct (Z.ltb_spec n (2 ^ 31)).
    - rewrite (Z.mod_small (2 ^ 31)) by lia. rewrite Z.mod_small by lia. lia.
    - rewrite (Z.mod_small (2 ^ 31)) by lia. replace (n + 2 ^ 31)%Z with ((n - 2 ^ 31) + 1 * 2 ^ 32)%Z by lia.
      rewrite Z_mod_plus_full, Z.mod_small by lia. lia. }
  rewrite T. destruct (Z.ltb_spec n (2 ^ 31)).
  - destruct (n =? 0)%Z; [reflexivity|]. destruct (Z.ltb_spec n 0); [lia|reflexivity].
  - destruct (Z.eqb_spec (n - 2 ^ 32) 0); [lia|]. destruct (Z.eqb_spec n 0); [lia|].
    destruct (Z.ltb_spec (n - 2 ^ 32) 0); [reflexivity|lia].
Qed.
Print Assumptions C56_long_pieces.
(** So 4 GiB in one piece hash like nothing at all. *)
Theorem C56_long_message_refuted : forall bd ac mem0 inst a data, Z.of_nat (List.length data) = (2 ^ 32)%Z ->
  run bd ac mem0 start [New inst a; Init 0; Update 0 data; Final 0 (hash_bytes a)] =
  run bd ac mem0 start [New inst a; Init 0; Update 0 []; Final 0 (hash_bytes a)] /\
  nth 3 (run bd ac mem0 start [New inst a; Init 0; Update 0 data; Final 0 (hash_bytes a)]) Done = Digest (standard a []) (hash_bytes a).
Proof.
  intros bd ac mem0 inst a data L.
  assert (AL : all_legal [] [New inst a; Init 0; Update 0 []; Final 0 (hash_bytes a)]).
  { cbn [all_legal expected fst app get nth put firstn skipn s_inst s_alg]. split; [exact I|]. split; [discriminate|].
    split.
    - eexists _, _. split; [reflexivity|]. split; [reflexivity|]. split; [constructor|]. split; [reflexivity|]. reflexivity.
    - split; [|exact I]. eexists _, _. split; [reflexivity|]. split; reflexivity. }
  assert (E : run bd ac mem0 start [New inst a; Init 0; Update 0 data; Final 0 (hash_bytes a)] =
    run bd ac mem0 start [New inst a; Init 0; Update 0 []; Final 0 (hash_bytes a)]).
  { assert (G : forall (c : gctx) s, digest_update bd ac s 0 c data = digest_update bd ac s 0 c []).
    { intros c s. unfold digest_update. rewrite L. reflexivity. }
    cbn [ProvDigestModel.run]. destruct (step bd ac mem0 start (New inst a)) as [s1 r1]. f_equal.
    destruct (step bd ac mem0 s1 (Init 0)) as [s2 r2]. f_equal.
    assert (U : step bd ac mem0 s2 (Update 0 data) = step bd ac mem0 s2 (Update 0 [])).
    { cbn [ProvDigestModel.step]. unfold on. destruct (nth 0 (st_ctxs s2) None); [apply G|reflexivity]. }
    rewrite U. reflexivity. }
  split; [exact E|]. rewrite E, (C56_histories bd ac mem0 _ AL). reflexivity.
Qed.
Print Assumptions C56_long_message_refuted.
(** The descriptors are shared by all instances: when one instance goes, the contexts of another use freed memory.  (With
    [legal] asking only that the instance's own contexts be gone, C56_histories would be false.) *)
Theorem C56_teardown_of_another_instance_refuted : forall bd ac mem0 a data, data <> [] -> (Z.of_nat (List.length data) < 2 ^ 31)%Z ->
  run bd ac mem0 start [New 1 a; Init 0; Teardown 2; Update 0 data] = [Handle 0; Returns true; Done; UseAfterFree] /\
  run bd ac mem0 start [New 1 a; Init 0; Teardown 2; Init 0; Free 0] = [Handle 0; Returns true; Done; UseAfterFree; UseAfterFree].
Proof.
  intros bd ac mem0 a data NE L.
  assert (NZ : (to_int (Z.of_nat (List.length data)) =? 0)%Z = false).
  { rewrite update_len by exact L. apply Z.eqb_neq. destruct data; [congruence|cbn [List.length]; lia]. }
  destruct a; split; cbn [ProvDigestModel.run ProvDigestModel.step digest_newctx init_digest start st_desc on nth st_ctxs add_ctx app
    digest_init x_md x_dctx x_alg x_inst freed st_freed existsb set_ctx firstn skipn gost_teardown fold_left deinit_digest alg_eqb digest_update
    st_next digest_freectx Nat.eqb orb List.length]; unfold digest_update; cbv zeta; rewrite ?NZ; reflexivity.
Qed.
Print Assumptions C56_teardown_of_another_instance_refuted.
(** A buffer that is too small is written beyond its end, with success. *)
Theorem C56_output_size_ignored_refuted : forall bd ac s h c n n', digest_final bd ac s h c n = digest_final bd ac s h c n'.
Proof. reflexivity. Qed.
(** The dispatch tables do not end: the core reads beyond them. *)
Theorem C56_dispatch_table_refuted : read_table digest_functions = None /\ read_table (digest_functions ++ [0%N]) = Some digest_functions.
Proof. split; reflexivity. Qed.

(** The names and object identifiers of RFC 6986 / RFC 9215 and RFC 4357, and OpenSSL's short names; nothing else is found. *)
Definition name_of (a : alg) : list string :=
  match a with
  | D256 => ["id-tc26-gost3411-12-256"; "md_gost12_256"; "1.2.643.7.1.1.2.2"]
  | D512 => ["id-tc26-gost3411-12-512"; "md_gost12_512"; "1.2.643.7.1.1.2.3"]
  | D94 => ["id-GostR3411-94"; "md_gost94"; "1.2.643.2.2.9"]
  end%string.
Theorem C56_names : forall name a, fetch name = Some a <-> In name (name_of a).
Proof.
  intros name a.
  assert (E : fetch name = option_map snd (List.find (fun e => existsb (String.eqb name) (name_of (snd e)))
    [("", D256); ("", D512); ("", D94)]%string)).
  { unfold fetch, prov_digests. cbn [List.find fst snd].
    change (split_colon "id-tc26-gost3411-12-256:md_gost12_256:1.2.643.7.1.1.2.2" "") with (name_of D256).
    change (split_colon "id-tc26-gost3411-12-512:md_gost12_512:1.2.643.7.1.1.2.3" "") with (name_of D512).
    change (split_colon "id-GostR3411-94:md_gost94:1.2.643.2.2.9" "") with (name_of D94).
    destruct (existsb _ (name_of D256)); [reflexivity|]. destruct (existsb _ (name_of D512)); [reflexivity|].
    destruct (existsb _ (name_of D94)); reflexivity. }
  rewrite E. split.
  - intros H. destruct (List.find _ _) as [[x b]|] eqn:Fd; [|discriminate]. injection H as <-. apply find_some in Fd. destruct Fd as [_ X].
    apply existsb_exists in X as (y & Iy & Q). apply String.eqb_eq in Q. subst y. exact Iy.
  - intros H. destruct a; cbn [name_of In] in H; (destruct H as [<-|[<-|[<-|[]]]]); reflexivity.
Qed.
Print Assumptions C56_names.

(** A concrete allowed history: two contexts and a duplicate, interleaved; the 1994 context is used twice. *)
Example C56_allowed :
  let l := [New 1 D256; New 2 D94; Init 0; Init 1; Update 0 [97]; Update 1 [98; 99]; Dup 0; Update 0 [98]; Final 2 32; Final 0 32;
            Free 2; Final 1 32; Init 1; Final 1 32; Free 0; Free 1; Teardown 1; New 1 D512; Init 3; Final 3 64]%N in
  all_legal [] l /\
  nth 8 (expected_results [] l) Done = Digest (standard D256 [97%N]) 32 /\
  nth 9 (expected_results [] l) Done = Digest (standard D256 [97; 98]%N) 32 /\
  nth 13 (expected_results [] l) Done = Digest (standard D94 []) 32.
Proof.
  cbv zeta. split; [|split; [reflexivity|split; reflexivity]].
  cbn [all_legal expected fst app get nth put firstn skipn s_inst s_alg s_msg legal List.length].
  repeat (split; [first [exact I | discriminate
    | (eexists _, _; split; [reflexivity|]; split; [reflexivity|]; first [reflexivity | (split; [apply bytes_forallb; reflexivity|]; split; [reflexivity|intros _; reflexivity])])
    | (intros [|[|[|[|h]]]]; reflexivity) ]|]). exact I.
Qed.
