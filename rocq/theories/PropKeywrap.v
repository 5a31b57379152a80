(** Property C32: CryptoPro key wrap. *)
From Coq Require Import String.
From Verif Require Import Bytes BytesProofs Gost89Model Gost89Sboxes Gost89Spec Gost89Proofs Gost89SpecProofs
  Gost89ModeProofs CryptSpec CryptProofs PropGost89 KeywrapModel KeywrapSpec.
From Coq Require Import List Lia NArith.
Open Scope N_scope.

Lemma lor_shl a b n : a < 2 ^ n -> N.lor a (N.shiftl b n) = a + b * 2 ^ n.
Proof. intros H. rewrite N.lor_comm, lor_shiftl_add by exact H. lia. Qed.
Lemma word4 a b c d : a < 256 -> b < 256 -> c < 256 -> d < 256 ->
  N.lor (N.lor (N.lor a (w32 (N.shiftl b 8))) (w32 (N.shiftl c 16))) (w32 (N.shiftl d 24)) = le2n [a; b; c; d].
Proof.
  intros Ha Hb Hc Hd. rewrite !w32_small by (rewrite N.shiftl_mul_pow2; lia).
  rewrite (lor_shl a b 8) by exact Ha. rewrite (lor_shl _ c 16) by lia. rewrite (lor_shl _ d 24) by lia. cbn [le2n]. lia.
Qed.
Lemma sub_cons4 (l : list N) i : (i + 4 <= length l)%nat -> firstn 4 (skipn i l) = [nth i l 0; nth (i + 1) l 0; nth (i + 2) l 0; nth (i + 3) l 0].
Proof.
  revert i. induction l as [|x l IH]; intros [|i] H; cbn [length] in H; try lia.
  - destruct l as [|y [|z [|w l]]]; cbn [length] in H; try lia. reflexivity.
  - cbn [skipn]. rewrite IH by lia. cbn [nth Nat.add]. reflexivity.
Qed.
Lemma nth_byte (l : list N) i : bytes l -> nth i l 0 < 256.
Proof. intros B. destruct (Nat.lt_ge_cases i (length l)); [apply (proj1 (Forall_forall _ _) B); apply nth_In; auto|rewrite nth_overflow by auto; lia]. Qed.
Lemma kw_word_spec key j : bytes key -> length key = 32%nat -> (j < 8)%nat -> kw_word key j = le_words key j.
Proof.
  intros B L Hj. unfold kw_word, le_words. rewrite sub_cons4 by lia. apply word4; apply nth_byte; exact B.
Qed.
Lemma bit_land u j : (N.land (N.shiftl 1 j) u =? 0) = negb (N.testbit u j).
Proof.
  assert (E : N.land (N.shiftl 1 j) u = if N.testbit u j then 2 ^ j else 0).
  { rewrite N.shiftl_1_l. apply N.bits_inj. intros i. rewrite N.land_spec, N.pow2_bits_eqb.
    destruct (N.eqb_spec j i) as [->|NE]; cbn [andb].
    - destruct (N.testbit u i); [rewrite N.pow2_bits_true|rewrite N.bits_0]; reflexivity.
    - destruct (N.testbit u j); [rewrite N.pow2_bits_false by exact NE|rewrite N.bits_0]; reflexivity. }
  rewrite E. destruct (N.testbit u j); cbn [negb]; [|reflexivity]. apply N.eqb_neq. apply N.pow_nonzero. discriminate.
Qed.
Lemma kw_sums_spec key u js : bytes key -> length key = 32%nat -> Forall (fun j => (j < 8)%nat) js -> forall s1 s2, s1 < 2 ^ 32 -> s2 < 2 ^ 32 ->
  kw_sums key u js s1 s2 =
  ((s1 + fold_right N.add 0 (map (fun j => if N.testbit u (N.of_nat j) then le_words key j else 0) js)) mod 2 ^ 32,
   (s2 + fold_right N.add 0 (map (fun j => if negb (N.testbit u (N.of_nat j)) then le_words key j else 0) js)) mod 2 ^ 32).
Proof.
  intros B L F. induction F as [|j t Hj _ IH]; intros s1 s2 H1 H2; cbn [kw_sums map fold_right].
  - rewrite !N.add_0_r, !N.mod_small by assumption. reflexivity.
  - rewrite bit_land, kw_word_spec by auto. destruct (N.testbit u (N.of_nat j)); cbn [negb]; rewrite IH by (auto; apply w32_lt);
      rewrite w32_mod; change 4294967296 with (2 ^ 32); rewrite N.add_mod_idemp_l by discriminate; rewrite !N.add_0_l; f_equal; f_equal; lia.
Qed.
Lemma kw_S_spec a b : kw_S a b = n2le 4 a ++ n2le 4 b.
Proof.
  assert (G : forall x, map (fun i => N.land (N.shiftr x (8 * i)) 255) [0; 1; 2; 3] = n2le 4 x).
  { intros x. cbn [map n2le]. change (8 * 0) with 0. change (8 * 1) with 8. change (8 * 2) with (8 + 8). change (8 * 3) with (8 + (8 + 8)).
    rewrite <- !N.shiftr_shiftr, N.shiftr_0_r. unfold w8.
    assert (D : forall y, N.shiftr y 8 = y / 256) by (intros; apply shiftr8).
    assert (M : forall y, N.land y 255 = y mod 256) by (intros; change (N.land y 255) with (w8 y); apply w8_mod).
    rewrite ?D, ?M. reflexivity. }
  unfold kw_S. rewrite !G. reflexivity.
Qed.
Lemma enc_cfb_spec sb k g n : kst sb k g -> forall iv m, length m = (8 * n)%nat ->
  gost_enc_cfb g iv m n = cfb_blocks (rfc5830_encrypt (sboxes_of sb) k) iv (blocks 8 m).
Proof.
  intros K. induction n as [|n IH]; intros iv m L.
  - destruct m; [reflexivity|discriminate L].
  - cbn [gost_enc_cfb]. rewrite blocks_step by (try lia; intros ->; cbn in L; lia). cbn [cfb_blocks]. rewrite (kst_crypt sb k g _ K).
    rewrite IH by (rewrite skipn_length; lia). reflexivity.
Qed.
Lemma gost_enc_blocks sb k g n : kst sb k g -> forall m, length m = (8 * n)%nat ->
  gost_enc g m n = concat (map (rfc5830_encrypt (sboxes_of sb) k) (blocks 8 m)).
Proof.
  intros K. induction n as [|n IH]; intros m L.
  - destruct m; [reflexivity|discriminate L].
  - cbn [gost_enc]. rewrite blocks_step by (try lia; intros ->; cbn in L; lia). cbn [map concat]. rewrite (kst_crypt sb k g _ K).
    rewrite IH by (rewrite skipn_length; lia). reflexivity.
Qed.
(** Contexts that hold the S-boxes. *)
Definition gtab (sb : subst_block) (g : gost_ctx) : Prop := subst_ok sb /\ tables_of g sb /\ rng_ok (g_rng g).
Lemma gtab_init sb c : subst_ok sb -> rng_ok (g_rng c) -> gtab sb (gost_init c sb).
Proof. intros S R. split; [exact S|]. split; [apply tables_of_init|exact R]. Qed.
Lemma gtab_key sb g k : gtab sb g -> bytes k -> kst sb k (gost_key g k).
Proof. intros (S & T & R) B. apply kst_gost_key; auto. Qed.
Lemma kst_gtab sb k g : kst sb k g -> gtab sb g.
Proof. intros (S & T & _ & R). split; [exact S|]. split; [exact T|exact R]. Qed.

Lemma diversify_step_spec sb g k u : gtab sb g -> bytes k -> length k = 32%nat ->
  let r := diversify_step g k u in
  gtab sb (fst r) /\ snd r = cfb_blocks (rfc5830_encrypt (sboxes_of sb) k) (diversify_iv k u) (blocks 8 k) /\ bytes (snd r) /\ length (snd r) = 32%nat.
Proof.
  intros G B L. cbv zeta. unfold diversify_step.
  rewrite (kw_sums_spec k u (seq 0 8) B L) by (try reflexivity; apply Forall_forall; intros j Hj; apply in_seq in Hj; lia).
  rewrite !N.add_0_l. pose proof (gtab_key sb g k G B) as K. cbn [fst snd].
  split; [exact (kst_gtab sb k _ K)|]. rewrite kw_S_spec. rewrite (enc_cfb_spec sb k _ 4 K) by exact L.
  split; [reflexivity|]. rewrite <- (enc_cfb_spec sb k _ 4 K) by exact L. split; [|apply enc_cfb_length; exact L].
  generalize (n2le 4 (fold_right N.add 0 (map (fun j => if N.testbit u (N.of_nat j) then le_words k j else 0) (seq 0 8)) mod 2 ^ 32) ++
    n2le 4 (fold_right N.add 0 (map (fun j => if negb (N.testbit u (N.of_nat j)) then le_words k j else 0) (seq 0 8)) mod 2 ^ 32)).
  generalize 4%nat. generalize (gost_key g k). clear -B. revert B. generalize k.
  intros m B g n. revert m B. induction n as [|n IH]; intros m B iv; cbn [gost_enc_cfb]; [constructor|].
  apply bytes_app; [apply xorl_bytes; [apply bytes_firstn; exact B|apply gostcrypt_bytes]|]. apply IH. apply bytes_skipn. exact B.
Qed.
Lemma diversify_loop_spec sb ukm : forall g k, gtab sb g -> bytes k -> length k = 32%nat ->
  let r := diversify_loop g k ukm in
  gtab sb (fst r) /\ snd r = diversify (sboxes_of sb) k ukm /\ bytes (snd r) /\ length (snd r) = 32%nat.
Proof.
  induction ukm as [|u t IH]; intros g k G B L; cbv zeta; cbn [diversify_loop].
  - split; [exact G|]. split; [reflexivity|]. split; [exact B|exact L].
  - destruct (diversify_step_spec sb g k u G B L) as (G1 & E1 & B1 & L1). destruct (diversify_step g k u) as [g1 k1]. cbn [fst snd] in *.
    destruct (IH g1 k1 G1 B1 L1) as (G2 & E2 & B2 & L2). cbv zeta in *. split; [exact G2|]. split; [|split; [exact B2|exact L2]].
    rewrite E2, E1. reflexivity.
Qed.
Definition key32 (k : list N) : Prop := length k = 32%nat /\ bytes k.
Definition ukm8 (u : list N) : Prop := length u = 8%nat /\ bytes u.

Lemma diversified sb c kek ukm : subst_ok sb -> rng_ok (g_rng c) -> key32 kek -> (8 <= length ukm)%nat ->
  let r := keyDiversifyCryptoPro (gost_init c sb) kek ukm in
  snd r = diversify (sboxes_of sb) kek (firstn 8 ukm) /\ kst sb (snd r) (gost_key (fst r) (snd r)) /\ length (snd r) = 32%nat.
Proof.
  intros S R [L B] Lu. cbv zeta. unfold keyDiversifyCryptoPro. rewrite (firstn_all2 kek) by lia.
  destruct (diversify_loop_spec sb (firstn 8 ukm) (gost_init c sb) kek (gtab_init sb c S R) B L) as (G & E & B2 & L2).
  split; [exact E|]. split; [apply gtab_key; auto|exact L2].
Qed.

(** The code computes the wrapping of the RFC, whatever the context held before (the caller has
    installed the S-boxes), and however the key mask is drawn. *)
Theorem C32_wrap_refines_rfc4357 :
  forall sb c kek ukm cek,
    subst_ok sb -> rng_ok (g_rng c) -> key32 kek -> ukm8 ukm -> key32 cek ->
    snd (keyWrapCryptoPro (gost_init c sb) kek ukm cek) = wrap (sboxes_of sb) kek ukm cek.
Proof.
  intros sb c kek ukm cek S R Hk [Lu Bu] [Lc Bc]. unfold keyWrapCryptoPro, wrap.
  destruct (diversified sb c kek ukm S R Hk ltac:(lia)) as (E & K & _). destruct (keyDiversifyCryptoPro _ _ _) as [g k]. cbn [fst snd] in *.
  rewrite (firstn_all2 ukm) in * by lia. rewrite (firstn_all2 cek) by lia. rewrite <- E. f_equal. f_equal.
  - apply (gost_enc_blocks sb k _ 4 K). exact Lc.
  - destruct K as (_ & T & Kl & _). rewrite (gost_mac_iv_spec _ sb k) by auto. change 32 with (8 * 4). rewrite get_mac_whole. reflexivity.
Qed.
Print Assumptions C32_wrap_refines_rfc4357.
(** Unwrapping: the session key is the decryption under the diversified key, and the return value
    is 1 exactly when the last four bytes are its MAC. *)
Theorem C32_unwrap_accepts_iff_mac_matches :
  forall sb c kek w,
    subst_ok sb -> rng_ok (g_rng c) -> key32 kek -> length w = 44%nat -> bytes w ->
    let (ret, cek) := keyUnwrapCryptoPro (gost_init c sb) kek w in
    let k := diversify (sboxes_of sb) kek (sub 0 8 w) in
    cek = concat (map (rfc5830_decrypt (sboxes_of sb) k) (blocks 8 (sub 8 32 w))) /\
    (ret = 1%Z \/ ret = 0%Z) /\ (ret = 1%Z <-> sub 40 4 w = cek_mac (sboxes_of sb) k (sub 0 8 w) cek).
Proof.
  intros sb c kek w S R Hk Lw Bw. unfold keyUnwrapCryptoPro. 
  destruct (diversified sb c kek w S R Hk ltac:(lia)) as (E & K & Lk). destruct (keyDiversifyCryptoPro _ _ _) as [g k]. cbn [fst snd] in *.
  change (sub 0 8 w) with (firstn 8 w). rewrite <- E. clear E.
  assert (D : gost_dec (gost_key g k) (skipn 8 w) 4 = concat (map (rfc5830_decrypt (sboxes_of sb) k) (blocks 8 (sub 8 32 w)))).
  { assert (F : forall h n m m', firstn (8 * n) m = firstn (8 * n) m' -> gost_dec h m n = gost_dec h m' n).
    { intros h. induction n as [|n IH]; intros m m' F; [reflexivity|]. cbn [gost_dec].
      assert (F1 : firstn 8 m = firstn 8 m').
      { replace 8%nat with (Nat.min 8 (8 * Datatypes.S n)) by lia. rewrite <- !firstn_firstn, F. reflexivity. }
      rewrite F1. f_equal. apply IH. replace (8 * Datatypes.S n)%nat with (8 + 8 * n)%nat in F by lia.
      rewrite !firstn_skipn_comm. rewrite F. reflexivity. }
    rewrite (F _ 4%nat (skipn 8 w) (sub 8 32 w)) by (unfold sub; rewrite firstn_firstn; reflexivity).
    rewrite gost_dec4 by (apply sub_length; lia). f_equal. apply map_ext. intros b.
    destruct K as (_ & T & Kl & _). apply gostdecrypt_spec; auto. }
  split; [exact D|]. set (cek := gost_dec _ _ 4) in *. clearbody cek.
  assert (M : gost_mac_iv (gost_key g k) 32 (firstn 8 w) cek = cek_mac (sboxes_of sb) k (firstn 8 w) cek).
  { destruct K as (_ & T & Kl & _). rewrite (gost_mac_iv_spec _ sb k) by auto. change 32 with (8 * 4). rewrite get_mac_whole. reflexivity. }
  rewrite M. destruct (eqbl _ _) eqn:Q.
  - apply eqbl_eq in Q. split; [auto|]. split; intros _; auto.
  - split; [auto|]. split; intros H; [discriminate H|]. apply eqbl_neq in Q. congruence.
Qed.
Print Assumptions C32_unwrap_accepts_iff_mac_matches.
(** Round trip, and every alteration of the four MAC bytes is rejected. *)
Theorem C32_unwrap_wrap :
  forall sb c1 c2 kek ukm cek,
    subst_ok sb -> rng_ok (g_rng c1) -> rng_ok (g_rng c2) -> key32 kek -> ukm8 ukm -> key32 cek ->
    let w := snd (keyWrapCryptoPro (gost_init c1 sb) kek ukm cek) in
    length w = 44%nat /\
    keyUnwrapCryptoPro (gost_init c2 sb) kek w = (1%Z, cek) /\
    (forall mac, length mac = 4%nat -> bytes mac -> mac <> skipn 40 w ->
       fst (keyUnwrapCryptoPro (gost_init c2 sb) kek (firstn 40 w ++ mac)) = 0%Z).
Proof.
  intros sb c1 c2 kek ukm cek S R1 R2 Hk Hu Hc w.
  assert (Ew : w = wrap (sboxes_of sb) kek ukm cek) by (apply C32_wrap_refines_rfc4357; auto). clearbody w. subst w.
  destruct Hu as [Lu Bu]. destruct Hc as [Lc Bc]. pose proof Hk as [Lk Bk].
  unfold wrap. set (k := diversify (sboxes_of sb) kek ukm). set (S' := sboxes_of sb) in *.
  set (e := concat (map (rfc5830_encrypt S' k) (blocks 8 cek))). set (t := cek_mac S' k ukm cek).
  destruct (diversified sb c1 kek ukm S R1 Hk ltac:(lia)) as (Ed & K & _). cbv zeta in *. rewrite (firstn_all2 ukm) in Ed by lia.
  rewrite Ed in K. fold S' k in K. set (g := fst (keyDiversifyCryptoPro (gost_init c1 sb) kek ukm)) in *. clearbody g. clear Ed.
  assert (Ee : e = gost_enc (gost_key g k) cek 4) by (symmetry; apply (gost_enc_blocks sb k _ 4 K); exact Lc).
  assert (Le : length e = 32%nat) by (rewrite Ee; apply gost_enc_length).
  assert (Be : bytes e) by (rewrite Ee; apply gost_enc_bytes).
  assert (Dd : concat (map (rfc5830_decrypt S' k) (blocks 8 e)) = cek).
  { rewrite <- (ecb_roundtrip (gost_key g k) (gost_key g k) 4 cek) by (try apply gsim_refl; auto). rewrite <- Ee, gost_dec4 by exact Le. f_equal. apply map_ext.
    intros b. symmetry. destruct K as (_ & T & Kl & _). apply gostdecrypt_spec; auto. }
  assert (Lt : length t = 4%nat /\ bytes t).
  { destruct K as (_ & T & Kl & _).
    assert (Et : t = firstn 4 (fold_left (mac_block (gost_key g k)) (blocks 8 (mac_message cek)) ukm)).
    { unfold t, cek_mac, rfc5830_mac_state. rewrite (fold_left_gsim_mac _ sb k) by auto. reflexivity. }
    set (st := fold_left _ _ _) in Et.
    assert (Ls : length st = 8%nat /\ bytes st).
    { unfold st. generalize (gost_key g k). clearbody k. generalize (blocks 8 (mac_message cek)). intros l h. clear -Lu Bu. revert ukm Lu Bu.
      induction l as [|b l IH]; intros u Lu Bu; cbn [fold_left]; [auto|]. apply IH; [apply mac_block_length|apply mac_block_bytes]. }
    rewrite Et. split; [rewrite firstn_length; lia|apply bytes_firstn; apply Ls]. }
  destruct Lt as [Lt Bt].
  assert (Parts : forall m, length m = 4%nat -> sub 0 8 (ukm ++ e ++ m) = ukm /\ sub 8 32 (ukm ++ e ++ m) = e /\ sub 40 4 (ukm ++ e ++ m) = m).
  { intros m Lm. split; [|split].
    - unfold sub. cbn [skipn]. apply firstn_app_exact. exact Lu.
    - unfold sub. rewrite skipn_app_exact by exact Lu. apply firstn_app_exact. exact Le.
    - unfold sub. rewrite app_assoc. rewrite skipn_app_exact by (rewrite app_length; lia). apply firstn_all2. lia. }
  assert (U : forall m, length m = 4%nat -> bytes m -> let r := keyUnwrapCryptoPro (gost_init c2 sb) kek (ukm ++ e ++ m) in
     snd r = cek /\ (fst r = 1%Z \/ fst r = 0%Z) /\ (fst r = 1%Z <-> m = t)).
  { intros m Lm Bm. cbv zeta. pose proof (C32_unwrap_accepts_iff_mac_matches sb c2 kek (ukm ++ e ++ m) S R2 Hk) as X.
    specialize (X ltac:(rewrite !app_length; lia) ltac:(apply bytes_app; [|apply bytes_app]; assumption)).
    destruct (keyUnwrapCryptoPro _ _ _) as [r ck]. cbv zeta in X. destruct (Parts m Lm) as (P1 & P2 & P3). rewrite P1, P2, P3 in X. fold S' in X. fold k in X.
    rewrite Dd in X. destruct X as (X1 & X2 & X3). cbn [fst snd]. subst ck. auto. }
  split; [rewrite !app_length; lia|]. split.
  - destruct (U t Lt Bt) as (U1 & _ & U3). destruct (keyUnwrapCryptoPro _ _ _) as [r ck]. cbn [fst snd] in *. subst ck. f_equal. apply U3. reflexivity.
  - intros mac Lm Bm NE.
    assert (A1 : firstn 40 (ukm ++ e ++ t) = ukm ++ e) by (rewrite app_assoc; apply firstn_app_exact; rewrite app_length; lia).
    assert (A2 : skipn 40 (ukm ++ e ++ t) = t) by (rewrite app_assoc; apply skipn_app_exact; rewrite app_length; lia).
    rewrite A1, <- app_assoc. rewrite A2 in NE. destruct (U mac Lm Bm) as (_ & [U2|U2] & U3); [|exact U2]. exfalso. apply NE. apply U3. exact U2.
Qed.
Print Assumptions C32_unwrap_wrap.
(** The hypotheses are met, and a wrong UKM or a wrong KEK is noticed here. *)
Example C32_example :
  let g := gost_init ctx0 Gost28147_CryptoProParamSetA in
  let ukm := hex "0123456789abcd80" in let cek := rev kdemo in
  let w := snd (keyWrapCryptoPro g kdemo ukm cek) in
  key32 kdemo /\ ukm8 ukm /\ key32 cek /\
  keyUnwrapCryptoPro g kdemo w = (1%Z, cek) /\ fst (keyUnwrapCryptoPro g cek w) = 0%Z /\
  fst (keyUnwrapCryptoPro g kdemo (0 :: tl w ++ nil)) = 0%Z.
Proof.
  split; [split; [reflexivity|apply bytes_forallb; reflexivity]|]. split; [split; [reflexivity|apply bytes_forallb; reflexivity]|].
  split; [split; [reflexivity|apply bytes_forallb; reflexivity]|]. vm_compute. repeat split.
Qed.
