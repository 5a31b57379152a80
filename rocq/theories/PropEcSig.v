(** Property C39: the packed signature, and C37/C38 through EVP_PKEY_sign and EVP_PKEY_verify. *)
From Coq Require Import ZArith List Bool Lia Znumtheory.
From Verif Require Import Bytes BytesProofs EcLadderModel EcSpec EcLadderProofs EcModel EcProofs ToyGroup PropEc.
Import ListNotations.
Local Open Scope Z_scope.

(** Specification: a number as [n] bytes, highest first. *)
Definition be_bytes (n : nat) (x : Z) : list N := n2be n (Z.to_N x).

Lemma size_bound n : (Z.abs_N n < 256 ^ N.of_nat (num_bytes n))%N.
Proof.
  unfold num_bytes. rewrite N2Nat.id. change 256%N with (2 ^ 8)%N. rewrite <- N.pow_mul_r.
  eapply N.lt_le_trans; [apply N.size_gt|]. apply N.pow_le_mono_r; [lia|].
  pose proof (N.div_mod (N.size (Z.abs_N n) + 7) 8 ltac:(lia)). pose proof (N.mod_lt (N.size (Z.abs_N n) + 7) 8 ltac:(lia)). lia.
Qed.
Lemma size_le n len : (num_bytes n <= len)%nat <-> (Z.abs_N n < 256 ^ N.of_nat len)%N.
Proof.
  split; intros H.
  - eapply N.lt_le_trans; [apply size_bound|]. apply N.pow_le_mono_r; lia.
  - unfold num_bytes. destruct (N.eq_dec (Z.abs_N n) 0) as [E|E].
    + rewrite E. cbn. lia.
    + rewrite N.size_log2 by exact E. change 256%N with (2 ^ 8)%N in H. rewrite <- N.pow_mul_r in H.
      apply N.log2_lt_pow2 in H; [|lia].
      assert (B : ((N.succ (N.log2 (Z.abs_N n)) + 7) / 8 < N.succ (N.of_nat len))%N)
        by (apply N.div_lt_upper_bound; lia). lia.
Qed.
Lemma be2n_zeros n l : be2n (zeros n ++ l) = be2n l.
Proof.
  unfold be2n. rewrite rev_app_distr, le2n_app.
  assert (E : le2n (rev (zeros n)) = 0%N).
  { assert (F : forall l, Forall (fun x => x = 0%N) l -> le2n l = 0%N).
    { induction 1 as [|x l' -> F IH]; [reflexivity|]. cbn [le2n]. rewrite IH. reflexivity. }
    apply F. apply Forall_rev. unfold zeros. induction n; cbn [repeat]; constructor; auto. }
  rewrite E. lia.
Qed.
Lemma pad_be n k x : (k <= n)%nat -> (x < 256 ^ N.of_nat k)%N -> zeros (n - k) ++ n2be k x = n2be n x.
Proof.
  intros H B. apply be2n_inj.
  - apply bytes_app; [apply bytes_zeros|apply n2be_bytes].
  - apply n2be_bytes.
  - rewrite app_length, zeros_length, !n2be_length. lia.
  - rewrite be2n_zeros, !be2n_n2be. rewrite !N.mod_small; auto.
    eapply N.lt_le_trans; [exact B|]. apply N.pow_le_mono_r; lia.
Qed.
Lemma store_fits n old len : 0 <= n < 256 ^ Z.of_nat len -> store_bignum n old len = (1, be_bytes len n).
Proof.
  intros H. unfold store_bignum. assert (A : Z.abs_N n = Z.to_N n) by (rewrite Zabs2N.abs_N_nonneg; lia).
  assert (B : (num_bytes n <= len)%nat).
  { apply size_le. rewrite A. apply N2Z.inj_lt. rewrite Z2N.id, N2Z.inj_pow, nat_N_Z by lia. apply H. }
  destruct (Nat.ltb_spec len (num_bytes n)); [lia|]. f_equal. rewrite pad_be; [rewrite A; reflexivity|exact B|apply size_bound].
Qed.
Lemma store_big n old len : 256 ^ Z.of_nat len <= n -> store_bignum n old len = (0, old).
Proof.
  intros H. unfold store_bignum. destruct (Nat.ltb_spec len (num_bytes n)) as [|B]; [reflexivity|].
  apply size_le in B. apply N2Z.inj_lt in B. rewrite N2Z.inj_abs_N, N2Z.inj_pow, nat_N_Z in B.
  change (Z.of_N 256) with 256 in B. lia.
Qed.
Lemma zeros_halves n : firstn n (zeros (2 * n)) = zeros n /\ skipn n (zeros (2 * n)) = zeros n.
Proof.
  unfold zeros. replace (2 * n)%nat with (n + n)%nat by lia. rewrite repeat_app. split.
  - apply firstn_app_exact, repeat_length.
  - apply skipn_app_exact, repeat_length.
Qed.

(** The first half is s, the second r, each highest byte first. *)
Theorem C39_packed_layout :
  forall n r s, 0 <= r < 256 ^ Z.of_nat n -> 0 <= s < 256 ^ Z.of_nat n ->
    pack_sign_cp (r, s) n = be_bytes n s ++ be_bytes n r.
Proof. intros n r s Hr Hs. unfold pack_sign_cp. rewrite !store_fits by assumption. reflexivity. Qed.
Print Assumptions C39_packed_layout.

Lemma be_bytes_length n x : length (be_bytes n x) = n. Proof. apply n2be_length. Qed.
Lemma bin_be n x : 0 <= x < 256 ^ Z.of_nat n -> bin2bn (be_bytes n x) = x.
Proof.
  intros H. unfold bin2bn, be_bytes. rewrite be2n_n2be, N.mod_small.
  - apply Z2N.id. lia.
  - apply N2Z.inj_lt. rewrite Z2N.id, N2Z.inj_pow, nat_N_Z by lia. apply H.
Qed.
Lemma unpack_app n a b : length a = n -> length b = n -> unpack_cp_signature (a ++ b) = (bin2bn b, bin2bn a).
Proof.
  intros A B. unfold unpack_cp_signature. rewrite app_length, A, B.
  replace ((n + n) / 2)%nat with n by (replace (n + n)%nat with (n * 2)%nat by lia; rewrite Nat.div_mul; lia).
  rewrite firstn_app_exact, skipn_app_exact by assumption. rewrite firstn_all2 by lia. reflexivity.
Qed.

Theorem C39_unpack_of_packed :
  forall n r s, 0 <= r < 256 ^ Z.of_nat n -> 0 <= s < 256 ^ Z.of_nat n ->
    unpack_cp_signature (pack_sign_cp (r, s) n) = (r, s) /\ length (pack_sign_cp (r, s) n) = (2 * n)%nat.
Proof.
  intros n r s Hr Hs. rewrite C39_packed_layout by assumption. split.
  - rewrite (unpack_app n) by apply be_bytes_length. rewrite !bin_be by assumption. reflexivity.
  - rewrite app_length, !be_bytes_length. lia.
Qed.
Print Assumptions C39_unpack_of_packed.

(** Of the proper length, every byte string is the packing of what it unpacks to: no two such strings
    carry the same signature. *)
Theorem C39_pack_of_unpacked :
  forall n sig, bytes sig -> length sig = (2 * n)%nat -> pack_sign_cp (unpack_cp_signature sig) n = sig.
Proof.
  intros n sig B Len. rewrite <- (firstn_skipn n sig) at 1. rewrite <- (firstn_skipn n sig) in B. apply Forall_app in B as [B1 B2].
  assert (L1 : length (firstn n sig) = n) by (rewrite firstn_length; lia).
  assert (L2 : length (skipn n sig) = n) by (rewrite skipn_length; lia).
  rewrite (unpack_app n) by assumption.
  assert (R : forall l, bytes l -> length l = n -> 0 <= bin2bn l < 256 ^ Z.of_nat n /\ be_bytes n (bin2bn l) = l).
  { intros l Bl Ll. unfold bin2bn, be_bytes. rewrite N2Z.id, n2be_be2n by assumption. split; [|reflexivity].
    pose proof (be2n_lt l Bl) as H. rewrite Ll in H. apply N2Z.inj_lt in H. rewrite N2Z.inj_pow, nat_N_Z in H.
    split; [apply N2Z.is_nonneg|exact H]. }
  destruct (R _ B1 L1) as [R1 E1]. destruct (R _ B2 L2) as [R2 E2].
  rewrite C39_packed_layout, E1, E2 by assumption. apply firstn_skipn.
Qed.
Print Assumptions C39_pack_of_unpacked.

(** Defects: the length is not checked, so other lengths carry the same signature: a byte appended to an
    even-length one, or a zero put before both halves. *)
Theorem C39_other_lengths_accepted_refuted :
  forall C key tbs n sig b, length sig = (2 * n)%nat ->
    pkey_gost_ec_cp_verify C key (Some (sig ++ [b])) tbs = pkey_gost_ec_cp_verify C key (Some sig) tbs /\
    pkey_gost_ec_cp_verify C key (Some (0%N :: firstn n sig ++ 0%N :: skipn n sig)) tbs
    = pkey_gost_ec_cp_verify C key (Some sig) tbs.
Proof.
  intros C key tbs n sig b Len.
  assert (L1 : length (firstn n sig) = n) by (rewrite firstn_length; lia).
  assert (L2 : length (skipn n sig) = n) by (rewrite skipn_length; lia).
  assert (E1 : unpack_cp_signature (sig ++ [b]) = unpack_cp_signature sig).
  { unfold unpack_cp_signature. rewrite app_length, Len. cbn [length].
    replace ((2 * n + 1) / 2)%nat with n by (apply (Nat.div_unique (2 * n + 1) 2 n 1); lia).
    replace ((2 * n) / 2)%nat with n by (rewrite Nat.mul_comm, Nat.div_mul; lia).
    rewrite firstn_app, skipn_app, Len. replace (n - 2 * n)%nat with 0%nat by lia. cbn [firstn skipn]. rewrite app_nil_r.
    rewrite firstn_app, L2, Nat.sub_diag. cbn [firstn]. rewrite app_nil_r. reflexivity. }
  assert (E2 : unpack_cp_signature (0%N :: firstn n sig ++ 0%N :: skipn n sig) = unpack_cp_signature sig).
  { rewrite <- (firstn_skipn n sig) at 3. rewrite (unpack_app n) by assumption.
    change (0%N :: firstn n sig ++ 0%N :: skipn n sig) with ((0%N :: firstn n sig) ++ (0%N :: skipn n sig)).
    rewrite (unpack_app (S n)) by (cbn [length]; lia). unfold bin2bn.
    change (0%N :: skipn n sig) with (zeros 1 ++ skipn n sig). change (0%N :: firstn n sig) with (zeros 1 ++ firstn n sig).
    rewrite !be2n_zeros. reflexivity. }
  unfold pkey_gost_ec_cp_verify. rewrite E1, E2. auto.
Qed.
Print Assumptions C39_other_lengths_accepted_refuted.

(** The algorithm of a key and its curve are independent in this code.  If a 256-bit algorithm is used with
    a 512-bit curve, a part of 2^256 or more is silently replaced by zero: the call succeeds and the signature
    it returns is never valid. *)
Theorem C39_oversized_part_refuted :
  forall C a key tbs draws r s, a = A2001 \/ a = A2001DH \/ a = A2012_256 ->
    gost_ec_sign C tbs key draws = Returns (Some (r, s)) -> 2 ^ 256 <= r ->
    exists sig, pkey_gost_ec_cp_sign C a key tbs draws = Returns (Some sig) /\ length sig = 64%nat /\
      pkey_gost_ec_cp_verify C (Some key) (Some sig) tbs = Returns 0.
Proof.
  intros C a key tbs draws r s Ha H B. exists (pack_sign_cp (r, s) 32).
  assert (E : sig_size a = Some 64%nat) by (destruct Ha as [-> |[-> | ->]]; reflexivity).
  unfold pkey_gost_ec_cp_sign. rewrite E, H. split; [reflexivity|].
  assert (L : length (snd (store_bignum s (firstn 32 (zeros (2 * 32))) 32)) = 32%nat).
  { unfold store_bignum. destruct (Nat.ltb_spec 32 (num_bytes s)); cbn [snd].
    - rewrite (proj1 (zeros_halves 32)). apply zeros_length.
    - rewrite app_length, zeros_length, n2be_length. lia. }
  unfold pack_sign_cp. rewrite (store_big r) by exact B. cbn [snd]. rewrite (proj2 (zeros_halves 32)). split.
  - rewrite app_length, L, zeros_length. reflexivity.
  - cbn [pkey_gost_ec_cp_verify]. rewrite (unpack_app 32) by (try exact L; apply zeros_length).
    replace (bin2bn (zeros 32)) with 0 by reflexivity. apply C38_bad_parts_rejected. lia.
Qed.
Print Assumptions C39_oversized_part_refuted.

(** * Through the EVP_PKEY calls *)
(** Algorithms and the orders they are meant for. *)
Definition alg_fits (a : pkey_alg) (q : Z) : Prop :=
  match a with
  | A2001 | A2001DH | A2012_256 => q <= 2 ^ 256
  | A2012_512 => q <= 2 ^ 512
  | A_other => False
  end.
Definition part_size (a : pkey_alg) : nat := match a with A2012_512 => 64 | _ => 32 end.
Lemma alg_fits_pow a q : alg_fits a q -> q <= 256 ^ Z.of_nat (part_size a) /\ sig_size a = Some (2 * part_size a)%nat.
Proof. destruct a; cbn [alg_fits]; intros H; try contradiction; split; try reflexivity; exact H. Qed.

Theorem C37_evp_sign_then_verify :
  forall C, ec_laws C -> forall a tbs d draws sig, alg_fits a (order C) -> draws_ok C draws -> d mod order C <> 0 ->
    let key := mk_key (Some d) (Some (smul d (gen C))) in
    pkey_gost_ec_cp_sign C a key tbs draws = Returns (Some sig) ->
    pkey_gost_ec_cp_sign_len a = Some (length sig) /\
    pkey_gost_ec_cp_verify C (Some key) (Some sig) tbs = Returns 1.
Proof.
  intros C L a tbs d draws sig A D N key H. destruct (alg_fits_pow a _ A) as [Q S].
  unfold pkey_gost_ec_cp_sign, pkey_gost_ec_cp_sign_len in *. rewrite S in *.
  destruct (gost_ec_sign C tbs key draws) as [[[r s]|]|] eqn:E; try discriminate H.
  assert (Hf : (2 * part_size a / 2)%nat = part_size a) by (rewrite (Nat.mul_comm 2), Nat.div_mul; lia).
  rewrite Hf in H. assert (Hs : sig = pack_sign_cp (r, s) (part_size a)) by congruence. clear H Hf. subst sig.
  assert (V : gost_ec_verify C tbs (r, s) key = Returns 1) by exact (C37_sign_then_verify C L tbs d draws r s D N E).
  assert (R : 0 < r < order C /\ 0 < s < order C).
  { assert (X : (0 < r < order C /\ 0 < s < order C) \/ ~ (0 < r < order C /\ 0 < s < order C)) by lia.
    destruct X as [X|X]; [exact X|]. rewrite (verify_range C tbs key r s X) in V. discriminate V. }
  destruct (C39_unpack_of_packed (part_size a) r s) as [U Len]; try lia.
  split; [rewrite Len; f_equal; lia|]. cbn [pkey_gost_ec_cp_verify]. rewrite U. exact V.
Qed.
Print Assumptions C37_evp_sign_then_verify.

(** On byte strings of the algorithm's length: accepted exactly if the two halves are an accepted pair. *)
Theorem C38_evp_verify_iff_accepted :
  forall C, ec_laws C -> forall n tbs Q priv s r, (length tbs = 32 \/ length tbs = 64)%nat -> Q <> pzero C ->
    length s = n -> length r = n ->
    (pkey_gost_ec_cp_verify C (Some (mk_key priv (Some Q))) (Some (s ++ r)) tbs = Returns 1 <->
     accepted C Q (digest_number tbs) (Z.of_N (be2n r)) (Z.of_N (be2n s))).
Proof.
  intros C L n tbs Q priv s r D N Ls Lr. cbn [pkey_gost_ec_cp_verify]. rewrite (unpack_app n) by assumption.
  apply C38_verify_iff_accepted; auto.
Qed.
Print Assumptions C38_evp_verify_iff_accepted.

Example C39_nontrivial :
  pack_sign_cp (3, 258) 32 = zeros 30 ++ [1; 2]%N ++ zeros 31 ++ [3]%N /\
  unpack_cp_signature (zeros 30 ++ [1; 2]%N ++ zeros 31 ++ [3]%N) = (3, 258) /\
  match pkey_gost_ec_cp_sign (toy Tc256_A true) A2012_256 (toy_key Tc256_A true 7) toy_digest [2] with
  | Returns (Some sig) => pkey_gost_ec_cp_verify (toy Tc256_A true) (Some (toy_key Tc256_A true 7)) (Some sig) toy_digest = Returns 1
  | _ => False
  end.
Proof. split; [vm_compute; reflexivity|]. split; vm_compute; reflexivity. Qed.
