(** Properties C34 and C35: the key derivation functions of gost_keyexpimp.c. *)
From Coq Require Import String.
From Verif Require Import Bytes BytesProofs StreebogTables StreebogModel StreebogSpec StreebogProofs PropStreebog MagmaProofs
  KdfModel KdfSpec KdfProofs.
From Coq Require Import List Lia NArith.
Open Scope N_scope.
Opaque hmac256.

Lemma kdf_block_spec h key label seed len_bytes R i :
  bytes key -> bytes label -> bytes seed -> bytes len_bytes -> (R <= 4)%nat ->
  kdf_block h key label seed len_bytes R i = hmac256 key (n2be R (w32 i) ++ label ++ [0] ++ seed ++ len_bytes).
Proof.
  intros Bk Bl Bs Bn HR. unfold kdf_block. rewrite mem_be32, skipn_n2be by exact HR. rewrite HMAC_spec; auto.
  - cbn [concat]. rewrite app_nil_r. reflexivity.
  - repeat (constructor; auto). apply n2be_bytes.
Qed.
Lemma to_int_small x : x < 2 ^ 31 -> to_int x = Z.of_N x.
Proof.
  intros H. unfold to_int. rewrite w32_small by (change (2 ^ 31) with 2147483648 in H; lia).
  replace (Z.of_N x <? 2 ^ 31)%Z with true; [reflexivity|]. symmetry. apply Z.ltb_lt.
  change (2 ^ 31) with 2147483648 in H. change (2 ^ 31)%Z with 2147483648%Z. lia.
Qed.
(** What the function computes for every length (below 2^36, where the number of blocks fits an int). *)
Lemma kdf_eq h len key label seed R : len <> 0 -> len mod 32 = 0 -> len < 2 ^ 36 -> w32 (8 * len) <> 0 -> (R <= 4)%nat ->
  bytes key -> bytes label -> bytes seed ->
  gost_kdftree2012_256 h len key label seed R =
  Kdf_ok (concat (map (fun i => hmac256 key (n2be R (w32 (N.of_nat i)) ++ label ++ [0] ++ seed ++ min_be (w32 (8 * len))))
                      (seq 1 (N.to_nat (len / 32))))).
Proof.
  intros H0 Hm Hl Hw HR Bk Bl Bs. unfold gost_kdftree2012_256.
  rewrite (N.mul_comm len 8). set (v := w32 (8 * len)) in *. assert (Hv : v < 4294967296) by apply w32_lt.
  replace (len =? 0) with false by (symmetry; apply N.eqb_neq; auto). rewrite Hm. cbn [N.eqb negb orb]. cbv zeta.
  rewrite mem_be32, strip_n2be by (change (256 ^ N.of_nat 4) with 4294967296; lia).
  replace (4 <? R)%nat with false by (symmetry; apply Nat.ltb_ge; auto).
  rewrite to_int_small by (apply N.div_lt_upper_bound; [discriminate|exact Hl]).
  rewrite <- Z_N_nat, N2Z.id. do 2 f_equal. apply map_ext. intro i. rewrite kdf_block_spec; auto.
  apply n2be_bytes.
Qed.

(** ** C34 *)
(** The function succeeds exactly for the positive multiples of 32 ... *)
Theorem C34_length_rule :
  forall h len key label seed R, len < 2 ^ 29 -> (R <= 4)%nat ->
    (exists out, gost_kdftree2012_256 h len key label seed R = Kdf_ok out) <-> (len <> 0 /\ len mod 32 = 0).
Proof.
  intros h len key label seed R Hl HR. unfold gost_kdftree2012_256.
  change (2 ^ 29) with 536870912 in Hl.
  destruct (N.eqb_spec len 0) as [H0|H0]; cbn [orb].
  { split; [intros [o H]; discriminate H|intros [H _]; contradiction]. }
  destruct (N.eqb_spec (len mod 32) 0) as [Hm|Hm]; cbn [orb negb].
  - split; [auto|intros _]. rewrite mem_be32.
    rewrite w32_small by lia.
    rewrite strip_n2be by (change (256 ^ N.of_nat 4) with 4294967296; lia).
    replace (4 <? R)%nat with false by (symmetry; apply Nat.ltb_ge; auto). eexists. reflexivity.
  - split; [intros [o H]; discriminate H|intros [_ H]; contradiction].
Qed.
(** ... and then the output is KDF_TREE of the standard: on every host and build, for every key, label
    and seed, for lengths below 2^29 bytes (2^32 bits) and a counter of up to four bytes. *)
Theorem C34_kdftree_is_KDF_TREE :
  forall h len key label seed R,
    0 < len < 2 ^ 29 -> len mod 32 = 0 -> (R <= 4)%nat -> bytes key -> bytes label -> bytes seed ->
    gost_kdftree2012_256 h len key label seed R = Kdf_ok (kdf_tree (N.to_nat (len / 32)) key label seed R).
Proof.
  intros h len key label seed R Hl Hm HR Bk Bl Bs.
  assert (Hw : w32 (8 * len) = 8 * len) by (apply w32_small; change (2 ^ 29) with 536870912 in Hl; lia).
  change (2 ^ 29) with 536870912 in Hl.
  assert (H36 : len < 2 ^ 36) by (change (2 ^ 36) with 68719476736; lia).
  rewrite kdf_eq by (auto; rewrite ?Hw; lia).
  rewrite Hw. unfold kdf_tree. rewrite N2Nat.id.
  assert (E : 256 * (len / 32) = 8 * len).
  { pose proof (N.div_mod len 32 ltac:(discriminate)) as D. rewrite Hm in D. lia. }
  rewrite E. f_equal. f_equal. apply map_ext_in. intros i Hi. apply in_seq in Hi.
  assert (Hi32 : N.of_nat i <= len / 32) by lia.
  assert (len / 32 < 4294967296) by (apply N.div_lt_upper_bound; [discriminate|lia]).
  rewrite w32_small by lia. reflexivity.
Qed.
(** The output has the requested length; block [i] (from 1) is the HMAC of counter [i]. *)
Theorem C34_output_blocks :
  forall h len key label seed R out,
    0 < len < 2 ^ 29 -> len mod 32 = 0 -> (R <= 4)%nat -> bytes key -> bytes label -> bytes seed ->
    gost_kdftree2012_256 h len key label seed R = Kdf_ok out ->
    N.of_nat (length out) = len /\ bytes out /\
    forall i, (1 <= i <= N.to_nat (len / 32))%nat ->
      sub (32 * (i - 1)) 32 out = hmac256 key (n2be R (N.of_nat i) ++ label ++ [0] ++ seed ++ min_be (8 * len)).
Proof.
  intros h len key label seed R out Hl Hm HR Bk Bl Bs E. rewrite C34_kdftree_is_KDF_TREE in E by auto.
  injection E as <-. unfold kdf_tree. rewrite N2Nat.id.
  assert (E : 256 * (len / 32) = 8 * len /\ 32 * (len / 32) = len).
  { pose proof (N.div_mod len 32 ltac:(discriminate)) as D. rewrite Hm in D. lia. }
  destruct E as [E1 E2]. rewrite E1.
  set (f := fun i => hmac256 key (n2be R (N.of_nat i) ++ label ++ [0] ++ seed ++ min_be (8 * len))).
  assert (Hf : forall i, length (f i) = 32%nat /\ bytes (f i)).
  { intro i. unfold f. apply hmac256_ok; [exact Bk|]. apply bytes_app; [apply n2be_bytes|]. apply bytes_app; [exact Bl|].
    apply bytes_app; [repeat constructor|]. apply bytes_app; [exact Bs|apply n2be_bytes]. }
  assert (Ef : forall i, f i = hmac256 key (n2be R (N.of_nat i) ++ label ++ [0] ++ seed ++ min_be (8 * len))) by reflexivity.
  clearbody f. generalize (N.to_nat (len / 32)), (N2Nat.id (len / 32)). intros n En.
  assert (G : forall s n, length (concat (map f (seq s n))) = (32 * n)%nat /\ bytes (concat (map f (seq s n))) /\
    forall i, (i < n)%nat -> sub (32 * i) 32 (concat (map f (seq s n))) = f (s + i)%nat).
  { clear - Hf. intros s n. revert s. induction n as [|n IH]; intro s; cbn [seq map concat]; [repeat split; [constructor|intros; lia]|].
    destruct (IH (S s)) as (G1 & G2 & G3). destruct (Hf s) as [L B]. rewrite app_length, L, G1.
    split; [lia|]. split; [apply bytes_app; auto|]. intros [|i] Hi.
    - rewrite Nat.mul_0_r, Nat.add_0_r. unfold sub. cbn [skipn]. apply firstn_app_exact. exact L.
    - unfold sub. replace (32 * S i)%nat with (32 + 32 * i)%nat by lia. rewrite <- skipn_skipn, skipn_app_exact by exact L.
      rewrite <- Nat.add_succ_comm. apply G3. lia. }
  destruct (G 1%nat n) as (G1 & G2 & G3). split; [rewrite G1; lia|]. split; [exact G2|].
  intros i Hi. rewrite <- Ef, G3 by lia. f_equal. lia.
Qed.
(** As long as the number of blocks is below 256^R all the counters are distinct ... *)
Theorem C34_counters_distinct :
  forall R i j, N.of_nat i < 256 ^ N.of_nat R -> N.of_nat j < 256 ^ N.of_nat R ->
    n2be R (N.of_nat i) = n2be R (N.of_nat j) -> i = j.
Proof.
  intros R i j Hi Hj E. apply (f_equal be2n) in E. rewrite !be2n_n2be, !N.mod_small in E by auto. lia.
Qed.
(** ... but the function does not check that: with a counter of [R] bytes, block 256^R + 1 repeats
    block 1, so the derived key material is periodic. *)
Theorem C34_counter_wrap_refuted :
  forall h len key label seed R out,
    (R <= 2)%nat -> 32 * (256 ^ N.of_nat R + 1) <= len < 2 ^ 29 -> len mod 32 = 0 -> bytes key -> bytes label -> bytes seed ->
    gost_kdftree2012_256 h len key label seed R = Kdf_ok out ->
    sub (32 * N.to_nat (256 ^ N.of_nat R)) 32 out = firstn 32 out.
Proof.
  intros h len key label seed R out HR Hl Hm Bk Bl Bs E.
  assert (Hp : 256 ^ N.of_nat R <= 65536) by (destruct R as [|[|[|R]]]; cbn; lia).
  assert (Hp1 : 0 < 256 ^ N.of_nat R) by (apply N.neq_0_lt_0, N.pow_nonzero; discriminate).
  assert (Hl0 : 0 < len) by lia.
  assert (HR4 : (R <= 4)%nat) by lia.
  destruct (C34_output_blocks h len key label seed R out (conj Hl0 (proj2 Hl)) Hm HR4 Bk Bl Bs E) as (_ & _ & G).
  assert (D : 256 ^ N.of_nat R + 1 <= len / 32) by (apply N.div_le_lower_bound; [discriminate|apply Hl]).
  pose proof (G (S (N.to_nat (256 ^ N.of_nat R))) ltac:(lia)) as G2.
  pose proof (G 1%nat ltac:(lia)) as G1.
  rewrite Nat.sub_succ, Nat.sub_0_r in G2. rewrite G2. change (32 * (1 - 1))%nat with 0%nat in G1. unfold sub in G1 at 1. cbn [skipn] in G1. rewrite G1.
  f_equal. f_equal. rewrite Nat2N.inj_succ, N2Nat.id.
  unfold n2be. f_equal. rewrite <- (n2le_mod R (N.succ (256 ^ N.of_nat R))), <- (n2le_mod R (N.of_nat 1)).
  f_equal. replace (N.succ (256 ^ N.of_nat R)) with (N.of_nat 1 + 1 * 256 ^ N.of_nat R) by lia.
  rewrite N.mod_add by lia. reflexivity.
Qed.
(** From 2^29 bytes on the length field (32 bits) wraps.  A length which is a multiple of 2^29 makes
    the function read past the length object ... *)
Theorem C34_length_2_29_refuted :
  forall h m key label seed R, 0 < m -> gost_kdftree2012_256 h (2 ^ 29 * m) key label seed R = Kdf_undefined.
Proof.
  intros h m key label seed R Hm. unfold gost_kdftree2012_256.
  replace (2 ^ 29 * m =? 0) with false by (symmetry; apply N.eqb_neq; lia).
  replace ((2 ^ 29 * m) mod 32) with 0.
  2:{ symmetry. apply N.mod_divide; [discriminate|]. exists (2 ^ 24 * m). change (2 ^ 29) with (2 ^ 24 * 32). lia. }
  cbn [N.eqb negb orb]. cbv zeta. rewrite mem_be32.
  replace (w32 (2 ^ 29 * m * 8)) with 0; [reflexivity|].
  rewrite w32_mod. symmetry. apply N.mod_divide; [discriminate|]. exists m. change (2 ^ 29) with 536870912. lia.
Qed.
(** ... and for other lengths the first blocks no longer depend on the length: they are those of the length
    reduced modulo 2^29. *)
Theorem C34_length_field_wraps_refuted :
  forall h len key label seed R out1 out2,
    0 < len < 2 ^ 29 -> len mod 32 = 0 -> (R <= 4)%nat -> bytes key -> bytes label -> bytes seed ->
    gost_kdftree2012_256 h len key label seed R = Kdf_ok out1 ->
    gost_kdftree2012_256 h (2 ^ 29 + len) key label seed R = Kdf_ok out2 ->
    firstn (length out1) out2 = out1.
Proof.
  intros h len key label seed R out1 out2 Hl Hm HR Bk Bl Bs E1 E2.
  change (2 ^ 29) with 536870912 in *.
  assert (Hw : w32 (8 * len) = 8 * len) by (apply w32_small; lia).
  assert (Hw2 : w32 (8 * (536870912 + len)) = 8 * len).
  { rewrite w32_mod. replace (8 * (536870912 + len)) with (8 * len + 1 * 4294967296) by lia.
    rewrite N.mod_add by discriminate. apply N.mod_small. lia. }
  assert (Hm2 : (536870912 + len) mod 32 = 0).
  { replace (536870912 + len) with (len + 16777216 * 32) by lia. rewrite N.mod_add by discriminate. exact Hm. }
  assert (H36 : 536870912 + len < 2 ^ 36) by (change (2 ^ 36) with 68719476736; lia).
  rewrite kdf_eq in E1 by (auto; rewrite ?Hw; lia). rewrite kdf_eq in E2 by (auto; rewrite ?Hw2; lia).
  rewrite Hw in E1. rewrite Hw2 in E2.
  assert (Hd : N.to_nat ((536870912 + len) / 32) = (N.to_nat (len / 32) + N.to_nat 16777216)%nat).
  { replace (536870912 + len) with (len + 16777216 * 32) by lia. rewrite N.div_add by discriminate.
    apply N2Nat.inj_add. }
  rewrite Hd in E2. clear Hd. revert E2. generalize (N.to_nat 16777216). intros q E2. injection E1 as E1. injection E2 as E2. subst out1 out2.
  set (n := N.to_nat (len / 32)). clearbody n. clear. 
  rewrite seq_app, map_app, concat_app. apply firstn_app_exact. reflexivity.
Qed.

(** ** C35 *)
Lemma level_spec h key j seed : bytes key -> bytes (ascii_bytes j) ->
  level h key j seed = Some (divers j key (mem (h_le h) 8 seed)).
Proof.
  intros Bk Bj. unfold level, divers.
  rewrite (C34_kdftree_is_KDF_TREE h 32) by (auto; try reflexivity; try lia; unfold mem; destruct (h_le h); auto using n2le_bytes, n2be_bytes).
  reflexivity.
Qed.
Lemma divers_ok j K D : bytes K -> bytes (ascii_bytes j) -> bytes D -> length (divers j K D) = 32%nat /\ bytes (divers j K D).
Proof.
  intros BK Bj BD. unfold divers, kdf_tree. cbn [seq map concat]. rewrite app_nil_r.
  apply hmac256_ok; [exact BK|]. apply bytes_app; [apply n2be_bytes|]. apply bytes_app; [exact Bj|].
  apply bytes_app; [repeat constructor|]. apply bytes_app; [exact BD|apply n2be_bytes].
Qed.
Lemma lvl_bytes : bytes (ascii_bytes "level1") /\ bytes (ascii_bytes "level2") /\ bytes (ascii_bytes "level3").
Proof. repeat split; apply bytes_forallb; reflexivity. Qed.
Lemma mem_bytes le n v : bytes (mem le n v).
Proof. destruct le; [apply n2le_bytes|apply n2be_bytes]. Qed.
(** The chain of three derivations, with the seeds as they lie in memory. *)
Lemma tlstree_eq h nid c1 c2 c3 key tlsseq : tlstree_masks nid = Some (c1, c2, c3) -> bytes key ->
  let s := tlstree_seq (h_le h) tlsseq in
  gost_tlstree h nid key tlsseq =
  Some (divers "level3" (divers "level2" (divers "level1" (firstn 32 key) (mem (h_le h) 8 (N.land s c1)))
         (mem (h_le h) 8 (N.land s c2))) (mem (h_le h) 8 (N.land s c3))).
Proof.
  intros E Bk. cbv zeta. unfold gost_tlstree. rewrite E. destruct lvl_bytes as (B1 & B2 & B3).
  assert (B0 := bytes_firstn 32 key Bk). cbv zeta. rewrite level_spec by auto.
  set (k1 := divers "level1" _ _). assert (K1 : bytes k1) by (apply divers_ok; auto using mem_bytes). clearbody k1.
  rewrite level_spec by auto.
  set (k2 := divers "level2" _ _). assert (K2 : bytes k2) by (apply divers_ok; auto using mem_bytes). clearbody k2.
  apply level_spec; auto.
Qed.
Lemma tlstree_ok h nid key s out : bytes key -> gost_tlstree h nid key s = Some out -> length out = 32%nat /\ bytes out.
Proof.
  intros Bk E. destruct (tlstree_masks nid) as [[[c1 c2] c3]|] eqn:M.
  - rewrite (tlstree_eq h nid c1 c2 c3 key s M Bk) in E. destruct lvl_bytes as (B1 & B2 & B3).
    assert (X : forall k1, bytes k1 -> bytes (divers "level1" k1 (mem (h_le h) 8 (N.land (tlstree_seq (h_le h) s) c1)))) by (intros; apply divers_ok; auto using mem_bytes).
    specialize (X _ (bytes_firstn 32 key Bk)). set (k1 := divers "level1" _ _) in *. clearbody k1.
    assert (Y : bytes (divers "level2" k1 (mem (h_le h) 8 (N.land (tlstree_seq (h_le h) s) c2)))) by (apply divers_ok; auto using mem_bytes).
    set (k2 := divers "level2" _ _) in *. clearbody k2.
    assert (EQ : divers "level3" k2 (mem (h_le h) 8 (N.land (tlstree_seq (h_le h) s) c3)) = out) by congruence. rewrite <- EQ.
    apply divers_ok; auto using mem_bytes.
  - unfold gost_tlstree in E. rewrite M in E. discriminate E.
Qed.
(** The constants of the suite the cipher belongs to. *)
Definition suite_masks (nid : cipher_nid) : option (N * N * N) :=
  match nid with NID_magma_cbc => Some TLS_MAGMA | NID_grasshopper_cbc => Some TLS_KUZNYECHIK | NID_other => None end.
(** On little-endian hosts gost_tlstree is TLSTREE of RFC 9189, for every 8-byte record number; it
    refuses every other cipher. *)
Theorem C35_tlstree_is_TLSTREE :
  forall h nid key tlsseq, h_le h = true -> length key = 32%nat -> bytes key -> length tlsseq = 8%nat -> bytes tlsseq ->
    gost_tlstree h nid key tlsseq = option_map (fun C => tlstree C key (be2n tlsseq)) (suite_masks nid).
Proof.
  intros h nid key tlsseq Hh Lk Bk Ls Bs.
  assert (G : forall c1 c2 c3 C1 C2 C3, tlstree_masks nid = Some (c1, c2, c3) ->
    C1 = be2n (n2le 8 c1) -> C2 = be2n (n2le 8 c2) -> C3 = be2n (n2le 8 c3) ->
    gost_tlstree h nid key tlsseq = Some (tlstree (C1, C2, C3) key (be2n tlsseq))).
  { intros c1 c2 c3 C1 C2 C3 E H1 H2 H3. rewrite (tlstree_eq h nid c1 c2 c3 key tlsseq E Bk). rewrite Hh. cbn [mem].
    unfold tlstree_seq. rewrite !seed_swap, <- H1, <- H2, <- H3 by auto. unfold tlstree.
    rewrite firstn_all2 by lia. reflexivity. }
  destruct nid; cbn [suite_masks option_map].
  - unfold TLS_MAGMA. apply (G _ _ _ _ _ _ eq_refl); reflexivity.
  - unfold TLS_KUZNYECHIK. apply (G _ _ _ _ _ _ eq_refl); reflexivity.
  - reflexivity.
Qed.
(** On big-endian hosts every seed is byte-reversed: the derived keys are not those of the RFC. *)
Definition tlstree_reversed (C : N * N * N) (K_root : list N) (i : N) : list N :=
  let '(C1, C2, C3) := C in
  divers "level3" (divers "level2" (divers "level1" K_root (rev (n2be 8 (N.land i C1)))) (rev (n2be 8 (N.land i C2)))) (rev (n2be 8 (N.land i C3))).
Theorem C35_big_endian_hosts_refuted :
  forall h nid key tlsseq, h_le h = false -> length key = 32%nat -> bytes key -> length tlsseq = 8%nat -> bytes tlsseq ->
    gost_tlstree h nid key tlsseq = option_map (fun C => tlstree_reversed C key (be2n tlsseq)) (suite_masks nid).
Proof.
  intros h nid key tlsseq Hh Lk Bk Ls Bs.
  assert (G : forall c1 c2 c3 C1 C2 C3, tlstree_masks nid = Some (c1, c2, c3) ->
    C1 = be2n (n2le 8 c1) -> C2 = be2n (n2le 8 c2) -> C3 = be2n (n2le 8 c3) ->
    gost_tlstree h nid key tlsseq = Some (tlstree_reversed (C1, C2, C3) key (be2n tlsseq))).
  { intros c1 c2 c3 C1 C2 C3 E H1 H2 H3. rewrite (tlstree_eq h nid c1 c2 c3 key tlsseq E Bk). rewrite Hh. cbn [mem].
    unfold tlstree_seq. unfold be2n at 1 2 3. rewrite rev_involutive. unfold n2be at 1 2 3.
    rewrite !seed_swap, <- H1, <- H2, <- H3 by auto. unfold tlstree_reversed.
    rewrite firstn_all2 by lia. reflexivity. }
  destruct nid; cbn [suite_masks option_map].
  - unfold TLS_MAGMA. apply (G _ _ _ _ _ _ eq_refl); reflexivity.
  - unfold TLS_KUZNYECHIK. apply (G _ _ _ _ _ _ eq_refl); reflexivity.
  - reflexivity.
Qed.
(** The number of records which share a key: 2^12 (Magma) and 2^6 (Kuznyechik). *)
Lemma land_high b i : i < 2 ^ 64 -> b <= 64 -> N.land i (2 ^ 64 - 2 ^ b) = 2 ^ b * (i / 2 ^ b).
Proof.
  intros Hi Hb. assert (P : 2 ^ b <> 0) by (apply N.pow_nonzero; discriminate).
  assert (E : 2 ^ 64 - 2 ^ b = N.shiftl (N.ones (64 - b)) b).
  { rewrite N.shiftl_mul_pow2, N.ones_equiv. assert (X : 2 ^ 64 = 2 ^ (64 - b) * 2 ^ b) by (rewrite <- N.pow_add_r; f_equal; lia).
    rewrite X. assert (2 ^ (64 - b) <> 0) by (apply N.pow_nonzero; discriminate). nia. }
  rewrite E. apply N.bits_inj. intro j. rewrite N.land_spec. rewrite (N.mul_comm (2 ^ b)).
  rewrite <- N.shiftl_mul_pow2, <- N.shiftr_div_pow2.
  destruct (N.lt_ge_cases j b) as [L|L].
  - rewrite !N.shiftl_spec_low by auto. apply Bool.andb_false_r.
  - rewrite !N.shiftl_spec_high' by auto. rewrite N.shiftr_spec'. replace (j - b + b) with j by lia.
    destruct (N.lt_ge_cases (j - b) (64 - b)) as [L2|L2].
    + rewrite N.ones_spec_low by auto. apply Bool.andb_true_r.
    + replace (N.testbit i j) with false; [reflexivity|]. symmetry.
      destruct (N.eq_dec i 0) as [->|Hz]; [apply N.bits_0|]. apply N.bits_above_log2.
      apply N.lt_le_trans with 64; [apply N.log2_lt_pow2; [lia|exact Hi]|lia].
Qed.
Definition interval (nid : cipher_nid) : N := match nid with NID_magma_cbc => 2 ^ 12 | _ => 2 ^ 6 end.
Lemma div_coarser a b i j : a <= b -> i / 2 ^ a = j / 2 ^ a -> i / 2 ^ b = j / 2 ^ b.
Proof.
  intros H E. replace b with (a + (b - a)) by lia. rewrite N.pow_add_r, <- !N.div_div by (apply N.pow_nonzero; discriminate).
  rewrite E. reflexivity.
Qed.
(** Two record numbers of the same interval get the same key ... *)
Theorem C35_same_key_within_interval :
  forall h nid key seq1 seq2, h_le h = true -> length key = 32%nat -> bytes key ->
    length seq1 = 8%nat -> bytes seq1 -> length seq2 = 8%nat -> bytes seq2 ->
    be2n seq1 / interval nid = be2n seq2 / interval nid ->
    gost_tlstree h nid key seq1 = gost_tlstree h nid key seq2.
Proof.
  intros h nid key s1 s2 Hh Lk Bk L1 B1 L2 B2 E. rewrite !C35_tlstree_is_TLSTREE by auto.
  pose proof (be2n_lt s1 B1) as U1. pose proof (be2n_lt s2 B2) as U2. rewrite L1 in U1. rewrite L2 in U2.
  change (256 ^ N.of_nat 8) with (2 ^ 64) in *. set (i := be2n s1) in *. set (j := be2n s2) in *. clearbody i j.
  assert (G : forall b b0, b0 <= b -> b <= 64 -> i / 2 ^ b0 = j / 2 ^ b0 -> N.land i (2 ^ 64 - 2 ^ b) = N.land j (2 ^ 64 - 2 ^ b)).
  { intros b b0 Hb Hb64 E0. rewrite !land_high by auto. rewrite (div_coarser b0 b i j) by auto. reflexivity. }
  destruct nid; cbn [suite_masks option_map interval] in *; [| |reflexivity]; f_equal; unfold tlstree, TLS_MAGMA, TLS_KUZNYECHIK.
  - change 0xFFFFFFC000000000 with (2 ^ 64 - 2 ^ 38). change 0xFFFFFFFFFE000000 with (2 ^ 64 - 2 ^ 25).
    change 0xFFFFFFFFFFFFF000 with (2 ^ 64 - 2 ^ 12).
    rewrite (G 38 12), (G 25 12), (G 12 12) by (exact E || (intro X; discriminate X)). reflexivity.
  - change 0xFFFFFFFF00000000 with (2 ^ 64 - 2 ^ 32). change 0xFFFFFFFFFFF80000 with (2 ^ 64 - 2 ^ 19).
    change 0xFFFFFFFFFFFFFFC0 with (2 ^ 64 - 2 ^ 6).
    rewrite (G 32 6), (G 19 6), (G 6 6) by (exact E || (intro X; discriminate X)). reflexivity.
Qed.
(** ... and record numbers of different intervals give different seeds to the last derivation. *)
Theorem C35_new_seed_at_boundary :
  forall nid C i j, suite_masks nid = Some C -> i < 2 ^ 64 -> j < 2 ^ 64 ->
    (n2be 8 (N.land i (snd C)) = n2be 8 (N.land j (snd C)) <-> i / interval nid = j / interval nid).
Proof.
  intros nid C i j E Hi Hj.
  assert (G : forall b, b <= 64 -> (n2be 8 (N.land i (2 ^ 64 - 2 ^ b)) = n2be 8 (N.land j (2 ^ 64 - 2 ^ b)) <-> i / 2 ^ b = j / 2 ^ b)).
  { intros b Hb. rewrite !land_high by auto. assert (P : 2 ^ b <> 0) by (apply N.pow_nonzero; discriminate). split; intro H.
    - apply (f_equal be2n) in H. rewrite !be2n_n2be in H. change (256 ^ N.of_nat 8) with (2 ^ 64) in H.
      assert (U : forall x, x < 2 ^ 64 -> 2 ^ b * (x / 2 ^ b) < 2 ^ 64).
      { intros x Hx. eapply N.le_lt_trans; [apply N.mul_div_le; exact P|exact Hx]. }
      rewrite !N.mod_small in H by auto. apply N.mul_cancel_l in H; auto.
    - rewrite H. reflexivity. }
  destruct nid; cbn [suite_masks interval] in *; try discriminate E; injection E as <-; cbn [snd TLS_MAGMA TLS_KUZNYECHIK].
  - apply (G 12). intro X; discriminate X.
  - apply (G 6). intro X; discriminate X.
Qed.
(** The vectors of test_keyexpimp.c:78-114: the hypotheses of the theorems above hold here (64 = 2 * 32 bytes, R = 1; a
    32-byte key, an 8-byte record number). *)
Example C34_example :
  gost_kdftree2012_256 (mk_host RefLE false true) 64 (hex "000102030405060708090A0B0C0D0E0F101112131415161718191A1B1C1D1E1F")
    (hex "26BDB878") (hex "AF21434145656378") 1
  = Kdf_ok (hex "22B6837845C6BEF65EA71672B265831086D3C76AEBE6DAE91CAD51D83F79D16B074C9330599D7F8D712FCA54392F4DDDE93751206B3584C8F43F9E6DC51531F9").
Proof. vm_compute. reflexivity. Qed.
Example C35_example :
  gost_tlstree (mk_host RefLE false true) NID_grasshopper_cbc (repeat 0xff 32) (zeros 8)
  = Some (hex "507642d958c520c6d7eef5ca8a5316d4f34b855d2dd4bcbf4e5bf0ff641a19ff").
Proof. vm_compute. reflexivity. Qed.
Print Assumptions C34_kdftree_is_KDF_TREE.
Print Assumptions C34_length_field_wraps_refuted.
Print Assumptions C35_tlstree_is_TLSTREE.
Print Assumptions C35_same_key_within_interval.
