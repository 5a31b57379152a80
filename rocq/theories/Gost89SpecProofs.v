(** The model of gost89.c refines the textbook specification. *)
From Verif Require Import Bytes BytesProofs Gost89Model Gost89Spec Gost89Sboxes Gost89Proofs.
From Coq Require Import List Lia NArith.
Open Scope N_scope.

Lemma all_subst_blocks_ok : Forall subst_ok all_subst_blocks.
Proof. repeat constructor. Qed.

Lemma get_lt l i m : 0 < m -> Forall (fun x => x < m) l -> get l i < m.
Proof.
  intros Hm H. unfold get. generalize (N.to_nat i). induction H; destruct n; simpl; auto.
Qed.

Lemma testbit_above n b i : b < 2 ^ n -> n <= i -> N.testbit b i = false.
Proof.
  intros. rewrite <- (N.mod_small b (2^n)) by auto. apply N.mod_pow2_bits_high; auto.
Qed.

Lemma lor_shiftl_add a b n : b < 2 ^ n -> N.lor (N.shiftl a n) b = a * 2 ^ n + b.
Proof.
  intros Hb. assert (L : N.land (N.shiftl a n) b = 0).
  { apply N.bits_inj; intro i. rewrite N.land_spec, N.bits_0.
    destruct (N.lt_ge_cases i n).
    - rewrite N.shiftl_spec_low; auto.
    - rewrite (testbit_above n b i), andb_false_r; auto. }
  rewrite <- N.lxor_lor by auto. rewrite <- N.add_nocarry_lxor by auto.
  rewrite N.shiftl_mul_pow2. reflexivity.
Qed.

Lemma land_ones' x n : N.land x (N.ones n) = x mod 2 ^ n.
Proof. apply N.land_ones. Qed.

Lemma kbox_entry_add hi lo i : Forall (fun x => x < 16) lo ->
  kbox_entry hi lo i = get hi (i / 16) * 16 + get lo (i mod 16).
Proof.
  intros. unfold kbox_entry. rewrite lor_shiftl_add by (apply get_lt; auto; lia).
  rewrite N.shiftr_div_pow2. change 15 with (N.ones 4). rewrite land_ones'. reflexivity.
Qed.
Lemma kbox_entry_lt hi lo i : Forall (fun x => x < 16) hi -> Forall (fun x => x < 16) lo ->
  kbox_entry hi lo i < 256.
Proof.
  intros. rewrite kbox_entry_add by auto.
  assert (get hi (i/16) < 16) by (apply get_lt; auto; lia).
  assert (get lo (i mod 16) < 16) by (apply get_lt; auto; lia). lia.
Qed.

Lemma get_map_idx g i : i < 256 -> get (map g idx256) i = g i.
Proof.
  intros. unfold get, idx256. rewrite map_map.
  rewrite nth_indep with (d' := (fun x => g (N.of_nat x)) 0%nat) by (rewrite map_length, seq_length; lia).
  rewrite map_nth with (f := fun x => g (N.of_nat x)). rewrite seq_nth by lia. simpl. f_equal. lia.
Qed.

(** The tables hold the expansion of [b]. *)
Definition tables_of (c : gost_ctx) (b : subst_block) : Prop := tables_eq c (kboxinit c b).
Lemma tables_of_init c b : tables_of (gost_init c b) b.
Proof. repeat split. Qed.
Lemma tables_of_eq c1 c2 b : tables_eq c1 c2 -> tables_of c2 b -> tables_of c1 b.
Proof.
  intros (A1 & A2 & A3 & A4) (B1 & B2 & B3 & B4).
  repeat split; [rewrite A1; exact B1|rewrite A2; exact B2|rewrite A3; exact B3|rewrite A4; exact B4].
Qed.

Lemma substitute8 S x : substitute S 0 8 x =
  S 0%nat (x mod 16) + 16 * (S 1%nat (x / 16 mod 16)) +
  2^8 * (S 2%nat (x / 2^8 mod 16) + 16 * S 3%nat (x / 2^12 mod 16)) +
  2^16 * (S 4%nat (x / 2^16 mod 16) + 16 * S 5%nat (x / 2^20 mod 16)) +
  2^24 * (S 6%nat (x / 2^24 mod 16) + 16 * S 7%nat (x / 2^28 mod 16)).
Proof.
  cbn [substitute].
  change (2^12) with (2^8*16). change (2^8) with (16*16). change (2^16) with (16*16*16*16).
  change (2^20) with (16*16*16*16*16). change (2^24) with (16*16*16*16*16*16).
  change (2^28) with (16*16*16*16*16*16*16).
  rewrite <- !N.div_div by discriminate.
  lia.
Qed.

Lemma byte_nibbles x n : 0 < 2^n ->
  (x / 2^n mod 256) / 16 = x / 2^(n+4) mod 16 /\ (x / 2^n mod 256) mod 16 = x / 2^n mod 16.
Proof.
  intros Hn. rewrite N.pow_add_r. change (2^4) with 16. rewrite <- N.div_div by lia.
  generalize (x / 2^n); intros y.
  change 256 with (16*16). rewrite N.mod_mul_r by discriminate.
  assert (y mod 16 < 16) by (apply N.mod_lt; discriminate).
  rewrite (N.mul_comm 16). split.
  - rewrite N.div_add by discriminate. rewrite (N.div_small (y mod 16)); auto.
  - rewrite N.mod_add by discriminate. apply N.mod_small; auto.
Qed.

Lemma f_spec c b x : subst_ok b -> tables_of c b -> x < 2^32 ->
  f c x = rol11 (substitute (sboxes_of b) 0 8 x).
Proof.
  intros Hb (T1 & T2 & T3 & T4) Hx.
  assert (R : Forall (fun x => x < 16) (sb_k1 b) /\ Forall (fun x => x < 16) (sb_k2 b) /\
    Forall (fun x => x < 16) (sb_k3 b) /\ Forall (fun x => x < 16) (sb_k4 b) /\
    Forall (fun x => x < 16) (sb_k5 b) /\ Forall (fun x => x < 16) (sb_k6 b) /\
    Forall (fun x => x < 16) (sb_k7 b) /\ Forall (fun x => x < 16) (sb_k8 b)).
  { unfold subst_ok, rows in Hb. repeat (inversion Hb as [|? ? ? Hb']; clear Hb; rename Hb' into Hb; subst); tauto. }
  destruct R as (R1 & R2 & R3 & R4 & R5 & R6 & R7 & R8).
  unfold f. rewrite T1, T2, T3, T4. cbn [kboxinit g_k87 g_k65 g_k43 g_k21].
  change 255 with (N.ones 8). rewrite !land_ones', !N.shiftr_div_pow2.
  change (2 ^ 8) with 256 at 1.
  assert (M : forall y, y mod 256 < 256) by (intros; apply N.mod_lt; discriminate).
  change (x mod 2^8) with (x mod 256).
  change (x / 2^16 mod 2^8) with (x / 2^16 mod 256).
  change (x / 2^24 mod 2^8) with (x / 2^24 mod 256).
  change (x / 2^8 mod 2^8) with (x / 2^8 mod 256).
  rewrite !get_map_idx by apply M.
  set (e87 := kbox_entry (sb_k8 b) _ _). set (e65 := kbox_entry (sb_k6 b) _ _).
  set (e43 := kbox_entry (sb_k4 b) _ _). set (e21 := kbox_entry (sb_k2 b) _ _).
  assert (L87 : e87 < 256) by (apply kbox_entry_lt; auto).
  assert (L65 : e65 < 256) by (apply kbox_entry_lt; auto).
  assert (L43 : e43 < 256) by (apply kbox_entry_lt; auto).
  assert (L21 : e21 < 256) by (apply kbox_entry_lt; auto).
  assert (Y : N.lor (N.lor (w32 (N.shiftl e87 24)) (N.shiftl e65 16)) (N.lor (N.shiftl e43 8) e21)
     = substitute (sboxes_of b) 0 8 x).
  { rewrite w32_small by (rewrite N.shiftl_mul_pow2; change (2^24) with 16777216; lia).
    replace (N.shiftl e87 24) with (N.shiftl (N.shiftl e87 8) 16) by (rewrite N.shiftl_shiftl; reflexivity).
    rewrite <- N.shiftl_lor. rewrite lor_shiftl_add with (n := 8) by exact L65.
    rewrite lor_shiftl_add with (n := 8) by exact L21.
    rewrite lor_shiftl_add by (change (2^8) with 256; change (2^16) with 65536; lia).
    rewrite substitute8.
    unfold e87, e65, e43, e21. rewrite !kbox_entry_add by auto.
    destruct (byte_nibbles x 24 eq_refl) as [A1 A2]. destruct (byte_nibbles x 16 eq_refl) as [B1 B2].
    destruct (byte_nibbles x 8 eq_refl) as [C1 C2]. destruct (byte_nibbles x 0 eq_refl) as [D1 D2].
    change (2^0) with 1 in *. rewrite N.div_1_r in *. change (2^(0+4)) with 16 in D1.
    change (24+4) with 28 in A1. change (16+4) with 20 in B1. change (8+4) with 12 in C1.
    rewrite A1, A2, B1, B2, C1, C2, D1, D2. unfold sboxes_of; cbn [nth].
    change (2^8) with 256. change (2^16) with 65536. change (2^24) with 16777216. lia. }
  rewrite Y. set (y := substitute _ _ _ _) in *.
  assert (Ly : y < 4294967296).
  { rewrite <- Y. apply (lor_lt_pow2 32).
    - apply (lor_lt_pow2 32). apply w32_lt. rewrite N.shiftl_mul_pow2. change (2^16) with 65536. change (2^32) with 4294967296. lia.
    - apply (lor_lt_pow2 32); [rewrite N.shiftl_mul_pow2; change (2^8) with 256|]; change (2^32) with 4294967296; lia. }
  rewrite (w32_small y) by auto. rewrite w32_mod, N.shiftl_mul_pow2, ?N.shiftr_div_pow2. unfold rol11.
  change 4294967296 with (2^21 * 2^11). rewrite N.mul_mod_distr_r by discriminate.
  rewrite <- N.shiftl_mul_pow2. rewrite lor_shiftl_add. 2:{ apply N.div_lt_upper_bound; [discriminate|]. exact Ly. }
  change (2^32) with (2^21*2^11). rewrite N.mul_mod_distr_r by discriminate. reflexivity.
Qed.

(** Rounds of the model against the textbook Feistel iteration. *)
#[local] Transparent rounds.
Lemma rounds_feistel c b rk idx j0 s : subst_ok b -> tables_of c b ->
  (forall n i, nth_error idx n = Some i -> ekey c i = rk (j0 + n)%nat) ->
  rounds c idx s = feistel (sboxes_of b) rk j0 (length idx) s.
Proof.
  intros Hb Ht. revert j0 s. induction idx as [|i idx IH]; intros j0 [x y] H; cbn [rounds feistel length].
  - reflexivity.
  - rewrite round_ekey.
    pose proof (H 0%nat i eq_refl) as E. rewrite Nat.add_0_r in E. rewrite E.
    unfold round_f. unfold add32. rewrite w32_mod. change 4294967296 with (2^32).
    rewrite (f_spec c b) by (auto; apply N.mod_lt; discriminate).
    apply IH. intros n i' Hn. rewrite (H (S n) i' Hn). f_equal; lia.
Qed.
#[local] Opaque rounds. #[global] Opaque feistel.

Ltac idx_cases n Hn :=
  repeat (destruct n as [|n]; [injection Hn as <-; reflexivity|]; simpl in Hn); destruct n; discriminate.

Definition key_le (c : gost_ctx) (k : list N) := forall i, ekey c i = keyword_le k i.
Definition key_be (c : gost_ctx) (k : list N) := forall i, ekey c i = keyword_be k i.

Lemma keyword_le_words k i : (i < 8)%nat -> keyword_le k i = le_words k i.
Proof. intros H. unfold keyword_le. apply Nat.ltb_lt in H. rewrite H. reflexivity. Qed.
Lemma keyword_be_words k i : (i < 8)%nat -> keyword_be k i = be_words k i.
Proof. intros H. unfold keyword_be. apply Nat.ltb_lt in H. rewrite H. reflexivity. Qed.

Lemma enc_idx_order n i : nth_error enc_idx n = Some i -> (i < 8)%nat /\ i = enc_order n.
Proof.
  unfold enc_idx. intros H.
  do 32 (destruct n as [|n]; [injection H as <-; split; [lia|reflexivity]|]; cbn [nth_error] in H). 
  destruct n; discriminate.
Qed.
Lemma dec_idx_order n i : nth_error dec_idx n = Some i -> (i < 8)%nat /\ i = dec_order n.
Proof.
  unfold dec_idx. intros H.
  do 32 (destruct n as [|n]; [injection H as <-; split; [lia|reflexivity]|]; cbn [nth_error] in H). 
  destruct n; discriminate.
Qed.
Lemma mac_idx_order n i : nth_error mac_idx n = Some i -> (i < 8)%nat /\ i = (n mod 8)%nat.
Proof.
  unfold mac_idx. intros H.
  do 16 (destruct n as [|n]; [injection H as <-; split; [lia|reflexivity]|]; cbn [nth_error] in H). 
  destruct n; discriminate.
Qed.

#[local] Transparent gostcrypt gostdecrypt magmacrypt magmadecrypt mac_block.
Lemma gostcrypt_spec c b k blk : subst_ok b -> tables_of c b -> key_le c k ->
  gostcrypt c blk = rfc5830_encrypt (sboxes_of b) k blk.
Proof.
  intros Hb Ht Hk. unfold gostcrypt, rfc5830_encrypt, rfc5830_block.
  rewrite (rounds_feistel c b (fun j => le_words k (enc_order j)) enc_idx 0 _ Hb Ht).
  - change (length enc_idx) with 32%nat. change (le2n (sub 0 4 blk)) with (le_words blk 0).
    change (le2n (sub 4 4 blk)) with (le_words blk 1).
    destruct (feistel _ _ _ _ _); reflexivity.
  - intros n i Hn. apply enc_idx_order in Hn as [Hi ->]. rewrite Hk. apply keyword_le_words; auto.
Qed.
Lemma gostdecrypt_spec c b k blk : subst_ok b -> tables_of c b -> key_le c k ->
  gostdecrypt c blk = rfc5830_decrypt (sboxes_of b) k blk.
Proof.
  intros Hb Ht Hk. unfold gostdecrypt, rfc5830_decrypt, rfc5830_block.
  rewrite (rounds_feistel c b (fun j => le_words k (dec_order j)) dec_idx 0 _ Hb Ht).
  - change (length dec_idx) with 32%nat. change (le2n (sub 0 4 blk)) with (le_words blk 0).
    change (le2n (sub 4 4 blk)) with (le_words blk 1).
    destruct (feistel _ _ _ _ _); reflexivity.
  - intros n i Hn. apply dec_idx_order in Hn as [Hi ->]. rewrite Hk. apply keyword_le_words; auto.
Qed.
Lemma magmacrypt_spec c b k blk : subst_ok b -> tables_of c b -> key_be c k ->
  magmacrypt c blk = rfc8891_encrypt (sboxes_of b) k blk.
Proof.
  intros Hb Ht Hk. unfold magmacrypt, rfc8891_encrypt, rfc8891_block.
  rewrite (rounds_feistel c b (fun j => be_words k (enc_order j)) enc_idx 0 _ Hb Ht).
  - change (length enc_idx) with 32%nat. change (be2n (sub 0 4 blk)) with (be_words blk 0).
    change (be2n (sub 4 4 blk)) with (be_words blk 1).
    destruct (feistel _ _ _ _ _); reflexivity.
  - intros n i Hn. apply enc_idx_order in Hn as [Hi ->]. rewrite Hk. apply keyword_be_words; auto.
Qed.
Lemma magmadecrypt_spec c b k blk : subst_ok b -> tables_of c b -> key_be c k ->
  magmadecrypt c blk = rfc8891_decrypt (sboxes_of b) k blk.
Proof.
  intros Hb Ht Hk. unfold magmadecrypt, rfc8891_decrypt, rfc8891_block.
  rewrite (rounds_feistel c b (fun j => be_words k (dec_order j)) dec_idx 0 _ Hb Ht).
  - change (length dec_idx) with 32%nat. change (be2n (sub 0 4 blk)) with (be_words blk 0).
    change (be2n (sub 4 4 blk)) with (be_words blk 1).
    destruct (feistel _ _ _ _ _); reflexivity.
  - intros n i Hn. apply dec_idx_order in Hn as [Hi ->]. rewrite Hk. apply keyword_be_words; auto.
Qed.
Lemma mac_block_spec c b k st blk : subst_ok b -> tables_of c b -> key_le c k ->
  mac_block c st blk = rfc5830_mac_step (sboxes_of b) k st blk.
Proof.
  intros Hb Ht Hk. unfold mac_block, rfc5830_mac_step.
  rewrite (rounds_feistel c b (fun j => le_words k (j mod 8)) mac_idx 0 _ Hb Ht).
  - change (length mac_idx) with 16%nat. reflexivity.
  - intros n i Hn. apply mac_idx_order in Hn as [Hi ->]. rewrite Hk. apply keyword_le_words; auto.
Qed.
#[local] Opaque gostcrypt gostdecrypt magmacrypt magmadecrypt mac_block.
