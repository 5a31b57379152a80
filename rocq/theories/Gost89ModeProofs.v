(** Raw ECB, CFB and MAC drivers of gost89.c. *)
From Verif Require Import Bytes BytesProofs Gost89Model Gost89Spec Gost89Sboxes Gost89Proofs Gost89SpecProofs.
From Coq Require Import List Lia NArith.
Open Scope N_scope.

Lemma gost_enc_length c n m : length (gost_enc c m n) = (8 * n)%nat.
Proof. revert m; induction n; intros; cbn [gost_enc]; auto. rewrite app_length, IHn, gostcrypt_length. lia. Qed.
Lemma gost_dec_length c n m : length (gost_dec c m n) = (8 * n)%nat.
Proof. revert m; induction n; intros; cbn [gost_dec]; auto. rewrite app_length, IHn, gostdecrypt_length. lia. Qed.
Lemma gost_enc_bytes c n m : bytes (gost_enc c m n).
Proof. revert m; induction n; intros; cbn [gost_enc]. constructor. apply bytes_app; auto using gostcrypt_bytes. Qed.
Lemma gost_dec_bytes c n m : bytes (gost_dec c m n).
Proof. revert m; induction n; intros; cbn [gost_dec]. constructor. apply bytes_app; auto using gostdecrypt_bytes. Qed.

Lemma first_blk8 l n : bytes l -> length l = (8 * S n)%nat -> blk8 (firstn 8 l).
Proof. intros; split. rewrite firstn_length; lia. apply bytes_firstn; auto. Qed.

Lemma ecb_roundtrip c1 c2 n m : gsim c1 c2 -> bytes m -> length m = (8 * n)%nat ->
  gost_dec c2 (gost_enc c1 m n) n = m.
Proof.
  intros Hs. revert m; induction n; intros m Hb Hl; cbn [gost_enc gost_dec].
  - destruct m; [auto|discriminate].
  - rewrite firstn_app_exact, skipn_app_exact by apply gostcrypt_length.
    rewrite (gostcrypt_gsim c1 c2 (firstn 8 m) Hs), (gost_dec_enc_block c2 _ (first_blk8 _ _ Hb Hl)).
    rewrite IHn; [apply firstn_skipn| apply bytes_skipn; auto | rewrite skipn_length; lia].
Qed.
Lemma ecb_roundtrip' c1 c2 n m : gsim c1 c2 -> bytes m -> length m = (8 * n)%nat ->
  gost_enc c2 (gost_dec c1 m n) n = m.
Proof.
  intros Hs. revert m; induction n; intros m Hb Hl; cbn [gost_enc gost_dec].
  - destruct m; [auto|discriminate].
  - rewrite firstn_app_exact, skipn_app_exact by apply gostdecrypt_length.
    rewrite (gostdecrypt_gsim c1 c2 (firstn 8 m) Hs), (gost_enc_dec_block c2 _ (first_blk8 _ _ Hb Hl)).
    rewrite IHn; [apply firstn_skipn| apply bytes_skipn; auto | rewrite skipn_length; lia].
Qed.

Lemma enc_cfb_length c n iv m : length m = (8 * n)%nat -> length (gost_enc_cfb c iv m n) = (8 * n)%nat.
Proof.
  revert iv m; induction n; intros iv m Hl; cbn [gost_enc_cfb]; auto.
  rewrite app_length, IHn by (rewrite skipn_length; lia).
  rewrite xorl_length, gostcrypt_length, firstn_length. lia.
Qed.
Lemma cfb_roundtrip c1 c2 n iv m : gsim c1 c2 -> length m = (8 * n)%nat ->
  gost_dec_cfb c2 iv (gost_enc_cfb c1 iv m n) n = m.
Proof.
  intros Hs. revert iv m; induction n; intros iv m Hl; cbn [gost_enc_cfb gost_dec_cfb].
  - destruct m; [auto|discriminate].
  - assert (L : length (firstn 8 m) = 8%nat) by (rewrite firstn_length; lia).
    assert (L' : length (xorl (firstn 8 m) (gostcrypt c1 iv)) = 8%nat)
      by (rewrite xorl_length, gostcrypt_length; lia).
    rewrite firstn_app_exact, skipn_app_exact by auto.
    rewrite (gostcrypt_gsim c1 c2 _ Hs) in *. rewrite xorl_cancel_r by (rewrite gostcrypt_length; auto).
    rewrite IHn by (rewrite skipn_length; lia). apply firstn_skipn.
Qed.
Lemma cfb_roundtrip' c1 c2 n iv m : gsim c1 c2 -> length m = (8 * n)%nat ->
  gost_enc_cfb c2 iv (gost_dec_cfb c1 iv m n) n = m.
Proof.
  intros Hs. revert iv m; induction n; intros iv m Hl; cbn [gost_enc_cfb gost_dec_cfb].
  - destruct m; [auto|discriminate].
  - assert (L : length (firstn 8 m) = 8%nat) by (rewrite firstn_length; lia).
    assert (L' : length (xorl (firstn 8 m) (gostcrypt c1 iv)) = 8%nat)
      by (rewrite xorl_length, gostcrypt_length; lia).
    rewrite firstn_app_exact, skipn_app_exact by auto.
    rewrite (gostcrypt_gsim c1 c2 _ Hs) in *. rewrite xorl_cancel_r by (rewrite gostcrypt_length; auto).
    rewrite IHn by (rewrite skipn_length; lia). apply firstn_skipn.
Qed.

(** * MAC *)
Lemma mac_loop_run c fuel buf a r : (length a <= fuel)%nat -> (length a mod 8 = 0)%nat -> (length r < 8)%nat ->
  mac_loop fuel c buf (a ++ r) = (fold_left (mac_block c) (blocks 8 a) buf, r).
Proof.
  intros Hf Hm Hr. revert fuel buf Hf. pattern a. revert a Hm. apply whole_blocks_ind; [lia|..].
  - intros fuel buf _. simpl app. destruct fuel; cbn [mac_loop]; auto.
    destruct (Nat.leb_spec 8 (length r)); [lia|reflexivity].
  - intros a l Ha Hm IH fuel buf Hf. rewrite <- app_assoc, blocks_cons by (auto; lia).
    rewrite app_length in Hf. destruct fuel; [lia|]. cbn [mac_loop].
    destruct (Nat.leb_spec 8 (length (a ++ l ++ r))); [|rewrite app_length in *; lia].
    rewrite firstn_app_exact, skipn_app_exact by auto. cbn [fold_left]. apply IH. lia.
Qed.

Lemma split_whole8 (m : list N) : exists a r, m = a ++ r /\ (length a mod 8 = 0)%nat /\ (length r < 8)%nat.
Proof.
  exists (firstn (8 * (length m / 8)) m), (skipn (8 * (length m / 8)) m). rewrite firstn_skipn.
  pose proof (Nat.div_mod_eq (length m) 8). pose proof (Nat.mod_upper_bound (length m) 8 ltac:(lia)).
  repeat split; auto.
  - rewrite firstn_length, Nat.min_l by lia. rewrite Nat.mul_comm. apply Nat.mod_mul; lia.
  - rewrite skipn_length. lia.
Qed.

Lemma pad8_split a r : (length a mod 8 = 0)%nat -> (0 < length r < 8)%nat ->
  pad8 (a ++ r) = a ++ (r ++ zeros (8 - length r)).
Proof.
  intros Ha Hr. unfold pad8. rewrite app_assoc_reverse. do 3 f_equal. rewrite app_length.
  rewrite <- Nat.add_mod_idemp_l, Ha by lia. simpl (0 + _)%nat.
  rewrite (Nat.mod_small (length r)) by lia. apply Nat.mod_small; lia.
Qed.
Lemma pad8_whole a : (length a mod 8 = 0)%nat -> pad8 a = a.
Proof. intros Ha. unfold pad8. rewrite Ha. change ((8 - 0) mod 8)%nat with 0%nat. apply app_nil_r. Qed.

Lemma fold_left_gsim_mac c b k l st : subst_ok b -> tables_of c b -> key_le c k ->
  fold_left (mac_block c) l st = fold_left (rfc5830_mac_step (sboxes_of b) k) l st.
Proof.
  intros Hb Ht Hk. revert st; induction l; intros; cbn [fold_left]; auto.
  rewrite (mac_block_spec c b k _ _ Hb Ht Hk). apply IHl.
Qed.

(** The code computes the MAC over the padded message. *)
Lemma gost_mac_iv_fold c len iv m :
  gost_mac_iv c len iv m = get_mac (fold_left (mac_block c) (blocks 8 (mac_message m)) iv) len.
Proof.
  destruct (split_whole8 m) as (a & r & -> & Ha & Hr).
  unfold gost_mac_iv. rewrite mac_loop_run by (auto; rewrite app_length; lia).
  rewrite app_length.
  replace (length a + length r - length r)%nat with (length a) by lia.
  destruct (Nat.ltb_spec (length a) (length a + length r)).
  - (* a partial block is pending *)
    unfold mac_message. rewrite pad8_split by lia.
    set (p := r ++ zeros (8 - length r)).
    assert (Hp : length p = 8%nat) by (unfold p; rewrite app_length, zeros_length; lia).
    rewrite app_length, Hp.
    destruct (Nat.eqb_spec (length a + 8) 8).
    + rewrite <- app_assoc, !blocks_app, !fold_left_app by (auto; rewrite ?Hp; auto; lia).
      rewrite (blocks_short 8 p), (blocks_short 8 (zeros 8)); try lia; try reflexivity.
      * discriminate.
      * destruct p; [discriminate|discriminate].
    + rewrite blocks_app, fold_left_app by (auto; lia).
      rewrite (blocks_short 8 p); try lia; try reflexivity. destruct p; [discriminate|discriminate].
  - assert (length r = 0)%nat by lia. destruct r; [|discriminate]. rewrite app_nil_r.
    unfold mac_message. rewrite pad8_whole by auto.
    destruct (Nat.eqb_spec (length a) 8).
    + rewrite blocks_app, fold_left_app by (auto; lia). reflexivity.
    + reflexivity.
Qed.

Lemma gost_mac_iv_spec c b k len iv m : subst_ok b -> tables_of c b -> key_le c k ->
  gost_mac_iv c len iv m = get_mac (rfc5830_mac_state (sboxes_of b) k iv m) len.
Proof.
  intros Hb Ht Hk. rewrite gost_mac_iv_fold, (fold_left_gsim_mac c b k _ _ Hb Ht Hk). reflexivity.
Qed.

Lemma get_mac_whole buf n : get_mac buf (8 * n) = firstn (N.to_nat n) buf.
Proof.
  unfold get_mac. rewrite N.shiftr_div_pow2. change (2^3) with 8. rewrite N.mul_comm, N.div_mul by discriminate.
  change 7 with (N.ones 3). rewrite N.land_ones. change (2^3) with 8. rewrite N.mod_mul by discriminate.
  simpl (0 =? 0). cbv iota. apply app_nil_r.
Qed.
