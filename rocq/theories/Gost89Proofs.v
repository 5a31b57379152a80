(** Lemmas about the model of gost89.c. *)
From Verif Require Import Bytes BytesProofs Gost89Model Gost89Spec Gost89Sboxes.
From Coq Require Import List Lia NArith.
Open Scope N_scope.


Lemma words_nth l i : words l -> nth i l 0 < 4294967296.
Proof. intros H; revert i; induction H; destruct i; simpl; auto; lia. Qed.

(** The effective key word: what the rounds add. *)
Definition ekey (c : gost_ctx) (i : nat) : N := add32 (nth i (g_key c) 0) (nth i (g_mask c) 0).
Definition tables_eq (c1 c2 : gost_ctx) : Prop :=
  g_k87 c1 = g_k87 c2 /\ g_k65 c1 = g_k65 c2 /\ g_k43 c1 = g_k43 c2 /\ g_k21 c1 = g_k21 c2.
(** Two contexts with the same key and tables, possibly differently masked. *)
Definition gsim (c1 c2 : gost_ctx) : Prop := (forall i, ekey c1 i = ekey c2 i) /\ tables_eq c1 c2.

Lemma gsim_refl c : gsim c c. Proof. repeat split. Qed.
Lemma gsim_sym c1 c2 : gsim c1 c2 -> gsim c2 c1.
Proof. unfold gsim, tables_eq; intuition. Qed.
Lemma gsim_trans c1 c2 c3 : gsim c1 c2 -> gsim c2 c3 -> gsim c1 c3.
Proof. unfold gsim, tables_eq; intuition; congruence. Qed.

Lemma f_tables c1 c2 x : tables_eq c1 c2 -> f c1 x = f c2 x.
Proof. intros (A & B & C & D). unfold f. rewrite A, B, C, D. reflexivity. Qed.

Lemma round_ekey c i a b : round c i (a, b) = (N.lxor b (f c (add32 a (ekey c i))), a).
Proof. unfold round, ekey. rewrite add32_assoc. reflexivity. Qed.

Lemma rounds_gsim c1 c2 idx s : gsim c1 c2 -> rounds c1 idx s = rounds c2 idx s.
Proof.
  intros [He Ht]. revert s. induction idx as [|i idx IH]; intros [a b]; cbn [rounds]; auto.
  rewrite IH. f_equal. rewrite !round_ekey, He. f_equal. f_equal. apply f_tables; auto.
Qed.

Lemma gostcrypt_gsim c1 c2 b : gsim c1 c2 -> gostcrypt c1 b = gostcrypt c2 b.
Proof. intros; unfold gostcrypt. rewrite (rounds_gsim c1 c2); auto. Qed.
Lemma gostdecrypt_gsim c1 c2 b : gsim c1 c2 -> gostdecrypt c1 b = gostdecrypt c2 b.
Proof. intros; unfold gostdecrypt. rewrite (rounds_gsim c1 c2); auto. Qed.
Lemma magmacrypt_gsim c1 c2 b : gsim c1 c2 -> magmacrypt c1 b = magmacrypt c2 b.
Proof. intros; unfold magmacrypt. rewrite (rounds_gsim c1 c2); auto. Qed.
Lemma magmadecrypt_gsim c1 c2 b : gsim c1 c2 -> magmadecrypt c1 b = magmadecrypt c2 b.
Proof. intros; unfold magmadecrypt. rewrite (rounds_gsim c1 c2); auto. Qed.
Lemma mac_block_gsim c1 c2 s b : gsim c1 c2 -> mac_block c1 s b = mac_block c2 s b.
Proof. intros; unfold mac_block. rewrite (rounds_gsim c1 c2); auto. Qed.
Lemma gost_dec_gsim c1 c2 l n : gsim c1 c2 -> gost_dec c1 l n = gost_dec c2 l n.
Proof.
  intros H; revert l; induction n; intros; [reflexivity|]. cbn [gost_dec].
  rewrite IHn, (gostdecrypt_gsim c1 c2 _ H). reflexivity.
Qed.
Lemma gost_enc_gsim c1 c2 l n : gsim c1 c2 -> gost_enc c1 l n = gost_enc c2 l n.
Proof.
  intros H; revert l; induction n; intros; [reflexivity|]. cbn [gost_enc].
  rewrite IHn, (gostcrypt_gsim c1 c2 _ H). reflexivity.
Qed.

(** * Feistel inversion *)
Lemma rounds_app c i1 i2 s : rounds c (i1 ++ i2) s = rounds c i2 (rounds c i1 s).
Proof. revert s; induction i1; simpl; intros; auto. Qed.

Lemma round_undo c i a b : round c i (Gost89Spec.swap (round c i (a, b))) = (b, a).
Proof. unfold Gost89Spec.swap. rewrite !round_ekey. rewrite lxor_cancel_r. reflexivity. Qed.

Lemma rounds_undo c idx a b :
  rounds c (rev idx) (Gost89Spec.swap (rounds c idx (a, b))) = (b, a).
Proof.
  revert a b; induction idx as [|i idx IH]; intros a b; simpl rev; cbn [rounds].
  - reflexivity.
  - destruct (round c i (a, b)) as [a' b'] eqn:E.
    rewrite rounds_app, IH. cbn [rounds].
    pose proof (round_undo c i a b) as U. rewrite E in U. exact U.
Qed.

Lemma dec_is_rev_enc : dec_idx = rev enc_idx. Proof. reflexivity. Qed.
Lemma enc_is_rev_dec : enc_idx = rev dec_idx. Proof. reflexivity. Qed.

Lemma f_lt c x : f c x < 4294967296.
Proof.
  unfold f. cbv zeta. set (y := N.lor (N.lor _ _) (N.lor _ _)). apply (lor_lt_pow2 32).
  - apply w32_lt.
  - rewrite N.shiftr_div_pow2. pose proof (w32_lt y).
    apply N.div_lt_upper_bound; [discriminate|]. eapply N.lt_le_trans; [exact H|]. apply N.leb_le. reflexivity.
Qed.

Definition pair_ok (s : N * N) := fst s < 4294967296 /\ snd s < 4294967296.
Lemma rounds_ok c idx s : pair_ok s -> pair_ok (rounds c idx s).
Proof.
  revert s; induction idx as [|i idx IH]; intros [a b] H; cbn [rounds]; auto.
  apply IH. rewrite round_ekey. destruct H; split; simpl in *; auto. apply lxor_w32; auto. apply f_lt.
Qed.

Lemma le2n_4_lt l : bytes l -> le2n (firstn 4 l) < 4294967296.
Proof.
  intros. eapply N.lt_le_trans. apply le2n_lt, bytes_firstn; auto.
  rewrite firstn_length. change 4294967296 with (256 ^ 4). apply N.pow_le_mono_r; lia.
Qed.
Lemma be2n_4_lt l : bytes l -> be2n (firstn 4 l) < 4294967296.
Proof.
  intros. eapply N.lt_le_trans. apply be2n_lt, bytes_firstn; auto.
  rewrite firstn_length. change 4294967296 with (256 ^ 4). apply N.pow_le_mono_r; lia.
Qed.

Lemma sub04_app a b : length a = 4%nat -> sub 0 4 (a ++ b) = a.
Proof. intros. unfold sub; simpl skipn. apply firstn_app_exact; auto. Qed.
Lemma sub44_app a b : length a = 4%nat -> length b = 4%nat -> sub 4 4 (a ++ b) = b.
Proof. intros. unfold sub. rewrite skipn_app_exact by auto. rewrite <- H0. apply firstn_all. Qed.
Lemma split44 l : length l = 8%nat -> sub 0 4 l ++ sub 4 4 l = l.
Proof.
  intros. unfold sub. change (skipn 0 l) with l.
  rewrite (firstn_all2 (skipn 4 l)) by (rewrite skipn_length; lia). apply firstn_skipn.
Qed.

Lemma le32_pair n : n < 4294967296 -> le2n (n2le 4 n) = n.
Proof. intros. apply le2n_n2le_small. exact H. Qed.
Lemma be32_pair n : n < 4294967296 -> be2n (n2be 4 n) = n.
Proof. intros. rewrite be2n_n2be. apply N.mod_small. exact H. Qed.

Definition blk8 (b : list N) := length b = 8%nat /\ bytes b.

Definition crypt_idx (c : gost_ctx) (idx : list nat) (b : list N) : list N :=
  let n := rounds c idx (le2n (sub 0 4 b), le2n (sub 4 4 b)) in n2le 4 (snd n) ++ n2le 4 (fst n).
Lemma blk_inv_generic c idx b : blk8 b ->
  crypt_idx c (rev idx) (crypt_idx c idx b) = b.
Proof.
  intros [Hl Hb]. unfold crypt_idx; cbv zeta.
  set (n := rounds c idx _).
  assert (Hn : pair_ok n).
  { apply rounds_ok. split; cbn [fst snd]; apply le2n_4_lt; auto using bytes_skipn. }
  destruct Hn as [H1 H2].
  rewrite !sub04_app, !sub44_app by apply n2le_length.
  rewrite !le32_pair by auto.
  change (snd n, fst n) with (snd n, fst n).
  assert (E : (snd n, fst n) = Gost89Spec.swap n) by (destruct n; reflexivity).
  rewrite E. unfold n. rewrite rounds_undo. cbn [fst snd].
  rewrite !n2le_le2n; [apply split44; auto|..]; try (apply sub_length; lia); apply bytes_sub; auto.
Qed.

Lemma gostcrypt_eta c b : gostcrypt c b = crypt_idx c enc_idx b.
Proof. unfold gostcrypt, crypt_idx. destruct (rounds c enc_idx _); reflexivity. Qed.
Lemma gostdecrypt_eta c b : gostdecrypt c b = crypt_idx c dec_idx b.
Proof. unfold gostdecrypt, crypt_idx. destruct (rounds c dec_idx _); reflexivity. Qed.

Lemma sub04_rev b : length b = 8%nat -> sub 0 4 (rev b) = rev (sub 4 4 b).
Proof.
  intros. rewrite <- (split44 b) at 1 by auto. rewrite rev_app_distr.
  apply sub04_app. rewrite rev_length. apply sub_length; lia.
Qed.
Lemma sub44_rev b : length b = 8%nat -> sub 4 4 (rev b) = rev (sub 0 4 b).
Proof.
  intros. rewrite <- (split44 b) at 1 by auto. rewrite rev_app_distr.
  apply sub44_app; rewrite rev_length; apply sub_length; lia.
Qed.
Lemma magmacrypt_rev c b : length b = 8%nat -> magmacrypt c b = rev (gostcrypt c (rev b)).
Proof.
  intros. unfold magmacrypt, gostcrypt. rewrite sub04_rev, sub44_rev by auto. unfold be2n.
  destruct (rounds c enc_idx _) as [n1 n2]. rewrite rev_app_distr. reflexivity.
Qed.
Lemma magmadecrypt_rev c b : length b = 8%nat -> magmadecrypt c b = rev (gostdecrypt c (rev b)).
Proof.
  intros. unfold magmadecrypt, gostdecrypt. rewrite sub04_rev, sub44_rev by auto. unfold be2n.
  destruct (rounds c dec_idx _) as [n1 n2]. rewrite rev_app_distr. reflexivity.
Qed.
Lemma magmacrypt_length c b : length (magmacrypt c b) = 8%nat.
Proof. unfold magmacrypt. destruct (rounds _ _ _). rewrite app_length, !n2be_length; auto. Qed.
Lemma magmacrypt_bytes c b : bytes (magmacrypt c b).
Proof. unfold magmacrypt. destruct (rounds _ _ _). apply bytes_app; apply n2be_bytes. Qed.
Lemma magmadecrypt_length c b : length (magmadecrypt c b) = 8%nat.
Proof. unfold magmadecrypt. destruct (rounds _ _ _). rewrite app_length, !n2be_length; auto. Qed.
Lemma magmadecrypt_bytes c b : bytes (magmadecrypt c b).
Proof. unfold magmadecrypt. destruct (rounds _ _ _). apply bytes_app; apply n2be_bytes. Qed.
Lemma mac_block_length c s b : length (mac_block c s b) = 8%nat.
Proof. unfold mac_block. destruct (rounds _ _ _). rewrite app_length, !n2le_length; auto. Qed.
Lemma mac_block_bytes c s b : bytes (mac_block c s b).
Proof. unfold mac_block. destruct (rounds _ _ _). apply bytes_app; apply n2le_bytes. Qed.
#[global] Opaque rounds gostcrypt gostdecrypt magmacrypt magmadecrypt mac_block.
Lemma gost_dec_enc_block c b : blk8 b -> gostdecrypt c (gostcrypt c b) = b.
Proof.
  intros. rewrite gostdecrypt_eta, (gostcrypt_eta c b). exact (blk_inv_generic c enc_idx b H).
Qed.
Lemma gost_enc_dec_block c b : blk8 b -> gostcrypt c (gostdecrypt c b) = b.
Proof.
  intros. rewrite gostcrypt_eta, gostdecrypt_eta. exact (blk_inv_generic c dec_idx b H).
Qed.

Lemma gostcrypt_length c b : length (gostcrypt c b) = 8%nat.
Proof. rewrite gostcrypt_eta; unfold crypt_idx; cbv zeta. rewrite app_length, !n2le_length; auto. Qed.
Lemma gostdecrypt_length c b : length (gostdecrypt c b) = 8%nat.
Proof. rewrite gostdecrypt_eta; unfold crypt_idx; cbv zeta. rewrite app_length, !n2le_length; auto. Qed.
Lemma gostcrypt_bytes c b : bytes (gostcrypt c b).
Proof. rewrite gostcrypt_eta; unfold crypt_idx; cbv zeta. apply bytes_app; apply n2le_bytes. Qed.
Lemma gostdecrypt_bytes c b : bytes (gostdecrypt c b).
Proof. rewrite gostdecrypt_eta; unfold crypt_idx; cbv zeta. apply bytes_app; apply n2le_bytes. Qed.
Lemma gostcrypt_blk8 c b : blk8 (gostcrypt c b).
Proof. split; [apply gostcrypt_length|apply gostcrypt_bytes]. Qed.
Lemma gostdecrypt_blk8 c b : blk8 (gostdecrypt c b).
Proof. split; [apply gostdecrypt_length|apply gostdecrypt_bytes]. Qed.

(** * Magma = GOST on reversed bytes *)
Lemma blk8_rev b : blk8 b -> blk8 (rev b).
Proof. intros [? ?]; split. rewrite rev_length; auto. apply bytes_rev; auto. Qed.
Lemma magma_dec_enc_block c b : blk8 b -> magmadecrypt c (magmacrypt c b) = b.
Proof.
  intros Hb. pose proof (blk8_rev _ Hb) as Hr. destruct Hb as [Hl Hb].
  rewrite (magmacrypt_rev c b Hl). rewrite magmadecrypt_rev by (rewrite rev_length; apply gostcrypt_length).
  rewrite rev_involutive, (gost_dec_enc_block c _ Hr), rev_involutive. reflexivity.
Qed.
Lemma magma_enc_dec_block c b : blk8 b -> magmacrypt c (magmadecrypt c b) = b.
Proof.
  intros Hb. pose proof (blk8_rev _ Hb) as Hr. destruct Hb as [Hl Hb].
  rewrite (magmadecrypt_rev c b Hl). rewrite magmacrypt_rev by (rewrite rev_length; apply gostdecrypt_length).
  rewrite rev_involutive, (gost_enc_dec_block c _ Hr), rev_involutive. reflexivity.
Qed.
(** * Keys *)
Lemma key_words_nth ld k m i : (i < 8)%nat ->
  nth i (key_words ld k m) 0 = sub32 (ld (sub (4 * i) 4 k)) (nth i m 0).
Proof.
  intros. unfold key_words. 
  rewrite nth_indep with (d' := (fun i => sub32 (ld (sub (4 * i) 4 k)) (nth i m 0)) 0%nat)
    by (rewrite map_length, seq_length; auto).
  rewrite map_nth with (f := fun i => sub32 (ld (sub (4 * i) 4 k)) (nth i m 0)).
  rewrite seq_nth by auto. reflexivity.
Qed.
Lemma key_words_length ld k m : length (key_words ld k m) = 8%nat.
Proof. unfold key_words. rewrite map_length, seq_length; auto. Qed.

Definition keyword_le (k : list N) (i : nat) : N := if (i <? 8)%nat then le2n (sub (4 * i) 4 k) else 0.
Definition keyword_be (k : list N) (i : nat) : N := if (i <? 8)%nat then be2n (sub (4 * i) 4 k) else 0.

Lemma ekey_generic c ld k m i : (forall j, ld (sub (4*j) 4 k) < 4294967296) -> mask_ok m ->
  g_key c = key_words ld k m -> g_mask c = m ->
  ekey c i = if (i <? 8)%nat then ld (sub (4 * i) 4 k) else 0.
Proof.
  intros Hld [Hm1 Hm2] Hk Hm. unfold ekey. rewrite Hk, Hm.
  destruct (i <? 8)%nat eqn:E.
  - apply Nat.ltb_lt in E. rewrite key_words_nth by auto. apply add32_sub32; auto. apply words_nth; auto.
  - apply Nat.ltb_ge in E. rewrite !nth_overflow; try reflexivity; rewrite ?key_words_length; lia.
Qed.

Lemma ekey_gost_key c k i : bytes k -> rng_ok (g_rng c) -> ekey (gost_key c k) i = keyword_le k i.
Proof.
  intros Hk Hr. apply (ekey_generic _ le2n k (g_rng c 0%nat)); auto.
  intros; apply le2n_4_lt, bytes_skipn; auto.
Qed.
Lemma mask_ok_zero : mask_ok (repeat 0 8).
Proof. split; auto. repeat constructor. Qed.
Lemma ekey_gost_key_nomask c k i : bytes k -> ekey (gost_key_nomask c k) i = keyword_le k i.
Proof.
  intros Hk. apply (ekey_generic _ le2n k (repeat 0 8)); auto using mask_ok_zero.
  intros; apply le2n_4_lt, bytes_skipn; auto.
Qed.
Lemma ekey_magma_key c k i : bytes k -> rng_ok (g_rng c) -> ekey (magma_key c k) i = keyword_be k i.
Proof.
  intros Hk Hr. apply (ekey_generic _ be2n k (g_rng c 0%nat)); auto.
  intros; apply be2n_4_lt, bytes_skipn; auto.
Qed.

Lemma rng_ok_shift r : rng_ok r -> rng_ok (fun n => r (S n)).
Proof. intros H n; apply H. Qed.

Lemma gost_key_gsim c1 c2 k : bytes k -> rng_ok (g_rng c1) -> rng_ok (g_rng c2) ->
  tables_eq c1 c2 -> gsim (gost_key c1 k) (gost_key c2 k).
Proof. intros; split; auto. intros; rewrite !ekey_gost_key; auto. Qed.
Lemma gost_key_nomask_gsim c1 c2 k : bytes k -> rng_ok (g_rng c1) ->
  tables_eq c1 c2 -> gsim (gost_key c1 k) (gost_key_nomask c2 k).
Proof. intros; split; auto. intros; rewrite ekey_gost_key, ekey_gost_key_nomask; auto. Qed.
Lemma magma_key_gsim c1 c2 k : bytes k -> rng_ok (g_rng c1) -> rng_ok (g_rng c2) ->
  tables_eq c1 c2 -> gsim (magma_key c1 k) (magma_key c2 k).
Proof. intros; split; auto. intros; rewrite !ekey_magma_key; auto. Qed.

(** Reading the key back. *)
Lemma flat_map_words (g : nat -> list N) (k : list N) n : length k = (4 * n)%nat ->
  (forall i, (i < n)%nat -> g i = sub (4 * i) 4 k) -> flat_map g (seq 0 n) = k.
Proof.
  revert k g; induction n; intros k g Hl Hg.
  - destruct k; [reflexivity|discriminate].
  - cbn [seq flat_map]. rewrite Hg by lia. 
    rewrite <- (firstn_skipn 4 k) at 2. f_equal.
    rewrite <- seq_shift, flat_map_concat_map, map_map, <- flat_map_concat_map.
    apply IHn. rewrite skipn_length; lia.
    intros i Hi. rewrite Hg by lia. unfold sub. f_equal. rewrite skipn_skipn. f_equal; lia.
Qed.

Lemma get_key_gost_key c k : length k = 32%nat -> bytes k -> rng_ok (g_rng c) ->
  gost_get_key (gost_key c k) = k.
Proof.
  intros Hl Hb Hr. unfold gost_get_key. apply flat_map_words; auto.
  intros i Hi. fold (ekey (gost_key c k) i). rewrite ekey_gost_key by auto. unfold keyword_le.
  apply Nat.ltb_lt in Hi as Hi'. rewrite Hi'. apply n2le_le2n. apply bytes_sub; auto. apply sub_length; lia.
Qed.
Lemma get_key_gost_key_nomask c k : length k = 32%nat -> bytes k ->
  gost_get_key (gost_key_nomask c k) = k.
Proof.
  intros Hl Hb. unfold gost_get_key. apply flat_map_words; auto.
  intros i Hi. fold (ekey (gost_key_nomask c k) i). rewrite ekey_gost_key_nomask by auto. unfold keyword_le.
  apply Nat.ltb_lt in Hi as Hi'. rewrite Hi'. apply n2le_le2n. apply bytes_sub; auto. apply sub_length; lia.
Qed.
Lemma get_key_magma_key c k : length k = 32%nat -> bytes k -> rng_ok (g_rng c) ->
  magma_get_key (magma_key c k) = k.
Proof.
  intros Hl Hb Hr. unfold magma_get_key. apply flat_map_words; auto.
  intros i Hi. fold (ekey (magma_key c k) i). rewrite ekey_magma_key by auto. unfold keyword_be.
  apply Nat.ltb_lt in Hi as Hi'. rewrite Hi'. apply n2be_be2n. apply bytes_sub; auto. apply sub_length; lia.
Qed.
