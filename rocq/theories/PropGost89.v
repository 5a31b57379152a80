(** Properties C01-C07: the GOST 28147-89 / Magma block cipher, keys, raw modes and MAC. *)
From Coq Require FinFun.
From Verif Require Import Bytes BytesProofs Gost89Model Gost89Spec Gost89Sboxes
  Gost89Proofs Gost89SpecProofs Gost89ModeProofs.
From Coq Require Import List Lia NArith String.
Open Scope N_scope.

(** A context ready for use: S-boxes expanded, key set (with the mask drawn from the generator). *)
Definition gost_ready (c : gost_ctx) (sb : subst_block) (k : list N) : gost_ctx :=
  gost_key (gost_init c sb) k.
Definition magma_ready (c : gost_ctx) (sb : subst_block) (k : list N) : gost_ctx :=
  magma_key (gost_init c sb) k.

(** A concrete context with a non-trivial mask sequence, for examples. *)
Definition ctx0 : gost_ctx :=
  mk_gost_ctx (zeros 32) (repeat 0 8) (repeat 0 8) nil nil nil nil
    (fun n => map (fun i => w32 (N.of_nat i * 0x9E3779B9 + N.of_nat n * 0x12345 + 0xFFFF0000)) (seq 1 8)).
Lemma ctx0_rng_ok : rng_ok (g_rng ctx0).
Proof.
  intros n; split; [reflexivity|]. apply Forall_forall. intros x Hx. cbn [ctx0 g_rng] in Hx.
  apply in_map_iff in Hx as (i & <- & _). apply w32_lt.
Qed.
Definition kdemo : list N := hex "ffeeddccbbaa99887766554433221100f0f1f2f3f4f5f6f7f8f9fafbfcfdfeff".

Lemma ready_gsim c1 c2 sb k : bytes k -> rng_ok (g_rng c1) -> rng_ok (g_rng c2) ->
  gsim (gost_ready c1 sb k) (gost_ready c2 sb k).
Proof. intros. apply gost_key_gsim; auto. repeat split. Qed.
Lemma magma_ready_gsim c1 c2 sb k : bytes k -> rng_ok (g_rng c1) -> rng_ok (g_rng c2) ->
  gsim (magma_ready c1 sb k) (magma_ready c2 sb k).
Proof. intros. apply magma_key_gsim; auto. repeat split. Qed.
Lemma ready_tables c sb k : tables_of (gost_ready c sb k) sb.
Proof. apply (tables_of_eq _ (gost_init c sb)); [repeat split|apply tables_of_init]. Qed.
Lemma magma_ready_tables c sb k : tables_of (magma_ready c sb k) sb.
Proof. apply (tables_of_eq _ (gost_init c sb)); [repeat split|apply tables_of_init]. Qed.

(** ** C01 *)
(** Two contexts holding the same key (set separately, so masked differently) and S-boxes:
    each decrypts what the other encrypts, and conversely. *)
Theorem C01_gost_block_inverse :
  forall c1 c2 sb k blk,
    bytes k -> rng_ok (g_rng c1) -> rng_ok (g_rng c2) ->
    List.length blk = 8%nat -> bytes blk ->
    gostdecrypt (gost_ready c1 sb k) (gostcrypt (gost_ready c2 sb k) blk) = blk /\
    gostcrypt (gost_ready c1 sb k) (gostdecrypt (gost_ready c2 sb k) blk) = blk.
Proof.
  intros c1 c2 sb k blk Hk H1 H2 Hl Hb. pose proof (ready_gsim c1 c2 sb k Hk H1 H2) as Hs. split.
  - rewrite (gostdecrypt_gsim _ _ _ Hs). apply gost_dec_enc_block; split; auto.
  - rewrite (gostcrypt_gsim _ _ _ Hs). apply gost_enc_dec_block; split; auto.
Qed.
Print Assumptions C01_gost_block_inverse.
Example C01_example :
  gostcrypt (gost_ready ctx0 Gost28147_CryptoProParamSetA kdemo) (hex "0123456789abcdef")
    <> hex "0123456789abcdef" /\
  gostdecrypt (gost_ready ctx0 Gost28147_CryptoProParamSetA kdemo)
    (gostcrypt (gost_ready ctx0 Gost28147_CryptoProParamSetA kdemo) (hex "0123456789abcdef"))
    = hex "0123456789abcdef".
Proof. split; [vm_compute; discriminate | vm_compute; reflexivity]. Qed.

(** ** C02 *)
Theorem C02_gost_block_refines_rfc5830 :
  forall c sb k blk,
    subst_ok sb -> bytes k -> rng_ok (g_rng c) ->
    gostcrypt (gost_ready c sb k) blk = rfc5830_encrypt (sboxes_of sb) k blk /\
    gostdecrypt (gost_ready c sb k) blk = rfc5830_decrypt (sboxes_of sb) k blk.
Proof.
  intros. assert (key_le (gost_ready c sb k) k) by (intro i; apply ekey_gost_key; auto).
  split; [apply gostcrypt_spec|apply gostdecrypt_spec]; auto using ready_tables.
Qed.
Print Assumptions C02_gost_block_refines_rfc5830.
(** All eight S-box tables compiled into the library meet the hypothesis. *)
Theorem C02_sbox_tables_are_nibbles : Forall subst_ok all_subst_blocks.
Proof. exact all_subst_blocks_ok. Qed.
(** Moreover every row of every table is a permutation of 0..15. *)
Theorem C02_sbox_rows_are_permutations :
  forall sb, In sb all_subst_blocks -> forall row, In row (rows sb) ->
  List.length row = 16%nat /\ NoDup row /\ Forall (fun x => x < 16) row.
Proof.
  assert (H : forallb (fun sb => forallb (fun row =>
     (List.length row =? 16)%nat && forallb (fun v => existsb (N.eqb (N.of_nat v)) row) (seq 0 16))
     (rows sb)) all_subst_blocks = true) by (vm_compute; reflexivity).
  intros sb Hsb row Hrow. rewrite forallb_forall in H. specialize (H sb Hsb).
  rewrite forallb_forall in H. specialize (H row Hrow). apply andb_prop in H as [Hl Hs].
  apply Nat.eqb_eq in Hl. split; [exact Hl|].
  assert (I : incl (map N.of_nat (seq 0 16)) row).
  { intros x Hx. apply in_map_iff in Hx as (v & <- & Hv). rewrite forallb_forall in Hs.
    specialize (Hs v Hv). apply existsb_exists in Hs as (y & Hy & E). apply N.eqb_eq in E. subst; auto. }
  split.
  - apply NoDup_incl_NoDup with (l := map N.of_nat (seq 0 16)).
    + apply Coq.Logic.FinFun.Injective_map_NoDup. intros x y; apply Nat2N.inj. apply seq_NoDup.
    + rewrite map_length, seq_length. lia.
    + exact I.
  - pose proof all_subst_blocks_ok as A. rewrite Forall_forall in A. specialize (A sb Hsb).
    unfold subst_ok in A. rewrite Forall_forall in A. apply A. exact Hrow.
Qed.
Print Assumptions C02_sbox_rows_are_permutations.

(** ** C03 *)
Theorem C03_mask_invisible :
  forall c1 c2 sb k blk st,
    bytes k -> rng_ok (g_rng c1) ->
    let masked := gost_ready c1 sb k in
    let plain := gost_key_nomask (gost_init c2 sb) k in
    gostcrypt masked blk = gostcrypt plain blk /\
    gostdecrypt masked blk = gostdecrypt plain blk /\
    mac_block masked st blk = mac_block plain st blk.
Proof.
  intros c1 c2 sb k blk st Hk H1 masked plain.
  assert (Hs : gsim masked plain) by (apply gost_key_nomask_gsim; auto; repeat split).
  split; [|split]; [apply gostcrypt_gsim|apply gostdecrypt_gsim|apply mac_block_gsim]; auto.
Qed.
Print Assumptions C03_mask_invisible.
Theorem C03_get_key_returns_set_key :
  forall c k, List.length k = 32%nat -> bytes k -> rng_ok (g_rng c) ->
    gost_get_key (gost_key c k) = k /\ gost_get_key (gost_key_nomask c k) = k /\
    magma_get_key (magma_key c k) = k.
Proof.
  intros; split; [|split];
    [apply get_key_gost_key|apply get_key_gost_key_nomask|apply get_key_magma_key]; auto.
Qed.
Print Assumptions C03_get_key_returns_set_key.
(** The mask is really used: the stored words differ from the key words. *)
Example C03_example : g_key (gost_key ctx0 kdemo) <> g_key (gost_key_nomask ctx0 kdemo) /\
  gost_get_key (gost_key ctx0 kdemo) = kdemo.
Proof. split; vm_compute; [discriminate|reflexivity]. Qed.

(** ** C04 *)
Theorem C04_magma_block_inverse :
  forall c1 c2 sb k blk,
    bytes k -> rng_ok (g_rng c1) -> rng_ok (g_rng c2) -> List.length blk = 8%nat -> bytes blk ->
    magmadecrypt (magma_ready c1 sb k) (magmacrypt (magma_ready c2 sb k) blk) = blk /\
    magmacrypt (magma_ready c1 sb k) (magmadecrypt (magma_ready c2 sb k) blk) = blk.
Proof.
  intros c1 c2 sb k blk Hk H1 H2 Hl Hb. pose proof (magma_ready_gsim c1 c2 sb k Hk H1 H2) as Hs. split.
  - rewrite (magmadecrypt_gsim _ _ _ Hs). apply magma_dec_enc_block; split; auto.
  - rewrite (magmacrypt_gsim _ _ _ Hs). apply magma_enc_dec_block; split; auto.
Qed.
Print Assumptions C04_magma_block_inverse.

(** Swap the bytes of each 4-byte word of a key. *)
Definition wordswap (k : list N) : list N := flat_map (@rev N) (blocks 4 k).
Lemma blocks_wordswap k : (List.length k mod 4 = 0)%nat ->
  forall i, (4 * i + 4 <= List.length k)%nat -> sub (4 * i) 4 (wordswap k) = rev (sub (4 * i) 4 k).
Proof.
  revert k. apply (whole_blocks_ind 4 (fun k => forall i, (4 * i + 4 <= List.length k)%nat ->
    sub (4 * i) 4 (wordswap k) = rev (sub (4 * i) 4 k))); [lia|intros i H; simpl in H; lia|].
  intros a l Ha Hm IH i Hi. unfold wordswap. rewrite blocks_cons by (auto; lia). cbn [flat_map].
  change (flat_map (@rev N) (blocks 4 l)) with (wordswap l).
  unfold sub. destruct i.
  - change (4 * 0)%nat with 0%nat. cbn [skipn]. rewrite !firstn_app_exact; auto. rewrite rev_length; auto.
  - replace (4 * S i)%nat with (4 + 4 * i)%nat by lia. rewrite <- !skipn_skipn.
    rewrite !skipn_app_exact by (rewrite ?rev_length; auto). apply IH.
    rewrite app_length in Hi. lia.
Qed.
Lemma wordswap_bytes k : bytes k -> bytes (wordswap k).
Proof.
  intros H. unfold wordswap. pose proof (blocks_bytes 4 k ltac:(lia) H) as B.
  induction B; cbn [flat_map]; [constructor|]. apply bytes_app; auto. apply bytes_rev; auto.
Qed.
Theorem C04_magma_is_gost_reversed :
  forall c1 c2 sb k blk,
    List.length k = 32%nat -> bytes k -> rng_ok (g_rng c1) -> rng_ok (g_rng c2) ->
    List.length blk = 8%nat ->
    magmacrypt (magma_ready c1 sb k) blk = rev (gostcrypt (gost_ready c2 sb (wordswap k)) (rev blk)).
Proof.
  intros c1 c2 sb k blk Hk Hb H1 H2 Hl. rewrite (magmacrypt_rev _ _ Hl). f_equal.
  apply gostcrypt_gsim. split; [|repeat split]. intros i.
  unfold magma_ready, gost_ready. rewrite (ekey_magma_key _ k i) by auto.
  rewrite (ekey_gost_key _ (wordswap k) i) by (auto using wordswap_bytes).
  unfold keyword_be, keyword_le. destruct (Nat.ltb_spec i 8); auto.
  rewrite blocks_wordswap; [reflexivity|rewrite Hk; reflexivity|lia].
Qed.
Print Assumptions C04_magma_is_gost_reversed.
Theorem C04_magma_refines_rfc8891 :
  forall c sb k blk,
    subst_ok sb -> bytes k -> rng_ok (g_rng c) ->
    magmacrypt (magma_ready c sb k) blk = rfc8891_encrypt (sboxes_of sb) k blk /\
    magmadecrypt (magma_ready c sb k) blk = rfc8891_decrypt (sboxes_of sb) k blk.
Proof.
  intros. assert (key_be (magma_ready c sb k) k) by (intro i; apply ekey_magma_key; auto).
  split; [apply magmacrypt_spec|apply magmadecrypt_spec]; auto using magma_ready_tables.
Qed.
Print Assumptions C04_magma_refines_rfc8891.
(** RFC 8891, appendix A.3: the published vector, computed both by the model and by the specification. *)
Example C04_example :
  magmacrypt (magma_ready ctx0 Gost28147_TC26ParamSetZ kdemo) (hex "fedcba9876543210") = hex "4ee901e5c2d8ca3d" /\
  rfc8891_encrypt (sboxes_of Gost28147_TC26ParamSetZ) kdemo (hex "fedcba9876543210") = hex "4ee901e5c2d8ca3d".
Proof. split; vm_compute; reflexivity. Qed.

(** ** C05 *)
Theorem C05_raw_ecb_roundtrip :
  forall c1 c2 sb k n m,
    bytes k -> rng_ok (g_rng c1) -> rng_ok (g_rng c2) -> bytes m -> List.length m = (8 * n)%nat ->
    let a := gost_ready c1 sb k in let b := gost_ready c2 sb k in
    gost_dec b (gost_enc a m n) n = m /\ gost_enc b (gost_dec a m n) n = m /\
    List.length (gost_enc a m n) = List.length m.
Proof.
  intros c1 c2 sb k n m Hk H1 H2 Hm Hl a b. pose proof (ready_gsim c1 c2 sb k Hk H1 H2) as Hs.
  split; [|split]. apply ecb_roundtrip; auto. apply ecb_roundtrip'; auto.
  rewrite gost_enc_length; auto.
Qed.
Print Assumptions C05_raw_ecb_roundtrip.
Theorem C05_raw_cfb_roundtrip :
  forall c1 c2 sb k iv n m,
    bytes k -> rng_ok (g_rng c1) -> rng_ok (g_rng c2) -> List.length m = (8 * n)%nat ->
    let a := gost_ready c1 sb k in let b := gost_ready c2 sb k in
    gost_dec_cfb b iv (gost_enc_cfb a iv m n) n = m /\ gost_enc_cfb b iv (gost_dec_cfb a iv m n) n = m /\
    List.length (gost_enc_cfb a iv m n) = List.length m.
Proof.
  intros c1 c2 sb k iv n m Hk H1 H2 Hl a b. pose proof (ready_gsim c1 c2 sb k Hk H1 H2) as Hs.
  split; [|split]. apply cfb_roundtrip; auto. apply cfb_roundtrip'; auto.
  rewrite enc_cfb_length; auto.
Qed.
Print Assumptions C05_raw_cfb_roundtrip.
Example C05_example : let a := gost_ready ctx0 Gost28147_CryptoProParamSetB kdemo in
  gost_dec_cfb a (hex "1122334455667788") (gost_enc_cfb a (hex "1122334455667788") (hex "00112233445566778899aabbccddeeff") 2) 2
  = hex "00112233445566778899aabbccddeeff".
Proof. vm_compute; reflexivity. Qed.

(** ** C06 *)
(** The specification: the first [nbits] bits, least (resp. most) significant bits of the last byte first. *)
Definition truncate_low (buf : list N) (nbits : N) : list N :=
  firstn (N.to_nat (nbits / 8)) buf ++
  (if nbits mod 8 =? 0 then nil else [nth (N.to_nat (nbits / 8)) buf 0 mod 2 ^ (nbits mod 8)]).
Definition truncate_high (buf : list N) (nbits : N) : list N :=
  firstn (N.to_nat (nbits / 8)) buf ++
  (if nbits mod 8 =? 0 then nil
   else [nth (N.to_nat (nbits / 8)) buf 0 / 2 ^ (8 - nbits mod 8) * 2 ^ (8 - nbits mod 8)]).
(** Whole bytes: the code is right. *)
Theorem C06_mac_truncation_whole_bytes :
  forall buf n, get_mac buf (8 * n) = truncate_low buf (8 * n) /\ get_mac buf (8 * n) = firstn (N.to_nat n) buf.
Proof.
  intros. rewrite get_mac_whole. split; auto. unfold truncate_low.
  rewrite (N.mul_comm 8), N.div_mul, N.mod_mul by discriminate. simpl (0 =? 0). cbv iota.
  rewrite app_nil_r; auto.
Qed.
Print Assumptions C06_mac_truncation_whole_bytes.
(** Other sizes: the property is false in either bit order, for every size that is not a multiple of 8. *)
Theorem C06_mac_truncation_refuted :
  forall nbits, nbits < 64 -> nbits mod 8 <> 0 ->
  exists buf, List.length buf = 8%nat /\ bytes buf /\
    get_mac buf nbits <> truncate_low buf nbits /\ get_mac buf nbits <> truncate_high buf nbits.
Proof.
  intros nbits Hn Hm. exists (repeat 255 8). split; [reflexivity|]. split; [repeat constructor|].
  assert (H : forallb (fun i => let n := N.of_nat i in
     (n mod 8 =? 0) ||
     (negb (if list_eq_dec N.eq_dec (get_mac (repeat 255 8) n) (truncate_low (repeat 255 8) n) then true else false) &&
      negb (if list_eq_dec N.eq_dec (get_mac (repeat 255 8) n) (truncate_high (repeat 255 8) n) then true else false)))
     (seq 0 64) = true) by (vm_compute; reflexivity).
  rewrite forallb_forall in H. specialize (H (N.to_nat nbits)).
  rewrite N2Nat.id in H. cbv zeta in H.
  assert (I : In (N.to_nat nbits) (seq 0 64)) by (apply in_seq; lia). specialize (H I).
  apply Bool.orb_true_iff in H as [H|H]. { apply N.eqb_eq in H. contradiction. }
  apply andb_prop in H as [A B].
  destruct (list_eq_dec N.eq_dec (get_mac _ nbits) (truncate_low _ nbits)); [discriminate|].
  destruct (list_eq_dec N.eq_dec (get_mac _ nbits) (truncate_high _ nbits)); [discriminate|]. auto.
Qed.
Print Assumptions C06_mac_truncation_refuted.

(** ** C07 *)
Theorem C07_mac_refines_rfc5830 :
  forall c sb k n m,
    subst_ok sb -> bytes k -> rng_ok (g_rng c) ->
    gost_mac (gost_ready c sb k) (8 * n) m =
      firstn (N.to_nat n) (rfc5830_mac_state (sboxes_of sb) k (zeros 8) m) /\
    forall iv, gost_mac_iv (gost_ready c sb k) (8 * n) iv m =
      firstn (N.to_nat n) (rfc5830_mac_state (sboxes_of sb) k iv m).
Proof.
  intros c sb k n m Hs Hk Hr.
  assert (K : key_le (gost_ready c sb k) k) by (intro i; apply ekey_gost_key; auto).
  split; [unfold gost_mac|intros iv];
  rewrite (gost_mac_iv_spec _ sb k) by (auto using ready_tables); apply get_mac_whole.
Qed.
Print Assumptions C07_mac_refines_rfc5830.
(** The padding rule in the specification, spelled out. *)
Theorem C07_padding_rule : forall m,
  exists z, mac_message m = m ++ zeros z /\ (List.length (mac_message m) mod 8 = 0)%nat /\
    ((1 <= List.length m <= 8)%nat -> List.length (mac_message m) = 16%nat) /\
    (List.length m = 0%nat \/ (8 < List.length m)%nat -> (z < 8)%nat).
Proof.
  intros m. unfold mac_message, pad8.
  assert (M : (List.length m mod 8 < 8)%nat) by (apply Nat.mod_upper_bound; lia).
  pose proof (Nat.div_mod_eq (List.length m) 8) as D.
  set (z := ((8 - List.length m mod 8) mod 8)%nat).
  assert (Z : (z = 0 /\ List.length m mod 8 = 0 \/ z = 8 - List.length m mod 8 /\ List.length m mod 8 <> 0)%nat).
  { unfold z. destruct (Nat.eq_dec (List.length m mod 8) 0) as [E|E].
    - left. rewrite E. auto.
    - right. split; auto. apply Nat.mod_small. lia. }
  assert (Zl : ((List.length m + z) mod 8 = 0)%nat).
  { destruct Z as [[-> E]|[-> E]].
    - rewrite Nat.add_0_r; auto.
    - replace (List.length m + (8 - List.length m mod 8))%nat with ((List.length m / 8 + 1) * 8)%nat by lia.
      apply Nat.mod_mul; lia. }
  destruct (Nat.eqb_spec (List.length (m ++ zeros z)) 8) as [E|E]; rewrite app_length, zeros_length in E.
  - exists (z + 8)%nat. rewrite <- app_assoc.
    split; [unfold zeros; rewrite repeat_app; reflexivity|]. rewrite !app_length, !zeros_length.
    split; [rewrite Nat.add_assoc, E; reflexivity|]. split; intros; lia.
  - exists z. split; auto. rewrite app_length, zeros_length. split; auto.
    split; intros H; destruct Z as [[Z0 Z1]|[Z0 Z1]]; try lia.
Qed.
Print Assumptions C07_padding_rule.
Example C07_example :
  gost_mac (gost_ready ctx0 Gost28147_CryptoProParamSetA kdemo) 32 (hex "0102030405") =
  firstn 4 (rfc5830_mac_state (sboxes_of Gost28147_CryptoProParamSetA) kdemo (zeros 8) (hex "0102030405")).
Proof. vm_compute; reflexivity. Qed.
