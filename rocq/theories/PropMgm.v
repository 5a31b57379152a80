(** Properties C27-C30: the ciphers kuznyechik-mgm and magma-mgm. *)
From Verif Require Import Bytes BytesProofs Gf2 BlockLoop Gost89Model Gost89Sboxes Gost89Spec Gost89Proofs Gost89SpecProofs CryptModel CryptProofs MagmaProofs
  KuzSpec KuzModel KuzProofs KuzBlockProofs KuzCipherModel KuzModeProofs PropGost89 PropCrypt PropKuzModes
  MgmModel MgmSpec MgmFieldProofs MgmProofs.
Open Scope N_scope.

(** * C27 *)
Theorem C27_gf64_mul_is_field_product :
  forall le a b, bytes a -> length a = 8%nat -> bytes b -> length b = 8%nat ->
    gf64_mul le a b = mul64 a b.
Proof. exact gf64_mul_spec. Qed.
Print Assumptions C27_gf64_mul_is_field_product.
Theorem C27_gf128_mul_is_field_product :
  forall le a b, bytes a -> length a = 16%nat -> bytes b -> length b = 16%nat ->
    gf128_mul_uint64 le a b = mul128 a b.
Proof. exact gf128_mul_spec. Qed.
Print Assumptions C27_gf128_mul_is_field_product.
(** The product of the specification is commutative, bilinear and associative, with unit 1. *)
Theorem C27_field_laws :
  forall d p, (d = 64 /\ p = poly64) \/ (d = 128 /\ p = poly128) -> forall a b c,
    gfmul d p a b = gfmul d p b a /\ gfmul d p a (N.lxor b c) = N.lxor (gfmul d p a b) (gfmul d p a c) /\
    gfmul d p (gfmul d p a b) c = gfmul d p a (gfmul d p b c) /\ (a < 2 ^ d -> gfmul d p 1 a = a).
Proof.
  intros d p H a b c. assert (D : degree d p) by (destruct H as [[-> ->]|[-> ->]]; [exact degree64|exact degree128]).
  split; [apply gfmul_comm|]. split; [apply gfmul_lxor_r|]. split; [apply gfmul_assoc; exact D|]. intros Ha. apply gfmul_1_l; auto.
Qed.
Print Assumptions C27_field_laws.
Example C27_example :
  gf64_mul true [0x80;0;0;0;0;0;0;0] [0;0;0;0;0;0;0;2] = [0;0;0;0;0;0;0;0x1b] /\
  gf128_mul_uint64 true (0x80 :: zeros 15) (zeros 15 ++ [2]) = zeros 15 ++ [0x87].
Proof. split; vm_compute; reflexivity. Qed.

(** * The two ciphers *)
Inductive mgm_cipher := KuznyechikMgm | MagmaMgm.
Definition mgm_bl (cph : mgm_cipher) : nat := match cph with KuznyechikMgm => 16 | MagmaMgm => 8 end.
(** gost_grasshopper_cipher.c:374-380, gost_crypt.c:552-564: the block function as initialised from a
    key by gost_grasshopper_cipher.c:484, gost_crypt.c:626-628, over whatever the context held before. *)
Definition old_memory : Type := (kctx * gost_ctx)%type.
Definition gost_magma_encrypt_wrap (g : gost_ctx) (b : list N) : list N := rev (gostcrypt g (rev b)).
Definition mgm_block (cph : mgm_cipher) (old : old_memory) (k b : list N) : list N :=
  match cph with
  | KuznyechikMgm => grasshopper_encrypt_block (k_ek (gost_grasshopper_cipher_key (fst old) k)) b
  | MagmaMgm => gost_magma_encrypt_wrap (magma_key (gost_init (snd old) Gost28147_TC26ParamSetZ) k) b
  end.
Definition mgm_mul (cph : mgm_cipher) (le : bool) : list N -> list N -> list N :=
  match cph with KuznyechikMgm => gf128_mul_uint64 le | MagmaMgm => gf64_mul le end.
(** The standard's block ciphers and fields. *)
Definition spec_block (cph : mgm_cipher) (k b : list N) : list N :=
  match cph with KuznyechikMgm => E_ k b | MagmaMgm => rfc8891_encrypt (sboxes_of Gost28147_TC26ParamSetZ) k b end.
Definition spec_mul (cph : mgm_cipher) : list N -> list N -> list N :=
  match cph with KuznyechikMgm => mul128 | MagmaMgm => mul64 end.

Definition blk (cph : mgm_cipher) (b : list N) : Prop := length b = mgm_bl cph /\ bytes b.
Definition key32 (k : list N) : Prop := length k = 32%nat /\ bytes k.
Definition old_ok (old : old_memory) : Prop :=
  length (k_ek (fst old)) = 10%nat /\ length (k_dk (fst old)) = 10%nat /\ rng_ok (g_rng (snd old)).

Lemma mgm_bl_or cph : mgm_bl cph = 8%nat \/ mgm_bl cph = 16%nat. Proof. destruct cph; auto. Qed.
Lemma blocks_agree cph old k b : old_ok old -> key32 k -> blk cph b -> mgm_block cph old k b = spec_block cph k b.
Proof.
  intros (O1 & O2 & O3) [Lk Bk] [Lb Bb]. destruct cph; cbn [mgm_block spec_block mgm_bl] in *.
  - assert (K : kkst k (gost_grasshopper_cipher_key (fst old) k)) by (apply kkst_key; auto; split; auto).
    apply (kkst_enc k _ b K). split; auto.
  - unfold gost_magma_encrypt_wrap.
    assert (M : mst Gost28147_TC26ParamSetZ k (magma_key (gost_init (snd old) Gost28147_TC26ParamSetZ) k)).
    { apply mst_magma_key; [exact Z_ok|apply tables_of_init|exact O3|exact Bk]. }
    rewrite <- (mst_crypt _ k _ b M). symmetry. apply magmacrypt_rev. exact Lb.
Qed.
Lemma spec_block_blk cph k b : key32 k -> blk cph b -> blk cph (spec_block cph k b).
Proof.
  intros [Lk Bk] [Lb Bb]. destruct cph; cbn [spec_block mgm_bl] in *.
  - destruct (E_blk k b Lk Bk) as [A B]; [split; auto|]. split; auto.
  - split; [apply rfc8891_encrypt_length|apply rfc8891_encrypt_bytes].
Qed.
Lemma muls_agree cph le a b : blk cph a -> blk cph b -> mgm_mul cph le a b = spec_mul cph a b.
Proof.
  intros [La Ba] [Lb Bb]. destruct cph; cbn [mgm_mul spec_mul mgm_bl] in *; [apply gf128_mul_spec|apply gf64_mul_spec]; auto.
Qed.
Lemma spec_mul_blk cph a b : blk cph (spec_mul cph a b).
Proof. destruct cph; cbn [spec_mul]; (split; [apply n2be_length|apply n2be_bytes]). Qed.
Lemma spec_mul_0 cph a : spec_mul cph a (zeros (mgm_bl cph)) = zeros (mgm_bl cph).
Proof.
  destruct cph; cbn [spec_mul mgm_bl]; unfold mul128, mul64.
  - change (be2n (zeros 16)) with 0. rewrite gfmul_comm, gfmul_0_l. reflexivity.
  - change (be2n (zeros 8)) with 0. rewrite gfmul_comm, gfmul_0_l. reflexivity.
Qed.

(** The specification only looks at the cipher and the product on blocks. *)
Section SpecExt.
  Variables (bl : nat) (E E' : list N -> list N) (mul mul' : list N -> list N -> list N) (icn : list N).
  Hypothesis Hbl : bl = 8%nat \/ bl = 16%nat.
  Hypothesis HE : forall b, isblk bl b -> E b = E' b.
  Hypothesis HEb : forall b, isblk bl b -> isblk bl (E b).
  Hypothesis Hm : forall a b, isblk bl a -> isblk bl b -> mul a b = mul' a b.
  Hypothesis Hmb : forall a b, isblk bl a -> isblk bl b -> isblk bl (mul a b).
  Hypothesis Hicn : isblk bl icn.
  Lemma Zcnt_ext i : Zcnt bl E icn i = Zcnt bl E' icn i.
  Proof. unfold Zcnt. rewrite HE; [reflexivity|]. apply (with_bit_blk bl E mul Hbl HEb Hmb icn Hicn). lia. Qed.
  Lemma Ycnt_ext i : Ycnt bl E icn i = Ycnt bl E' icn i.
  Proof. unfold Ycnt. rewrite HE; [reflexivity|]. apply (with_bit_blk bl E mul Hbl HEb Hmb icn Hicn). lia. Qed.
  Lemma crypt_ext m : mgm_crypt_spec bl E icn m = mgm_crypt_spec bl E' icn m.
  Proof.
    unfold mgm_crypt_spec. generalize 0%nat. induction (blocks bl m) as [|b bs IH]; intros i; [reflexivity|].
    cbn [ctr_blocks]. rewrite IH. rewrite HE by (apply (Ycnt_blk bl E mul Hbl HEb Hmb icn Hicn)). rewrite Ycnt_ext. reflexivity.
  Qed.
  Lemma ml_ext bs : Forall (isblk bl) bs -> forall i, multilinear bl E mul icn i bs = multilinear bl E' mul' icn i bs.
  Proof.
    induction 1 as [|b bs Hb _ IH]; intros i; [reflexivity|]. cbn [multilinear]. rewrite IH.
    assert (ZB : isblk bl (Zcnt bl E icn i)) by (apply (Zcnt_blk bl E mul Hbl HEb Hmb icn Hicn)).
    rewrite Hm by auto. rewrite (HE (Zcnt bl E icn i)) by auto. rewrite Zcnt_ext. reflexivity.
  Qed.
  Lemma tag_ext A C : bytes A -> bytes C -> mgm_tag_spec bl E mul icn A C = mgm_tag_spec bl E' mul' icn A C.
  Proof.
    intros BA BC. unfold mgm_tag_spec.
    assert (F : Forall (isblk bl) (padded bl A ++ padded bl C ++ [lengths bl A C])).
    { apply Forall_app. split; [apply (padded_blk bl E mul Hbl HEb Hmb icn Hicn); auto|]. apply Forall_app. split; [apply (padded_blk bl E mul Hbl HEb Hmb icn Hicn); auto|].
      constructor; [apply (lengths_blk bl E mul Hbl HEb Hmb icn Hicn)|constructor]. }
    rewrite HE by (apply (ml_blk bl E mul Hbl HEb Hmb icn Hicn); auto). rewrite ml_ext by auto. reflexivity.
  Qed.
End SpecExt.

(** * Sessions *)
(** The user's calls one after the other; a negative return value is a failed EVP call. *)
Fixpoint calls (bl : nat) (le : bool) (Ek : list N -> list N -> list N) (mul : list N -> list N -> list N)
  (c : mevp) (l : list mgm_call) : option (mevp * list N) :=
  match l with
  | nil => Some (c, nil)
  | x :: t =>
      match do_mgm bl le Ek mul c x with
      | (r, c, o) =>
          if (r <? 0)%Z then None
          else match calls bl le Ek mul c t with Some (c, o') => Some (c, o ++ o') | None => None end
      end
  end.
Definition session cph le old := calls (mgm_bl cph) le (mgm_block cph old) (mgm_mul cph le).
(** A context object of any history: the arrays have their sizes. *)
Definition mevp_ok (cph : mgm_cipher) (c : mevp) : Prop :=
  length (x_buf c) = 32%nat /\ length (x_iv c) = 16%nat /\ blk cph (m_Zi (x_mgm c)).
(** The ways to give a key and a nonce to a context: together, the nonce on a context that already has
    the key, or the key on a context that was never given one, after the nonce. *)
Inductive mgm_started (cph : mgm_cipher) (k iv : list N) (enc : bool) : mevp -> Prop :=
| started_together c0 : mevp_ok cph c0 -> mgm_started cph k iv enc (mgm_init_evp (mgm_bl cph) c0 (Some k) (Some iv) enc)
| started_nonce c0 : mevp_ok cph c0 -> x_keyset c0 = true -> x_key c0 = k ->
    mgm_started cph k iv enc (mgm_init_evp (mgm_bl cph) c0 None (Some iv) enc)
| started_key c0 e0 : mevp_ok cph c0 -> x_keyset c0 = false ->
    mgm_started cph k iv enc (mgm_init_evp (mgm_bl cph) (mgm_init_evp (mgm_bl cph) c0 None (Some iv) e0) (Some k) None enc).

Lemma nonneg (d : list N) : (Z.of_nat (length d) <? 0)%Z = false.
Proof. apply Z.ltb_ge. lia. Qed.
Lemma nlen_app (a b : list N) : N.of_nat (length (a ++ b)) = N.of_nat (length a) + N.of_nat (length b).
Proof. rewrite app_length, Nat2N.inj_add. reflexivity. Qed.
Lemma all_bytes ds : Forall bytes ds -> bytes (concat ds).
Proof. induction 1; cbn [concat]; [constructor|apply bytes_app; auto]. Qed.
(** Data calls after the first one; [ct x o] is the ciphertext side. *)
Definition ct (enc : bool) (x o : list N) : list N := if enc then o else x.
Lemma ct_length enc x o : length o = length x -> length (ct enc x o) = length x.
Proof. destruct enc; auto. Qed.
Section Evp.
  Variables (cph : mgm_cipher) (le : bool) (old : old_memory) (k iv : list N).
  Hypothesis Hold : old_ok old.
  Hypothesis Hk : key32 k.
  Hypothesis Hiv : blk cph iv.
  Let bl := mgm_bl cph.
  Let E := mgm_block cph old k.
  Let mul := mgm_mul cph le.
  Let HB : bl = 8%nat \/ bl = 16%nat := mgm_bl_or cph.
  Lemma HE1 : forall b, isblk bl b -> isblk bl (E b).
  Proof. intros b Hb. unfold E. rewrite blocks_agree by auto. apply spec_block_blk; auto. Qed.
  Lemma Hm1 : forall a b, isblk bl a -> isblk bl b -> isblk bl (mul a b).
  Proof. intros a b Ha Hb. unfold mul. rewrite muls_agree by auto. apply spec_mul_blk. Qed.
  Lemma Hm0 : forall a, isblk bl a -> mul a (zeros bl) = zeros bl.
  Proof. intros a Ha. unfold mul. rewrite muls_agree; auto; [apply spec_mul_0|]. apply blk_zeros. Qed.
  Lemma spec_crypt m : mgm_crypt_spec bl E iv m = mgm_crypt_spec bl (spec_block cph k) iv m.
  Proof. apply (crypt_ext bl E (spec_block cph k) mul (spec_mul cph) iv HB (fun b Hb => blocks_agree cph old k b Hold Hk Hb) HE1 (muls_agree cph le) Hm1 Hiv). Qed.
  Lemma spec_tag A C : bytes A -> bytes C -> mgm_tag_spec bl E mul iv A C = mgm_tag_spec bl (spec_block cph k) (spec_mul cph) iv A C.
  Proof.
    apply (tag_ext bl E (spec_block cph k) mul (spec_mul cph) iv HB (fun b Hb => blocks_agree cph old k b Hold Hk Hb) HE1 (muls_agree cph le) Hm1 Hiv).
  Qed.

  (** The context between two calls. *)
  Definition ev (enc : bool) (tag : option (list N)) (c : mevp) : Prop :=
    x_key c = k /\ x_keyset c = true /\ x_ivset c = true /\ x_enc c = enc /\ length (x_buf c) = 32%nat /\
    match tag with Some t => x_taglen c = Z.of_nat bl /\ firstn bl (x_buf c) = t | None => True end.
  Lemma ev_mgm enc tag c m : ev enc tag c -> ev enc tag (x_w_mgm c m).
  Proof. intros H. exact H. Qed.
  Definition m0 enc (s : bool) c A := ev enc None c /\ Inv1 bl E mul iv s (x_mgm c) A.

  Lemma started_ev enc c : mgm_started cph k iv enc c ->
    ev enc None c /\ Inv1 bl E mul iv false (x_mgm c) nil /\ isblk bl (m_Zi (x_mgm c)).
  Proof.
    assert (S1 : forall m, Inv1 bl E mul iv false (gost_mgm128_setiv bl m iv) nil).
    { intros m. apply (setiv_Inv1 bl E mul HB HE1 Hm1 iv Hiv). }
    intros H. destruct H as [c0 (L1 & L2 & L3)|c0 (L1 & L2 & L3) Hs Hkk|c0 e0 (L1 & L2 & L3) Hs]; cbn [mgm_init_evp].
    - split; [repeat split; exact L1|]. split; [exact (S1 _)|exact (blk_zeros bl)].
    - cbn [x_w_enc x_keyset]. rewrite Hs. split; [repeat split; auto|]. split; [exact (S1 _)|exact L3].
    - cbn [x_w_enc x_keyset]. rewrite Hs. cbn [x_w_ivset x_ivset x_w_enc x_iv x_key].
      assert (EI : firstn bl (overwrite (x_iv c0) 0 (firstn bl iv)) = firstn bl iv).
      { destruct Hiv as [Li _]. fold bl in Li. rewrite <- Li at 1 2. rewrite firstn_all. rewrite <- Li. rewrite firstn_all. apply overwrite_0_firstn. }
      assert (SI : gost_mgm128_setiv bl (gost_mgm128_init bl) (overwrite (x_iv c0) 0 (firstn bl iv)) = gost_mgm128_setiv bl (gost_mgm128_init bl) iv).
      { unfold gost_mgm128_setiv. rewrite EI. reflexivity. }
      cbn [x_mgm x_w_mgm]. unfold bl in SI. rewrite SI. split; [repeat split; exact L1|]. split; [exact (S1 _)|exact (blk_zeros bl)].
  Qed.

  Definition lim_ok (A C : list N) : Prop := N.of_nat (length A) + N.of_nat (length C) <= limit bl.
  Lemma lengths_lim A C : mgm_lengths_ok bl A C -> lim_ok A C.
  Proof.
    unfold mgm_lengths_ok, lim_ok, limit. destruct HB as [e|e]; rewrite e.
    - change (2 ^ (4 * N.of_nat 8)) with (8 * 2 ^ 29). change (2 ^ (N.of_nat 8 * 4 - 3)) with (2 ^ 29). lia.
    - change (2 ^ (4 * N.of_nat 16)) with (8 * 2 ^ 61). change (2 ^ (N.of_nat 16 * 4 - 3)) with (2 ^ 61). lia.
  Qed.
  Definition S := calls bl le (mgm_block cph old) mul.
  Lemma S_cons c x t : S c (x :: t) =
    let '(r, c, o) := do_mgm bl le (mgm_block cph old) mul c x in
    if (r <? 0)%Z then None else match S c t with Some (c, o') => Some (c, o ++ o') | None => None end.
  Proof. reflexivity. Qed.
  Lemma do_aad enc tag s c A d : ev enc tag c -> Inv1 bl E mul iv s (x_mgm c) A -> bytes d -> lim_ok (A ++ d) nil ->
    exists m, do_mgm bl le (mgm_block cph old) mul c (CallAad d) = (Z.of_nat (length d), x_w_mgm c m, nil) /\
      Inv1 bl E mul iv true m (A ++ d).
  Proof.
    intros (K1 & K2 & K3 & K4 & K5) I Bd L. unfold do_mgm. rewrite K1, K2, K3. cbn [negb]. fold E.
    destruct (aad_step bl E mul HB HE1 Hm1 iv Hiv s (x_mgm c) A d I Bd) as (m & E1 & I').
    { unfold lim_ok in L. rewrite nlen_app in L. cbn in L. lia. }
    rewrite E1. exists m. split; [reflexivity|exact I'].
  Qed.
  Lemma run_aads enc tag ds : Forall bytes ds -> forall s c A, ev enc tag c -> Inv1 bl E mul iv s (x_mgm c) A -> lim_ok (A ++ concat ds) nil ->
    exists m, (forall t, S c (map CallAad ds ++ t) = S (x_w_mgm c m) t) /\
      Inv1 bl E mul iv (match ds with nil => s | _ => true end) m (A ++ concat ds) /\ (ds = nil -> m = x_mgm c).
  Proof.
    induction 1 as [|d ds Bd _ IH]; intros s c A V I L; cbn [map concat app] in *.
    - exists (x_mgm c). rewrite app_nil_r. split; [|split; [exact I|reflexivity]]. intros t. destruct c; reflexivity.
    - rewrite app_assoc in L. destruct (do_aad enc tag s c A d V I Bd) as (m & E1 & I1).
      { unfold lim_ok in *. rewrite nlen_app in L. lia. }
      destruct (IH true (x_w_mgm c m) (A ++ d) (ev_mgm enc tag c m V) I1 L) as (m2 & E2 & I2 & _).
      exists m2. rewrite <- app_assoc in I2. split; [|split; [destruct ds; exact I2|discriminate]]. intros t. rewrite S_cons, E1, nonneg, E2.
      cbn [app]. change (x_w_mgm (x_w_mgm c m) m2) with (x_w_mgm c m2). destruct (S (x_w_mgm c m2) t) as [[? ?]|]; reflexivity.
  Qed.
  Lemma do_data enc tag c A C d : ev enc tag c -> Inv2 bl E mul iv (x_mgm c) A C -> bytes d -> lim_ok A (C ++ d) ->
    exists m, do_mgm bl le (mgm_block cph old) mul c (CallData d) = (Z.of_nat (length d), x_w_mgm c m, xks bl E iv (length C) d) /\
      Inv2 bl E mul iv m A (C ++ ct enc d (xks bl E iv (length C) d)).
  Proof.
    intros (K1 & K2 & K3 & K4 & K5) I Bd L. unfold do_mgm. rewrite K1, K2, K3, K4. cbn [negb]. fold E.
    assert (L' : N.of_nat (length A) + N.of_nat (length C) + N.of_nat (length d) <= limit bl) by (unfold lim_ok in L; rewrite nlen_app in L; lia).
    destruct enc.
    - destruct (encrypt_next bl E mul HB HE1 Hm1 iv Hiv (x_mgm c) A C d I Bd L') as (m & E1 & I').
      rewrite E1. exists m. split; [reflexivity|exact I'].
    - destruct (decrypt_next bl E mul HB HE1 Hm1 iv Hiv (x_mgm c) A C d I Bd L') as (m & E1 & I').
      rewrite E1. exists m. split; [reflexivity|exact I'].
  Qed.
  Lemma do_first enc tag s c A d : (enc = false -> s = true) -> ev enc tag c -> Inv1 bl E mul iv s (x_mgm c) A -> bytes d -> lim_ok A d ->
    exists m, do_mgm bl le (mgm_block cph old) mul c (CallData d) = (Z.of_nat (length d), x_w_mgm c m, xks bl E iv 0 d) /\
      Inv2 bl E mul iv m A (ct enc d (xks bl E iv 0 d)).
  Proof.
    intros Hs (K1 & K2 & K3 & K4 & K5) I Bd L. unfold do_mgm. rewrite K1, K2, K3, K4. cbn [negb]. fold E.
    destruct enc.
    - destruct (encrypt_first bl E mul HB HE1 Hm1 iv Hiv s (x_mgm c) A d I Bd L) as (m & E1 & I').
      rewrite E1. exists m. split; [reflexivity|exact I'].
    - rewrite Hs in I by reflexivity. destruct (decrypt_first bl E mul HB HE1 Hm1 iv Hiv (x_mgm c) A d I Bd L) as (m & E1 & I').
      rewrite E1. exists m. split; [reflexivity|exact I'].
  Qed.
  Lemma run_data enc tag ds : Forall bytes ds -> forall c A C, ev enc tag c -> Inv2 bl E mul iv (x_mgm c) A C -> lim_ok A (C ++ concat ds) ->
    exists m, (forall t, S c (map CallData ds ++ t) =
        match S (x_w_mgm c m) t with Some (c', o) => Some (c', xks bl E iv (length C) (concat ds) ++ o) | None => None end) /\
      Inv2 bl E mul iv m A (C ++ ct enc (concat ds) (xks bl E iv (length C) (concat ds))).
  Proof.
    induction 1 as [|d ds Bd _ IH]; intros c A C V I L; cbn [map concat app] in *.
    - exists (x_mgm c). cbn [xks]. split; [|destruct enc; cbn [ct]; rewrite app_nil_r; exact I]. intros t.
      replace (x_w_mgm c (x_mgm c)) with c by (destruct c; reflexivity). destruct (S c t) as [[? ?]|]; reflexivity.
    - destruct (do_data enc tag c A C d V I Bd) as (m & E1 & I1).
      { unfold lim_ok in *. rewrite app_assoc, nlen_app in L. lia. }
      set (o1 := xks bl E iv (length C) d) in *.
      assert (Lo : length o1 = length d) by apply xks_length.
      assert (LC : length (C ++ ct enc d o1) = (length C + length d)%nat) by (rewrite app_length, ct_length by auto; lia).
      destruct (IH (x_w_mgm c m) A (C ++ ct enc d o1) (ev_mgm enc tag c m V) I1) as (m2 & E2 & I2).
      { unfold lim_ok in *. rewrite !nlen_app in *. rewrite ct_length by auto. lia. }
      rewrite LC in *. exists m2. split.
      + intros t. rewrite S_cons, E1, nonneg, E2. change (x_w_mgm (x_w_mgm c m) m2) with (x_w_mgm c m2).
        rewrite (xks_app bl E mul HB HE1 Hm1 iv Hiv). fold o1. destruct (S (x_w_mgm c m2) t) as [[? ?]|]; [|reflexivity]. rewrite app_assoc. reflexivity.
      + rewrite <- app_assoc in I2. rewrite (xks_app bl E mul HB HE1 Hm1 iv Hiv). fold o1.
        replace (ct enc (d ++ concat ds) (o1 ++ xks bl E iv (length C + length d) (concat ds))) with
          (ct enc d o1 ++ ct enc (concat ds) (xks bl E iv (length C + length d) (concat ds))) by (destruct enc; reflexivity).
        exact I2.
  Qed.
  (** All calls before the final one. *)
  Lemma run_all enc tag s ads ds c : (enc = false -> s = true \/ ads <> nil \/ ds = nil) ->
    ev enc tag c -> Inv1 bl E mul iv s (x_mgm c) nil -> Forall bytes ads -> Forall bytes ds ->
    mgm_lengths_ok bl (concat ads) (concat ds) ->
    exists m, (forall t, S c (map CallAad ads ++ map CallData ds ++ t) =
        match S (x_w_mgm c m) t with Some (c', o) => Some (c', xks bl E iv 0 (concat ds) ++ o) | None => None end) /\
      (isblk bl (m_Zi (x_mgm c)) -> snd (mgm_finish bl le E mul m) = mgm_tag_spec bl E mul iv (concat ads) (ct enc (concat ds) (xks bl E iv 0 (concat ds)))).
  Proof.
    intros Hs V I FA FD HL. pose proof (lengths_lim _ _ HL) as L.
    destruct (run_aads enc tag ads FA s c nil V I) as (m1 & E1 & I1 & M1).
    { unfold lim_ok in *. cbn [app length]. lia. }
    cbn [app] in I1. destruct ds as [|d ds].
    - exists m1. cbn [map concat app xks] in *. split.
      + intros t. rewrite E1. destruct (S (x_w_mgm c m1) t) as [[? ?]|]; reflexivity.
      + intros HZ. replace (ct enc nil nil) with (@nil N) by (destruct enc; reflexivity). destruct ads as [|a ads].
        * destruct s.
          -- apply (finish_Inv1 bl le E mul HB HE1 Hm1 iv Hiv); auto.
          -- rewrite (M1 eq_refl) in *. apply (finish_nothing bl le E mul HB HE1 Hm1 iv Hiv Hm0); auto.
        * apply (finish_Inv1 bl le E mul HB HE1 Hm1 iv Hiv); auto.
    - inversion FD as [|? ? Bd FD']; subst. cbn [concat] in *.
      set (s' := match ads with nil => s | _ => true end) in *.
      assert (Hs' : enc = false -> s' = true).
      { intros e. unfold s'. destruct (Hs e) as [->|[H|H]]; [destruct ads; reflexivity|destruct ads; [congruence|reflexivity]|discriminate]. }
      destruct (do_first enc tag s' (x_w_mgm c m1) (concat ads) d Hs' (ev_mgm enc tag c m1 V) I1 Bd) as (m2 & E2 & I2).
      { unfold lim_ok in *. rewrite nlen_app in L. lia. }
      set (o1 := xks bl E iv 0 d) in *. assert (Lo : length o1 = length d) by apply xks_length.
      destruct (run_data enc tag ds FD' (x_w_mgm c m2) (concat ads) (ct enc d o1) (ev_mgm enc tag c m2 V) I2) as (m3 & E3 & I3).
      { unfold lim_ok in *. rewrite nlen_app in *. rewrite ct_length by auto. lia. }
      rewrite ct_length in * by auto.
      assert (X : xks bl E iv 0 (d ++ concat ds) = o1 ++ xks bl E iv (length d) (concat ds)) by apply (xks_app bl E mul HB HE1 Hm1 iv Hiv).
      exists m3. rewrite X. split.
      + intros t. rewrite E1. cbn [map app]. rewrite S_cons, E2, nonneg. change (x_w_mgm (x_w_mgm c m1) m2) with (x_w_mgm c m2).
        rewrite E3. change (x_w_mgm (x_w_mgm c m2) m3) with (x_w_mgm c m3).
        destruct (S (x_w_mgm c m3) t) as [[? ?]|]; [|reflexivity]. rewrite app_assoc. reflexivity.
      + intros _. replace (ct enc (d ++ concat ds) (o1 ++ xks bl E iv (length d) (concat ds))) with
          (ct enc d o1 ++ ct enc (concat ds) (xks bl E iv (length d) (concat ds))) by (destruct enc; reflexivity).
        apply (finish_Inv2 bl le E mul HB HE1 Hm1 iv Hiv); auto.
        unfold mgm_lengths_ok in *. rewrite !nlen_app in *. rewrite !ct_length; [exact HL|apply xks_length|auto].
  Qed.
  (** Encryption sessions. *)
  Lemma session_enc c ads ds : mgm_started cph k iv true c -> Forall bytes ads -> Forall bytes ds ->
    mgm_lengths_ok bl (concat ads) (concat ds) ->
    let C := mgm_crypt_spec bl (spec_block cph k) iv (concat ds) in
    exists c', S c (map CallAad ads ++ map CallData ds ++ [CallFinal]) = Some (c', C) /\
      (forall n, (0 < n <= Z.of_nat bl)%Z ->
         mgm_get_tag bl c' n = Some (firstn (Z.to_nat n) (mgm_tag_spec bl (spec_block cph k) (spec_mul cph) iv (concat ads) C))) /\
      x_ivset c' = false.
  Proof.
    intros H FA FD HL. cbv zeta. destruct (started_ev true c H) as (V & I & HZ).
    destruct (run_all true None false ads ds c ltac:(discriminate) V I FA FD HL) as (m & E1 & T). specialize (T HZ).
    rewrite <- spec_crypt. rewrite (crypt_spec_xks bl E mul HB HE1 Hm1 iv Hiv).
    set (o := xks bl E iv 0 (concat ds)) in *.
    assert (Bo : bytes o) by (apply (xks_bytes bl E mul HB HE1 Hm1 iv Hiv); apply all_bytes; auto).
    rewrite <- spec_tag by (auto; apply all_bytes; auto). cbn [ct] in T. rewrite <- T.
    assert (LT : length (snd (mgm_finish bl le E mul m)) = bl).
    { rewrite T. apply (tag_blk bl E mul HB HE1 Hm1 iv Hiv); auto. apply all_bytes; auto. }
    rewrite E1. rewrite S_cons. destruct V as (K1 & K2 & K3 & K4 & K5 & _).
    unfold do_mgm. cbn [x_w_mgm x_key x_keyset x_ivset x_enc x_mgm]. rewrite K1, K2, K3, K4. cbn [negb]. fold E. unfold gost_mgm128_tag.
    destruct (mgm_finish bl le E mul m) as [m' t] eqn:F. cbn [snd] in LT.
    cbn [Z.ltb Z.compare S calls app]. rewrite app_nil_r. eexists. split; [reflexivity|].
    split; [|reflexivity]. intros n Hn. unfold mgm_get_tag. cbn [x_w_ivset x_w_tag x_w_mgm x_enc x_taglen x_buf]. rewrite K4.
    destruct (Z.leb_spec n 0); [lia|]. destruct (Z.ltb_spec (Z.of_nat bl) n); [lia|]. destruct (Z.ltb_spec (Z.of_nat bl) 0); [lia|]. cbn [orb negb snd].
    f_equal. rewrite (firstn_all2 t) by lia. unfold overwrite. cbn [firstn app]. apply firstn_app_le. lia.
  Qed.
  (** Decryption sessions. *)
  Lemma session_dec c ads ds tag : mgm_started cph k iv false c -> blk cph tag -> ads <> nil \/ ds = nil -> Forall bytes ads -> Forall bytes ds ->
    mgm_lengths_ok bl (concat ads) (concat ds) ->
    fst (mgm_set_tag bl c (Z.of_nat bl) tag) = 1%Z /\
    (tag = mgm_tag_spec bl (spec_block cph k) (spec_mul cph) iv (concat ads) (concat ds) ->
      exists c', S (snd (mgm_set_tag bl c (Z.of_nat bl) tag)) (map CallAad ads ++ map CallData ds ++ [CallFinal]) =
        Some (c', mgm_crypt_spec bl (spec_block cph k) iv (concat ds)) /\ x_ivset c' = false) /\
    (tag <> mgm_tag_spec bl (spec_block cph k) (spec_mul cph) iv (concat ads) (concat ds) ->
      S (snd (mgm_set_tag bl c (Z.of_nat bl) tag)) (map CallAad ads ++ map CallData ds ++ [CallFinal]) = None).
  Proof.
    intros H [Lt Bt] Hcalls FA FD HL. fold bl in Lt. destruct (started_ev false c H) as (V & I & HZ).
    set (c1 := snd (mgm_set_tag bl c (Z.of_nat bl) tag)).
    pose proof (bl_pos bl HB) as P.
    assert (Q : mgm_set_tag bl c (Z.of_nat bl) tag = (1%Z, x_w_tag c (overwrite (x_buf c) 0 tag) (Z.of_nat bl))).
    { destruct V as (K1 & K2 & K3 & K4 & K5 & _). unfold mgm_set_tag. rewrite K4, Z.eqb_refl. destruct (Z.leb_spec (Z.of_nat bl) 0); [lia|].
      cbn [orb negb]. rewrite Nat2Z.id, firstn_all2 by lia. reflexivity. }
    assert (V1 : ev false (Some tag) c1).
    { unfold c1. rewrite Q. destruct V as (K1 & K2 & K3 & K4 & K5 & _). repeat split; auto.
      - cbn [snd x_w_tag x_buf]. rewrite overwrite_length; [exact K5|]. destruct HB; lia.
      - cbn [snd x_w_tag x_buf]. rewrite <- Lt. apply overwrite_0_firstn. }
    assert (I1 : Inv1 bl E mul iv false (x_mgm c1) nil) by (unfold c1; rewrite Q; exact I).
    assert (HZ1 : isblk bl (m_Zi (x_mgm c1))) by (unfold c1; rewrite Q; exact HZ).
    split; [rewrite Q; reflexivity|]. clearbody c1. clear Q.
    assert (Hs : false = false -> false = true \/ ads <> nil \/ ds = nil) by (intros _; auto).
    destruct (run_all false (Some tag) false ads ds c1 Hs V1 I1 FA FD HL) as (m & E1 & T). specialize (T HZ1). cbn [ct] in T.
    rewrite <- spec_crypt. rewrite (crypt_spec_xks bl E mul HB HE1 Hm1 iv Hiv).
    rewrite <- spec_tag by (apply all_bytes; auto). rewrite <- T.
    assert (LT : length (snd (mgm_finish bl le E mul m)) = bl).
    { rewrite T. apply (tag_blk bl E mul HB HE1 Hm1 iv Hiv); apply all_bytes; auto. }
    rewrite E1, S_cons. destruct V1 as (K1 & K2 & K3 & K4 & K5 & K6 & K7).
    unfold do_mgm. cbn [x_w_mgm x_key x_keyset x_ivset x_enc x_mgm x_taglen x_buf]. rewrite K1, K2, K3, K4, K6. cbn [negb]. fold E.
    destruct (Z.ltb_spec (Z.of_nat bl) 0); [lia|]. rewrite Nat2Z.id, K7. unfold gost_mgm128_finish.
    destruct (mgm_finish bl le E mul m) as [m' t] eqn:F. cbn [snd] in *. rewrite Lt, (firstn_all2 t) by lia.
    split; intros Ht.
    - assert (Q : eqbl t tag = true) by (apply eqbl_eq; congruence). rewrite Q. cbn [Z.eqb].
      cbn [Z.ltb Z.compare]. unfold S. cbn [calls app]. rewrite app_nil_r. eexists. split; reflexivity.
    - assert (Q : eqbl t tag = false) by (apply eqbl_neq; congruence). rewrite Q. reflexivity.
  Qed.
End Evp.

(** * C29: every way of cutting the input gives the result of the standard *)
Theorem C29_mgm_encrypt_refines_rfc9058_for_every_chunking :
  forall cph le old k iv c aads datas,
    old_ok old -> key32 k -> blk cph iv -> mgm_started cph k iv true c -> Forall bytes aads -> Forall bytes datas ->
    let A := concat aads in let P := concat datas in
    mgm_lengths_ok (mgm_bl cph) A P ->
    let C := mgm_crypt_spec (mgm_bl cph) (spec_block cph k) iv P in
    let T := mgm_tag_spec (mgm_bl cph) (spec_block cph k) (spec_mul cph) iv A C in
    exists c', session cph le old c (map CallAad aads ++ map CallData datas ++ [CallFinal]) = Some (c', C) /\
      forall n, (0 < n <= Z.of_nat (mgm_bl cph))%Z -> mgm_get_tag (mgm_bl cph) c' n = Some (firstn (Z.to_nat n) T).
Proof.
  intros cph le old k iv c aads datas Ho Hk Hi Hs FA FD A P HL C T.
  destruct (session_enc cph le old k iv Ho Hk Hi c aads datas Hs FA FD HL) as (c' & E1 & E2 & _). exists c'. split; [exact E1|exact E2].
Qed.
Print Assumptions C29_mgm_encrypt_refines_rfc9058_for_every_chunking.
(** Decryption: with at least one call for associated data (possibly empty), the plaintext of the
    standard comes out and the tag is accepted exactly when it is the standard's. *)
Theorem C29_mgm_decrypt_refines_rfc9058_for_every_chunking :
  forall cph le old k iv c aads datas tag,
    old_ok old -> key32 k -> blk cph iv -> mgm_started cph k iv false c -> Forall bytes aads -> Forall bytes datas -> blk cph tag ->
    aads <> nil \/ datas = nil ->
    let A := concat aads in let C := concat datas in
    mgm_lengths_ok (mgm_bl cph) A C ->
    let T := mgm_tag_spec (mgm_bl cph) (spec_block cph k) (spec_mul cph) iv A C in
    let c := snd (mgm_set_tag (mgm_bl cph) c (Z.of_nat (mgm_bl cph)) tag) in
    let r := session cph le old c (map CallAad aads ++ map CallData datas ++ [CallFinal]) in
    (tag = T -> exists c', r = Some (c', mgm_crypt_spec (mgm_bl cph) (spec_block cph k) iv C)) /\
    (tag <> T -> r = None).
Proof.
  intros cph le old k iv c aads datas tag Ho Hk Hi Hs FA FD Ht Hc A C HL T c1 r.
  destruct (session_dec cph le old k iv Ho Hk Hi c aads datas tag Hs Ht Hc FA FD HL) as (_ & E1 & E2). split; [|exact E2].
  intros e. destruct (E1 e) as (c' & E3 & _). exists c'. exact E3.
Qed.
Print Assumptions C29_mgm_decrypt_refines_rfc9058_for_every_chunking.
(** A message of exactly 2^(n/2-3) bytes (associated data included), one more than the standard's
    limit, is still accepted; anything longer is refused. *)
Theorem C29_length_limit :
  forall cph le old k iv c d,
    old_ok old -> key32 k -> blk cph iv -> mgm_started cph k iv true c -> bytes d ->
    (N.of_nat (length d) <= 2 ^ (4 * N.of_nat (mgm_bl cph) - 3) -> session cph le old c [CallData d] <> None) /\
    (2 ^ (4 * N.of_nat (mgm_bl cph) - 3) < N.of_nat (length d) < 2 ^ 64 -> session cph le old c [CallData d] = None) /\
    (N.of_nat (length d) = 2 ^ (4 * N.of_nat (mgm_bl cph) - 3) -> ~ mgm_lengths_ok (mgm_bl cph) nil d).
Proof.
  intros cph le old k iv c d Ho Hk Hi Hs Bd.
  assert (EL : 2 ^ (4 * N.of_nat (mgm_bl cph) - 3) = limit (mgm_bl cph)) by (unfold limit; f_equal; lia). rewrite EL.
  destruct (started_ev cph le old k iv Ho Hk Hi true c Hs) as (V & I & HZ). split; [|split].
  - intros H. destruct (do_first cph le old k iv Ho Hk Hi true None false c nil d ltac:(discriminate) V I Bd) as (m & E1 & _); [exact H|].
    unfold session. cbn [calls]. rewrite E1. rewrite (nonneg d). discriminate.
  - intros [H1 H2]. unfold session. cbn [calls]. unfold do_mgm. destruct V as (K1 & K2 & K3 & K4 & _). rewrite K1, K2, K3, K4. cbn [negb].
    destruct I as (_ & _ & Ia & Im & _). unfold gost_mgm128_encrypt, mgm_crypt. rewrite Im. cbn [N.eqb].
    assert (Q : forall m, m_mlen (init_Y (mgm_block cph old k) m) = m_mlen m) by reflexivity.
    assert (Q2 : forall m, m_mlen (if m_alen m =? 0 then init_Z (mgm_block cph old k) m else m) = m_mlen m) by (intros m; destruct (m_alen m =? 0); reflexivity).
    rewrite Q, Q2, Im, N.add_0_l, w64_small by exact H2. apply N.ltb_lt in H1. rewrite H1. reflexivity.
  - intros H. unfold mgm_lengths_ok. rewrite H. cbn [length]. unfold limit. destruct cph; vm_compute; discriminate.
Qed.
Print Assumptions C29_length_limit.

(** * C28 *)
Lemma xks_spec_invol cph k iv m : key32 k -> blk cph iv ->
  mgm_crypt_spec (mgm_bl cph) (spec_block cph k) iv (mgm_crypt_spec (mgm_bl cph) (spec_block cph k) iv m) = m /\
  length (mgm_crypt_spec (mgm_bl cph) (spec_block cph k) iv m) = length m /\
  (bytes m -> bytes (mgm_crypt_spec (mgm_bl cph) (spec_block cph k) iv m)).
Proof.
  intros Hk Hi. set (bl := mgm_bl cph). set (E := spec_block cph k). set (mul := spec_mul cph).
  assert (HE : forall b, isblk bl b -> isblk bl (E b)) by (intros; apply spec_block_blk; auto).
  assert (HM : forall a b, isblk bl a -> isblk bl b -> isblk bl (mul a b)) by (intros; apply spec_mul_blk).
  rewrite !(crypt_spec_xks bl E mul (mgm_bl_or cph) HE HM iv Hi). split; [|split].
  - apply xks_invol.
  - apply xks_length.
  - intros B. apply (xks_bytes bl E mul (mgm_bl_or cph) HE HM iv Hi). exact B.
Qed.
(** Encrypt on one machine with one chunking, decrypt on another with another chunking. *)
Theorem C28_mgm_roundtrip :
  forall cph le1 le2 old1 old2 k iv c1 c2 aads1 datas1 aads2 datas2 c1' C T,
    old_ok old1 -> old_ok old2 -> key32 k -> blk cph iv ->
    mgm_started cph k iv true c1 -> mgm_started cph k iv false c2 ->
    Forall bytes aads1 -> Forall bytes datas1 -> Forall bytes aads2 ->
    mgm_lengths_ok (mgm_bl cph) (concat aads1) (concat datas1) ->
    concat aads2 = concat aads1 -> aads2 <> nil -> concat datas2 = C ->
    session cph le1 old1 c1 (map CallAad aads1 ++ map CallData datas1 ++ [CallFinal]) = Some (c1', C) ->
    mgm_get_tag (mgm_bl cph) c1' (Z.of_nat (mgm_bl cph)) = Some T ->
    exists c2', session cph le2 old2 (snd (mgm_set_tag (mgm_bl cph) c2 (Z.of_nat (mgm_bl cph)) T))
      (map CallAad aads2 ++ map CallData datas2 ++ [CallFinal]) = Some (c2', concat datas1) /\
      length C = length (concat datas1).
Proof.
  intros cph le1 le2 old1 old2 k iv c1 c2 aads1 datas1 aads2 datas2 c1' C T Ho1 Ho2 Hk Hi Hs1 Hs2 FA FD FA2 HL EA NA EC E1 ET.
  pose proof (bl_pos _ (mgm_bl_or cph)) as P.
  destruct (session_enc cph le1 old1 k iv Ho1 Hk Hi c1 aads1 datas1 Hs1 FA FD HL) as (c' & F1 & F2 & _).
  assert (F1' : session cph le1 old1 c1 (map CallAad aads1 ++ map CallData datas1 ++ [CallFinal]) =
    Some (c', mgm_crypt_spec (mgm_bl cph) (spec_block cph k) iv (concat datas1))) by exact F1.
  rewrite E1 in F1'. injection F1' as <- EC'.
  destruct (xks_spec_invol cph k iv (concat datas1) Hk Hi) as (X1 & X2 & X3). rewrite <- EC' in X1, X2, X3.
  specialize (F2 (Z.of_nat (mgm_bl cph)) ltac:(lia)). rewrite ET in F2. injection F2 as ->. rewrite Nat2Z.id.
  assert (BA : bytes (concat aads1)) by (apply all_bytes; auto).
  assert (BC : bytes C) by (apply X3, all_bytes; auto).
  assert (TB : blk cph (mgm_tag_spec (mgm_bl cph) (spec_block cph k) (spec_mul cph) iv (concat aads1) C)).
  { apply (tag_blk (mgm_bl cph) (spec_block cph k) (spec_mul cph) (mgm_bl_or cph)); auto.
    - intros; apply spec_block_blk; auto. 
    - intros; apply spec_mul_blk. }
  rewrite <- EC'. rewrite (firstn_all2 (mgm_tag_spec _ _ _ _ _ _)) by (destruct TB; lia).
  destruct (session_dec cph le2 old2 k iv Ho2 Hk Hi c2 aads2 datas2 _ Hs2 TB) as (_ & G & _); auto.
  - rewrite <- EC in BC. clear - BC. induction datas2 as [|d ds IH]; [constructor|]. cbn [concat] in BC. apply bytes_app_inv in BC as [B1 B2]. constructor; auto.
  - rewrite EA, EC. unfold mgm_lengths_ok in *. rewrite X2. exact HL.
  - destruct G as (c2' & G & _); [rewrite EA, EC; reflexivity|]. exists c2'. split; [|exact X2].
    rewrite EC, X1 in G. exact G.
Qed.
Print Assumptions C28_mgm_roundtrip.

(** Decryption needs a call for associated data: without one the tag of a genuine message is refused,
    for every key, already on a context fresh from allocation; with an empty one it is accepted. *)
Lemma spec_block_inj cph k a b : key32 k -> blk cph a -> blk cph b -> spec_block cph k a = spec_block cph k b -> a = b.
Proof.
  intros [Lk Bk] [La Ba] [Lb Bb]. destruct cph; cbn [spec_block mgm_bl] in *.
  - intros H. apply (E_inj k); auto; split; auto.
  - intros H. pose proof Z_ok as ZO.
    pose (g := ctx0). assert (R : rng_ok (g_rng g)) by exact ctx0_rng_ok.
    destruct (C04_magma_refines_rfc8891 g Gost28147_TC26ParamSetZ k a ZO Bk R) as [Ea _].
    destruct (C04_magma_refines_rfc8891 g Gost28147_TC26ParamSetZ k b ZO Bk R) as [Eb _].
    destruct (C04_magma_block_inverse g g Gost28147_TC26ParamSetZ k a Bk R R La Ba) as [Ia _].
    destruct (C04_magma_block_inverse g g Gost28147_TC26ParamSetZ k b Bk R R Lb Bb) as [Ib _].
    rewrite <- Ia, <- Ib, Ea, Eb, H. reflexivity.
Qed.
Definition one_block (cph : mgm_cipher) : list N := zeros (mgm_bl cph - 1) ++ [1].
Lemma one_blk cph : blk cph (one_block cph).
Proof. destruct cph; (split; [reflexivity|apply bytes_forallb; reflexivity]). Qed.
Lemma spec_mul_1 cph a : blk cph a -> spec_mul cph a (one_block cph) = a.
Proof.
  intros [La Ba]. destruct cph; cbn [spec_mul mgm_bl] in *; unfold mul128, mul64.
  - change (be2n (one_block KuznyechikMgm)) with 1. rewrite gfmul_comm, gfmul_1_l; [apply n2be_be2n; auto|exact degree128|].
    pose proof (be2n_lt a Ba) as H. rewrite La in H. exact H.
  - change (be2n (one_block MagmaMgm)) with 1. rewrite gfmul_comm, gfmul_1_l; [apply n2be_be2n; auto|exact degree64|].
    pose proof (be2n_lt a Ba) as H. rewrite La in H. exact H.
Qed.
Section NoAad.
  Variables (cph : mgm_cipher) (le : bool) (old : old_memory) (k iv : list N).
  Hypothesis Hold : old_ok old.
  Hypothesis Hk : key32 k.
  Hypothesis Hiv : blk cph iv.
  Let bl := mgm_bl cph.
  Let E := mgm_block cph old k.
  Let mul := mgm_mul cph le.
  Definition fresh_dec (T : list N) : mevp :=
    snd (mgm_set_tag bl (mgm_init_evp bl (mevp0 bl) (Some k) (Some iv) false) (Z.of_nat bl) T).
  Lemma no_aad_tag C T : blk cph C -> blk cph T ->
    session cph le old (fresh_dec T) [CallData C; CallFinal] <> None ->
    T = E (xorl (xorl (zeros bl) (mul (E (zeros bl)) C)) (mul (E (incr_l bl (zeros bl))) (lengths bl nil C))).
  Proof.
    intros [LC BC] [LT BT]. assert (HB := mgm_bl_or cph). fold bl in LC, LT, HB. pose proof (bl_pos bl HB) as P.
    unfold fresh_dec, session. fold bl mul.
    set (c := snd (mgm_set_tag bl _ _ T)).
    assert (Fc : x_key c = k /\ x_keyset c = true /\ x_ivset c = true /\ x_enc c = false /\ x_taglen c = Z.of_nat bl /\
      firstn bl (x_buf c) = T /\ x_mgm c = gost_mgm128_setiv bl (gost_mgm128_init bl) iv).
    { unfold c, mgm_set_tag. cbn [mgm_init_evp x_w_enc x_enc x_w_ivset x_w_mgm mevp0 x_key x_keyset x_ivset x_iv x_taglen x_buf x_mgm orb].
      rewrite Z.eqb_refl. destruct (Z.leb_spec (Z.of_nat bl) 0); [lia|]. cbn [orb negb snd x_w_tag x_key x_keyset x_ivset x_iv x_taglen x_buf x_mgm x_enc].
      repeat (split; [reflexivity|]). split; [|reflexivity]. rewrite Nat2Z.id, (firstn_all2 T) by lia. rewrite <- LT. apply overwrite_0_firstn. }
    clearbody c. destruct Fc as (K1 & K2 & K3 & K4 & K5 & K6 & K7).
    cbn [calls]. unfold do_mgm at 1. rewrite K1, K2, K3, K4, K7. cbn [negb]. fold E.
    unfold gost_mgm128_decrypt, mgm_crypt. cbn [gost_mgm128_setiv m_mlen N.eqb].
    set (c0 := init_Y E _). assert (F0 : m_mlen c0 = 0 /\ m_alen c0 = 0 /\ m_ares c0 = 0%nat /\ m_mres c0 = 0%nat /\ m_ACi c0 = zeros bl /\
      m_Zi c0 = zeros bl /\ m_sum c0 = zeros bl) by (repeat split; reflexivity).
    clearbody c0. destruct F0 as (M1 & M2 & M3 & M4 & M5 & M6 & M7). rewrite M1, M2, N.add_0_l, N.add_0_r.
    assert (W : w64 (N.of_nat (length C)) = N.of_nat (length C)) by (apply w64_small; rewrite LC; unfold bl; destruct cph; reflexivity).
    rewrite !W. 
    assert (LM : limit bl <? N.of_nat (length C) = false) by (rewrite LC; unfold bl; destruct cph; reflexivity). rewrite LM, N.ltb_irrefl. cbn [orb].
    unfold flush_aad. cbn [m_ares m_w_mlen]. rewrite M3. cbn [Nat.eqb].
    set (c1 := m_w_mlen c0 (N.of_nat (length C))).
    pose proof (block_bytes bl E mul HB c1 C M4 LC) as BB. cbn [m_ACi c1 m_w_mlen] in BB. rewrite M5 in BB. specialize (BB (zeros_length _)).
    cbv zeta in BB. destruct (mgm_bytes bl E mul true c1 C) as [c2 out]. cbn [fst] in BB. unfold c1 in BB.
    cbn [m_Zi m_sum m_ares m_alen m_mlen m_w_mlen] in BB. rewrite M2, M3, M6, M7 in BB.
    destruct BB as (B1 & B2 & B3 & B4 & B5 & B6).
    cbn [Z.eqb]. rewrite nonneg.
    unfold do_mgm at 1. cbn [x_w_mgm x_key x_keyset x_ivset x_enc x_taglen x_mgm x_buf]. rewrite K1, K2, K3, K4, K5. cbn [negb]. fold E.
    destruct (Z.ltb_spec (Z.of_nat bl) 0); [lia|]. rewrite Nat2Z.id, K6. unfold gost_mgm128_finish, mgm_finish.
    rewrite B3, B4, B5, B6. cbn [Nat.add Nat.eqb].
    assert (LB : len_block bl le (w64 (N.shiftl 0 3)) (w64 (N.shiftl (N.of_nat (length C)) 3)) = lengths bl nil C).
    { apply (len_block_spec bl le E mul HB (HE1 cph old k Hold Hk) (Hm1 cph le) iv Hiv nil C).
      unfold mgm_lengths_ok. rewrite LC. unfold bl. destruct cph; reflexivity. }
    rewrite LB. cbn [m_w_sum m_sum m_w_mlen m_w_alen m_Zi]. rewrite B1, B2.
    set (t := E (xorl _ _)).
    assert (Lt : length t = bl).
    { unfold t. apply (HE1 cph old k Hold Hk).
      assert (HM := Hm1 cph le). assert (HE := HE1 cph old k Hold Hk). fold bl mul in HM. fold bl E in HE.
      assert (Zb : isblk bl (incr_l bl (zeros bl))) by (unfold bl; destruct cph; (split; [reflexivity|apply bytes_forallb; reflexivity])).
      apply (blk_xorl bl E mul HB HE HM); [apply (blk_xorl bl E mul HB HE HM); [apply blk_zeros|apply HM; [apply HE, blk_zeros|split; auto]]|].
      apply HM; [apply HE; exact Zb|]. apply (lengths_blk bl E mul HB HE HM iv Hiv). }
    rewrite LT, (firstn_all2 t) by lia. destruct (eqbl t T) eqn:Q.
    - intros _. symmetry. apply eqbl_eq. exact Q.
    - cbn [Z.eqb]. intros HH. exfalso. apply HH. reflexivity.
  Qed.
End NoAad.

Theorem C28_decrypt_without_aad_call_refuted :
  forall cph le old k, old_ok old -> key32 k ->
    exists iv P C T c1, blk cph iv /\ blk cph P /\ blk cph T /\
      let fresh enc := mgm_init_evp (mgm_bl cph) (mevp0 (mgm_bl cph)) (Some k) (Some iv) enc in
      let with_tag c := snd (mgm_set_tag (mgm_bl cph) c (Z.of_nat (mgm_bl cph)) T) in
      session cph le old (fresh true) [CallData P; CallFinal] = Some (c1, C) /\
      mgm_get_tag (mgm_bl cph) c1 (Z.of_nat (mgm_bl cph)) = Some T /\
      session cph le old (with_tag (fresh false)) [CallData C; CallFinal] = None /\
      exists c2, session cph le old (with_tag (fresh false)) [CallAad nil; CallData C; CallFinal] = Some (c2, P).
Proof.
  intros cph le old k Ho Hk. set (bl := mgm_bl cph). set (E := spec_block cph k). set (mul := spec_mul cph).
  assert (HB := mgm_bl_or cph). fold bl in HB. pose proof (bl_pos bl HB) as P0.
  assert (HE : forall b, isblk bl b -> isblk bl (E b)) by (intros; apply spec_block_blk; auto).
  assert (HM : forall a b, isblk bl a -> isblk bl b -> isblk bl (mul a b)) by (intros; apply spec_mul_blk).
  assert (M0 : mevp_ok cph (mevp0 bl)).
  { split; [reflexivity|]. split; [reflexivity|]. apply blk_zeros. }
  (* a nonce with a nonzero counter Z *)
  assert (N : exists iv, blk cph iv /\ E (with_bit 1 iv) <> zeros bl).
  { destruct (list_eq_dec N.eq_dec (E (with_bit 1 (zeros bl))) (zeros bl)) as [e|ne].
    - exists (one_block cph). split; [apply one_blk|]. intros e2. rewrite <- e in e2. apply spec_block_inj in e2; auto.
      + destruct cph; discriminate.
      + apply (with_bit_blk bl E mul HB HE HM (one_block cph) (one_blk cph)). lia.
      + apply (with_bit_blk bl E mul HB HE HM (zeros bl) (blk_zeros bl)). lia.
    - exists (zeros bl). split; [apply blk_zeros|exact ne]. }
  destruct N as (iv & Hi & Hne).
  assert (St : forall enc, mgm_started cph k iv enc (mgm_init_evp bl (mevp0 bl) (Some k) (Some iv) enc)) by (intros enc; constructor; exact M0).
  (* encrypt the keystream of a ciphertext block C *)
  assert (G : forall C, blk cph C -> exists P c1, blk cph P /\ blk cph (mgm_tag_spec bl E mul iv nil C) /\
     session cph le old (mgm_init_evp bl (mevp0 bl) (Some k) (Some iv) true) [CallData P; CallFinal] = Some (c1, C) /\
     mgm_get_tag bl c1 (Z.of_nat bl) = Some (mgm_tag_spec bl E mul iv nil C) /\
     exists c2, session cph le old (fresh_dec cph k iv (mgm_tag_spec bl E mul iv nil C)) [CallAad nil; CallData C; CallFinal] = Some (c2, P)).
  { intros C HC. set (P := mgm_crypt_spec bl E iv C). destruct (xks_spec_invol cph k iv C Hk Hi) as (X1 & X2 & X3). fold bl E P in X1, X2, X3.
    assert (HP : blk cph P) by (destruct HC as [LC BC]; split; [rewrite X2; exact LC|apply X3; exact BC]).
    assert (TB : blk cph (mgm_tag_spec bl E mul iv nil C)).
    { apply (tag_blk bl E mul HB HE HM iv Hi); [constructor|apply HC]. }
    assert (LL : forall X, blk cph X -> mgm_lengths_ok bl nil X).
    { intros X [LX _]. unfold mgm_lengths_ok. rewrite LX. unfold bl. destruct cph; reflexivity. }
    destruct (session_enc cph le old k iv Ho Hk Hi _ nil [P] (St true)) as (c1 & F1 & F2 & _).
    { constructor. } { constructor; [apply HP|constructor]. } { cbn [concat app]. rewrite app_nil_r. apply LL; auto. }
    cbn [concat app map] in F1, F2. rewrite app_nil_r in F1, F2. fold bl E mul in F1, F2. rewrite X1 in F1, F2.
    specialize (F2 (Z.of_nat bl) ltac:(lia)). rewrite Nat2Z.id, firstn_all2 in F2 by (destruct TB as [LT _]; fold bl in LT; lia).
    exists P, c1. split; [exact HP|]. split; [exact TB|]. split; [exact F1|]. split; [exact F2|].
    destruct (session_dec cph le old k iv Ho Hk Hi _ [nil] [C] (mgm_tag_spec bl E mul iv nil C) (St false) TB) as (_ & D1 & _).
    { left. discriminate. } { constructor; constructor. } { constructor; [apply HC|constructor]. } { cbn [concat app]. rewrite app_nil_r. apply LL; auto. }
    cbn [concat app map] in D1. rewrite app_nil_r in D1. destruct (D1 eq_refl) as (c2 & D2 & _). exists c2. exact D2. }
  destruct (G (zeros bl) (blk_zeros bl)) as (P1 & c1 & A1 & A2 & A3 & A4 & A5).
  destruct (G (one_block cph) (one_blk cph)) as (P2 & c2 & B1 & B2 & B3 & B4 & B5). clear G.
  set (T1 := mgm_tag_spec bl E mul iv nil (zeros bl)) in *. set (T2 := mgm_tag_spec bl E mul iv nil (one_block cph)) in *.
  destruct (session cph le old (fresh_dec cph k iv T1) [CallData (zeros bl); CallFinal]) as [r1|] eqn:R1.
  2:{ exists iv, P1, (zeros bl), T1, c1. repeat (split; [assumption|]). exact A5. }
  destruct (session cph le old (fresh_dec cph k iv T2) [CallData (one_block cph); CallFinal]) as [r2|] eqn:R2.
  2:{ exists iv, P2, (one_block cph), T2, c2. repeat (split; [assumption|]). exact B5. }
  exfalso. assert (Q1 : T1 = _) by (apply (no_aad_tag cph le old k iv Ho Hk Hi (zeros bl) T1 (blk_zeros bl) A2); rewrite R1; discriminate).
  assert (Q2 : T2 = _) by (apply (no_aad_tag cph le old k iv Ho Hk Hi (one_block cph) T2 (one_blk cph) B2); rewrite R2; discriminate).
  assert (Zb : isblk bl (incr_l bl (zeros bl))) by (unfold bl; destruct cph; (split; [reflexivity|apply bytes_forallb; reflexivity])).
  assert (LBk : forall C, isblk bl (lengths bl nil C)) by (intros; apply (lengths_blk bl E mul HB HE HM iv Hi)).
  assert (Eq : lengths bl nil (zeros bl) = lengths bl nil (one_block cph)) by (unfold bl; destruct cph; reflexivity).
  assert (ZZ := blk_zeros bl). assert (OB := one_blk cph).
  fold bl in Q1, Q2.
  assert (AG : forall b, isblk bl b -> mgm_block cph old k b = E b) by (intros; apply blocks_agree; auto).
  assert (MG : forall a b, isblk bl a -> isblk bl b -> mgm_mul cph le a b = mul a b) by (intros; apply muls_agree; auto).
  assert (XB : forall a b, isblk bl a -> isblk bl b -> isblk bl (xorl a b)) by (intros; apply (blk_xorl bl E mul HB HE HM); auto).
  set (R := mul (E (incr_l bl (zeros bl))) (lengths bl nil (one_block cph))).
  set (R' := mul (E (Zcnt bl E iv 1)) (lengths bl nil (one_block cph))).
  set (H0 := E (Zcnt bl E iv 0)). set (H0' := E (zeros bl)).
  assert (Z0b := Zcnt_blk bl E mul HB HE HM iv Hi 0). assert (Z1b := Zcnt_blk bl E mul HB HE HM iv Hi 1).
  assert (RB : isblk bl R) by (apply HM; auto). assert (RB' : isblk bl R') by (apply HM; auto).
  assert (HB0 : isblk bl H0) by (apply HE; auto). assert (HB0' : isblk bl H0') by (apply HE; auto).
  assert (P1b : forall X, blk cph X -> padded bl X = [X]).
  { intros X [LX BX]. fold bl in LX. unfold padded. rewrite <- (app_nil_r X) at 1. rewrite (blocks_cons bl X) by lia.
    rewrite blocks_nil. cbn [map]. rewrite LX, Nat.sub_diag. cbn [zeros repeat]. rewrite app_nil_r. reflexivity. }
  assert (TS : forall X, blk cph X -> mgm_tag_spec bl E mul iv nil X =
     E (xorl (mul H0 X) (xorl (mul (E (Zcnt bl E iv 1)) (lengths bl nil X)) (zeros bl)))).
  { intros X HX. unfold mgm_tag_spec. rewrite (P1b X HX). unfold padded at 1. rewrite blocks_nil. cbn [map app multilinear]. reflexivity. }
  assert (LenB : forall X, isblk bl X -> length X = bl) by (intros X [LX _]; exact LX).
  assert (Xz : forall X, isblk bl X -> xorl X (zeros bl) = X).
  { intros X HX. apply xorl_zeros_r. exact (LenB X HX). }
  assert (Core : forall X, blk cph X -> lengths bl nil X = lengths bl nil (one_block cph) -> mgm_tag_spec bl E mul iv nil X =
     mgm_block cph old k (xorl (xorl (zeros bl) (mgm_mul cph le (mgm_block cph old k (zeros bl)) X))
       (mgm_mul cph le (mgm_block cph old k (incr_l bl (zeros bl))) (lengths bl nil X))) ->
     xorl (mul H0 X) R' = xorl (mul H0' X) R).
  { intros X HX EX Q. rewrite (TS X HX), EX in Q. fold R' in Q. rewrite (Xz R' RB') in Q.
    rewrite (AG (zeros bl) ZZ), (AG _ Zb) in Q. fold H0' in Q.
    rewrite (MG H0' X HB0' HX), (MG _ _ (HE _ Zb) (LBk _)) in Q. fold R in Q.
    assert (W1 : isblk bl (mul H0' X)) by (apply HM; auto). assert (W0 : isblk bl (mul H0 X)) by (apply HM; auto).
    rewrite (xorl_comm (zeros bl) (mul H0' X)), (Xz _ W1) in Q. rewrite AG in Q by (apply XB; auto).
    apply spec_block_inj in Q; auto; apply XB; auto. }
  assert (Sum1 := Core _ ZZ Eq Q1). assert (Sum2 := Core _ OB eq_refl Q2). clear Core Q1 Q2.
  unfold mul in Sum1. rewrite !(spec_mul_0 cph) in Sum1. unfold mul in Sum2. rewrite !(spec_mul_1 cph) in Sum2 by assumption.
  fold bl in Sum1. rewrite (xorl_comm (zeros bl) R'), (xorl_comm (zeros bl) R), !Xz in Sum1 by assumption.
  rewrite Sum1 in Sum2. apply xorl_inj_l in Sum2; [|rewrite (LenB _ HB0), (LenB _ RB); reflexivity|rewrite (LenB _ HB0'), (LenB _ RB); reflexivity].
  apply spec_block_inj in Sum2; auto. rewrite (Zcnt_0 bl E mul HB HE HM iv Hi) in Sum2. contradiction.
Qed.
Print Assumptions C28_decrypt_without_aad_call_refuted.

(** * C30: rejection *)
(** Any change of key, nonce, associated data, ciphertext or tag is rejected, unless the standard's tag
    of the changed message happens to be the tag supplied: the decryption of (A', C') under (k', iv')
    returns success exactly when the tag is the standard's tag of (A', C') under (k', iv'). *)
Theorem C30_wrong_message_or_tag_rejected :
  forall cph le old k iv k' iv' c c' aads datas aads' datas' tag,
    old_ok old -> key32 k -> key32 k' -> blk cph iv -> blk cph iv' -> mgm_started cph k iv true c -> mgm_started cph k' iv' false c' ->
    Forall bytes aads -> Forall bytes datas -> Forall bytes aads' -> Forall bytes datas' -> aads' <> nil ->
    mgm_lengths_ok (mgm_bl cph) (concat aads) (concat datas) -> mgm_lengths_ok (mgm_bl cph) (concat aads') (concat datas') ->
    forall c1 C, session cph le old c (map CallAad aads ++ map CallData datas ++ [CallFinal]) = Some (c1, C) ->
    mgm_get_tag (mgm_bl cph) c1 (Z.of_nat (mgm_bl cph)) = Some tag ->
    let T x := mgm_tag_spec (mgm_bl cph) (spec_block cph x) (spec_mul cph) in
    forall tag', blk cph tag' ->
    (session cph le old (snd (mgm_set_tag (mgm_bl cph) c' (Z.of_nat (mgm_bl cph)) tag'))
       (map CallAad aads' ++ map CallData datas' ++ [CallFinal]) <> None <-> tag' = T k' iv' (concat aads') (concat datas')) /\
    tag = T k iv (concat aads) C.
Proof.
  intros cph le old k iv k' iv' c c' aads datas aads' datas' tag Ho Hk Hk' Hi Hi' Hs Hs' FA FD FA' FD' NE HL HL' c1 C S1 G1 T tag' Bt.
  destruct (session_enc cph le old k iv Ho Hk Hi c aads datas Hs FA FD HL) as (c2 & E1 & E2 & _).
  assert (E1' : session cph le old c (map CallAad aads ++ map CallData datas ++ [CallFinal]) =
    Some (c2, mgm_crypt_spec (mgm_bl cph) (spec_block cph k) iv (concat datas))) by exact E1.
  rewrite S1 in E1'. injection E1' as <- EC. assert (P := bl_pos _ (mgm_bl_or cph)).
  specialize (E2 (Z.of_nat (mgm_bl cph)) ltac:(lia)). rewrite G1 in E2. injection E2 as ->. rewrite Nat2Z.id, EC. split.
  - destruct (session_dec cph le old k' iv' Ho Hk' Hi' c' aads' datas' tag' Hs' Bt (or_introl NE) FA' FD' HL') as (_ & D1 & D2). split.
    + intros H. destruct (list_eq_dec N.eq_dec tag' (T k' iv' (concat aads') (concat datas'))) as [e|ne]; [exact e|].
      exfalso. apply H. exact (D2 ne).
    + intros e. destruct (D1 e) as (c3 & D3 & _). intros H. pose proof (eq_trans (eq_sym D3) H) as X. discriminate X.
  - apply firstn_all2. unfold T. rewrite <- EC.
    assert (HE : forall b, isblk (mgm_bl cph) b -> isblk (mgm_bl cph) (spec_block cph k b)) by (intros; apply spec_block_blk; auto).
    assert (HM : forall a b, isblk (mgm_bl cph) a -> isblk (mgm_bl cph) b -> isblk (mgm_bl cph) (spec_mul cph a b)) by (intros; apply spec_mul_blk).
    destruct (tag_blk (mgm_bl cph) _ _ (mgm_bl_or cph) HE HM iv Hi (concat aads) C) as [LT _].
    + apply all_bytes; auto.
    + rewrite EC. apply (xks_spec_invol cph k iv (concat datas) Hk Hi). apply all_bytes; auto.
    + lia.
Qed.
Print Assumptions C30_wrong_message_or_tag_rejected.

(** Whatever the history of the context, and going on after calls that failed. *)
Fixpoint after (bl : nat) (le : bool) (Ek : list N -> list N -> list N) (mul : list N -> list N -> list N) (c : mevp) (l : list mgm_call) : mevp :=
  match l with
  | nil => c
  | x :: t => after bl le Ek mul (snd (fst (do_mgm bl le Ek mul c x))) t
  end.
Definition not_final (x : mgm_call) : Prop := match x with CallFinal => False | _ => True end.
Section AnyHistory.
  Variables (bl : nat) (le : bool) (Ek : list N -> list N -> list N) (mul : list N -> list N -> list N).
  Lemma absorb_mlen E c b : m_mlen (absorb bl E mul c b) = m_mlen c. Proof. reflexivity. Qed.
  Lemma flush_mlen E c : m_mlen (flush_aad bl E mul c) = m_mlen c.
  Proof. unfold flush_aad. destruct (_ =? _)%nat; reflexivity. Qed.
  Lemma byte_mlen E dec c x : m_mlen (fst (mgm_byte bl E mul dec c x)) = m_mlen c.
  Proof.
    unfold mgm_byte. generalize (Nat.modulo (m_mres c) bl). intros n. destruct (n =? 0)%nat; generalize (Nat.modulo (n + 1) bl); intros n'; destruct (n' =? 0)%nat; reflexivity.
  Qed.
  Lemma bytes_mlen E dec inp : forall c, m_mlen (fst (mgm_bytes bl E mul dec c inp)) = m_mlen c.
  Proof.
    induction inp as [|x t IH]; intros c; [reflexivity|]. cbn [mgm_bytes]. pose proof (byte_mlen E dec c x) as H.
    destruct (mgm_byte bl E mul dec c x) as [c1 o]. cbn [fst] in H. specialize (IH c1). destruct (mgm_bytes bl E mul dec c1 t) as [c2 o2].
    cbn [fst] in *. rewrite IH. exact H.
  Qed.
  Lemma crypt_mlen E dec c inp r c' o : mgm_crypt bl E mul dec c inp = (r, c', o) ->
    (r = 0%Z /\ N.of_nat (length inp) <= m_mlen c' /\ m_mlen c' = w64 (m_mlen c + N.of_nat (length inp))) \/ (r = (-1)%Z /\ m_mlen c' = m_mlen c).
  Proof.
    unfold mgm_crypt. set (ml := w64 _). destruct (_ || _ || _) eqn:B.
    - intros [= <- <- <-]. right. auto.
    - pose proof (bytes_mlen E dec inp (flush_aad bl E mul (m_w_mlen c ml))) as H. destruct (mgm_bytes _ _ _ _ _ _) as [c2 o2]. cbn [fst] in H.
      intros [= <- <- <-]. left. rewrite flush_mlen in H. cbn [m_w_mlen m_mlen] in H. split; [reflexivity|]. rewrite H. split; [|reflexivity].
      apply Bool.orb_false_iff in B. destruct B as [B _]. apply Bool.orb_false_iff in B. destruct B as [_ B]. apply N.ltb_ge in B. exact B.
  Qed.
  Lemma init_mlen E (b1 b2 : bool) c : m_mlen (if b1 then init_Y E (if b2 then init_Z E c else c) else c) = m_mlen c.
  Proof. destruct b1, b2; reflexivity. Qed.
  Lemma data_mlen c d r c' o : do_mgm bl le Ek mul c (CallData d) = (r, c', o) ->
    ((0 <= r)%Z /\ N.of_nat (length d) <= m_mlen (x_mgm c') /\ m_mlen (x_mgm c') = w64 (m_mlen (x_mgm c) + N.of_nat (length d))) \/
    ((r < 0)%Z /\ m_mlen (x_mgm c') = m_mlen (x_mgm c)).
  Proof.
    unfold do_mgm. destruct (x_keyset c); cbn [negb]; [|intros [= <- <- <-]; right; split; [lia|reflexivity]].
    destruct (x_ivset c); cbn [negb]; [|intros [= <- <- <-]; right; split; [lia|reflexivity]].
    set (f := if x_enc c then _ else _). destruct (f bl (Ek (x_key c)) mul (x_mgm c) d) as [[r0 m] o0] eqn:F. intros [= <- <- <-]. cbn [x_w_mgm x_mgm].
    assert (X : exists c0, m_mlen c0 = m_mlen (x_mgm c) /\ exists dec, mgm_crypt bl (Ek (x_key c)) mul dec c0 d = (r0, m, o0)).
    { unfold f in F. destruct (x_enc c); [unfold gost_mgm128_encrypt in F|unfold gost_mgm128_decrypt in F]; eexists; (split; [|eexists; exact F]).
      - apply init_mlen.
      - destruct (_ =? 0); reflexivity. }
    destruct X as (c0 & E0 & dec & X). apply crypt_mlen in X. rewrite E0 in X. destruct X as [(-> & X)|(-> & X)]; cbn [Z.eqb].
    - left. split; [lia|exact X].
    - right. split; [lia|exact X].
  Qed.
  Lemma aad_refused c a : m_mlen (x_mgm c) <> 0 -> do_mgm bl le Ek mul c (CallAad a) = ((-1)%Z, c, nil).
  Proof.
    intros H. unfold do_mgm. destruct (x_keyset c); cbn [negb]; [|reflexivity]. destruct (x_ivset c); cbn [negb]; [|reflexivity].
    unfold gost_mgm128_aad. apply N.eqb_neq in H. rewrite H. cbn [negb Z.eqb]. destruct c. reflexivity.
  Qed.
  Lemma mlen_stays c x : not_final x -> 0 < m_mlen (x_mgm c) < 2 ^ 64 ->
    0 < m_mlen (x_mgm (snd (fst (do_mgm bl le Ek mul c x)))) < 2 ^ 64.
  Proof.
    destruct x as [a|d|]; intros NF H; [rewrite aad_refused by lia; exact H| |destruct NF].
    destruct (do_mgm bl le Ek mul c (CallData d)) as [[r c'] o] eqn:D. cbn [fst snd]. apply data_mlen in D. destruct D as [(_ & D1 & D2)|(_ & D)].
    - assert (W : m_mlen (x_mgm c') < 2 ^ 64) by (rewrite D2; apply w64_lt).
      split; [|exact W]. destruct d as [|x d]; [cbn [length N.of_nat] in D2; rewrite N.add_0_r in D2|cbn [length] in D1; lia].
      rewrite D2, w64_small by apply H. apply H.
    - rewrite D. exact H.
  Qed.
  Lemma after_mlen l : forall c, Forall not_final l -> 0 < m_mlen (x_mgm c) < 2 ^ 64 -> 0 < m_mlen (x_mgm (after bl le Ek mul c l)) < 2 ^ 64.
  Proof.
    induction l as [|x t IH]; intros c F H; [exact H|]. inversion F; subst. cbn [after]. apply IH; [assumption|]. apply mlen_stays; auto.
  Qed.
  Lemma final_ivset c r c' o : do_mgm bl le Ek mul c CallFinal = (r, c', o) -> (0 <= r)%Z -> x_ivset c' = false.
  Proof.
    unfold do_mgm. destruct (x_keyset c); cbn [negb]; [|intros [= <- <- <-]; lia]. destruct (x_ivset c); cbn [negb]; [|intros [= <- <- <-]; lia].
    destruct (x_enc c).
    - destruct (gost_mgm128_tag _ _ _ _ _ _) as [m t]. intros [= <- <- <-] _. reflexivity.
    - destruct (_ <? 0)%Z; [intros [= <- <- <-]; lia|]. destruct (gost_mgm128_finish _ _ _ _ _ _) as [m t].
      destruct (t =? 0)%Z; intros [= <- <- <-]; [reflexivity|lia].
  Qed.
  Lemma no_iv c x : x_ivset c = false -> do_mgm bl le Ek mul c x = ((-1)%Z, c, nil).
  Proof. intros H. unfold do_mgm. rewrite H. destruct (x_keyset c); reflexivity. Qed.
  Lemma no_key c x : x_keyset c = false -> do_mgm bl le Ek mul c x = ((-1)%Z, c, nil).
  Proof. intros H. unfold do_mgm. rewrite H. reflexivity. Qed.
  Lemma init_no_iv c key enc : x_ivset c = false -> x_ivset (mgm_init_evp bl c key None enc) = false.
  Proof. intros H. unfold mgm_init_evp. destruct key as [k|]; cbn [x_w_enc x_ivset]; [rewrite H; cbn; auto|exact H]. Qed.
  Lemma taglen_stays c x : not_final x -> x_taglen (snd (fst (do_mgm bl le Ek mul c x))) = x_taglen c /\ x_enc (snd (fst (do_mgm bl le Ek mul c x))) = x_enc c.
  Proof.
    destruct x as [a|d|]; intros NF; [| |destruct NF]; unfold do_mgm; (destruct (x_keyset c); cbn [negb]; [|split; reflexivity]);
      (destruct (x_ivset c); cbn [negb]; [|split; reflexivity]).
    - destruct (gost_mgm128_aad _ _ _ _ _) as [r m]. split; reflexivity.
    - destruct ((if x_enc c then _ else _) bl (Ek (x_key c)) mul (x_mgm c) d) as [[r m] o]. split; reflexivity.
  Qed.
  Lemma after_taglen l : forall c, Forall not_final l -> x_taglen (after bl le Ek mul c l) = x_taglen c /\ x_enc (after bl le Ek mul c l) = x_enc c.
  Proof.
    induction l as [|x t IH]; intros c F; [split; reflexivity|]. inversion F; subst. cbn [after]. destruct (taglen_stays c x) as [A B]; [assumption|].
    destruct (IH (snd (fst (do_mgm bl le Ek mul c x)))) as [C D]; [assumption|]. rewrite C, D. auto.
  Qed.
End AnyHistory.

(** Associated data after a nonempty piece of data is refused: whatever the state [c] of the context
    (any history), once a data call with at least one byte has succeeded, every later AAD call fails
    and changes nothing, until the message is finished or the context is initialised again. *)
Theorem C30_aad_after_data_refused :
  forall cph le old c d r c1 o between a,
    do_mgm (mgm_bl cph) le (mgm_block cph old) (mgm_mul cph le) c (CallData d) = (r, c1, o) -> (0 <= r)%Z -> d <> nil ->
    Forall not_final between ->
    let c2 := after (mgm_bl cph) le (mgm_block cph old) (mgm_mul cph le) c1 between in
    do_mgm (mgm_bl cph) le (mgm_block cph old) (mgm_mul cph le) c2 (CallAad a) = ((-1)%Z, c2, nil).
Proof.
  intros cph le old c d r c1 o between a D R NE F c2. apply aad_refused.
  assert (H : 0 < m_mlen (x_mgm c2) < 2 ^ 64); [|lia]. apply after_mlen; [exact F|].
  apply data_mlen in D. destruct D as [(_ & D1 & D2)|(D & _)]; [|lia]. split.
  - destruct d; [contradiction|]. cbn [length] in D1. lia.
  - rewrite D2. apply w64_lt.
Qed.
Print Assumptions C30_aad_after_data_refused.
(** Without a key or without a nonce every call fails; a message that was finished (the tag produced or
    accepted) needs a new nonce: re-initialising without one does not help. *)
Definition initialise cph (c : mevp) (inits : list (option (list N) * option (list N) * bool)) : mevp :=
  fold_left (fun c i => mgm_init_evp (mgm_bl cph) c (fst (fst i)) (snd (fst i)) (snd i)) inits c.
Theorem C30_needs_key_and_nonce :
  forall cph le old c inits l x,
    (Forall (fun i => fst (fst i) = None) inits \/ Forall (fun i => snd (fst i) = None) inits) ->
    let c1 := initialise cph (mgm_ctrl_init c) inits in
    let c2 := after (mgm_bl cph) le (mgm_block cph old) (mgm_mul cph le) c1 l in
    do_mgm (mgm_bl cph) le (mgm_block cph old) (mgm_mul cph le) c2 x = ((-1)%Z, c2, nil).
Proof.
  intros cph le old c inits l x H c1 c2.
  assert (H1 : x_keyset c1 = false \/ x_ivset c1 = false).
  { unfold c1, initialise. destruct H as [H|H]; [left|right].
    - assert (G : x_keyset (mgm_ctrl_init c) = false) by reflexivity. revert G. generalize (mgm_ctrl_init c). clear -H.
      induction H as [|[[k v] e] t Hx Ht IH]; intros c G; [exact G|]. cbn [fold_left fst snd] in *. apply IH. subst k.
      unfold mgm_init_evp. destruct v; cbn; [rewrite G; cbn; auto|exact G].
    - assert (G : x_ivset (mgm_ctrl_init c) = false) by reflexivity. revert G. generalize (mgm_ctrl_init c). clear -H.
      induction H as [|[[k v] e] t Hx Ht IH]; intros c G; [exact G|]. cbn [fold_left fst snd] in *. apply IH. subst v. apply init_no_iv. exact G. }
  assert (H2 : x_keyset c2 = false \/ x_ivset c2 = false).
  { unfold c2. clearbody c1. clear c2. revert c1 H1. induction l as [|y t IH]; intros c1 H1; [exact H1|]. cbn [after]. apply IH.
    destruct H1 as [H1|H1]; [rewrite no_key by exact H1|rewrite no_iv by exact H1]; cbn [fst snd]; [left|right]; exact H1. }
  destruct H2; [apply no_key|apply no_iv]; assumption.
Qed.
Print Assumptions C30_needs_key_and_nonce.
Theorem C30_second_message_needs_new_nonce :
  forall cph le old c r c1 o,
    do_mgm (mgm_bl cph) le (mgm_block cph old) (mgm_mul cph le) c CallFinal = (r, c1, o) -> (0 <= r)%Z ->
    forall reinits l x,
      let c2 := fold_left (fun c ke => mgm_init_evp (mgm_bl cph) c (fst ke) None (snd ke)) reinits c1 in
      let c3 := after (mgm_bl cph) le (mgm_block cph old) (mgm_mul cph le) c2 l in
      do_mgm (mgm_bl cph) le (mgm_block cph old) (mgm_mul cph le) c3 x = ((-1)%Z, c3, nil).
Proof.
  intros cph le old c r c1 o D R reinits l x c2 c3.
  assert (H2 : x_ivset c2 = false).
  { unfold c2. apply final_ivset in D; [|exact R]. clear -D. revert c1 D. induction reinits as [|ke t IH]; intros c1 D; [exact D|].
    cbn [fold_left]. apply IH. apply init_no_iv. exact D. }
  assert (H3 : x_ivset c3 = false).
  { unfold c3. clearbody c2. clear c3. revert c2 H2. induction l as [|y t IH]; intros c2 H2; [exact H2|]. cbn [after]. apply IH. rewrite no_iv by exact H2. exact H2. }
  apply no_iv. exact H3.
Qed.
Print Assumptions C30_second_message_needs_new_nonce.
(** The tag: accepted only with the full length and only while decrypting; a context that was never
    given or never produced a tag gives none, whatever was encrypted before the final call, and
    decryption without a tag fails. *)
Theorem C30_tag_rules :
  forall cph le old c key iv enc l tag n,
    Forall not_final l ->
    let c1 := mgm_init_evp (mgm_bl cph) (mgm_ctrl_init c) key iv enc in
    let c2 := after (mgm_bl cph) le (mgm_block cph old) (mgm_mul cph le) c1 l in
    (fst (mgm_set_tag (mgm_bl cph) c2 n tag) = 1%Z <-> n = Z.of_nat (mgm_bl cph) /\ enc = false) /\
    mgm_get_tag (mgm_bl cph) c2 n = None /\
    (enc = false -> fst (fst (do_mgm (mgm_bl cph) le (mgm_block cph old) (mgm_mul cph le) c2 CallFinal)) = (-1)%Z).
Proof.
  intros cph le old c key iv enc l tag n F c1 c2. assert (P := bl_pos _ (mgm_bl_or cph)).
  assert (H1 : x_taglen c1 = (-1)%Z /\ x_enc c1 = enc).
  { unfold c1, mgm_init_evp. destruct key as [k|], iv as [v|]; cbn; split; reflexivity. }
  assert (H2 : x_taglen c2 = (-1)%Z /\ x_enc c2 = enc).
  { destruct (after_taglen (mgm_bl cph) le (mgm_block cph old) (mgm_mul cph le) l c1 F) as [A B]. unfold c2. rewrite A, B. exact H1. }
  clearbody c2. clear c1 H1. destruct H2 as [T B]. split; [|split].
  - unfold mgm_set_tag. rewrite B. destruct (Z.leb_spec n 0), (Z.eqb_spec n (Z.of_nat (mgm_bl cph))), enc; cbn; split; try lia; intros [? ?]; try discriminate; lia.
  - unfold mgm_get_tag. rewrite T. destruct ((n <=? 0)%Z || (Z.of_nat (mgm_bl cph) <? n)%Z), (negb (x_enc c2)); reflexivity.
  - intros ->. unfold do_mgm. rewrite B, T. destruct (x_keyset c2), (x_ivset c2); reflexivity.
Qed.
Print Assumptions C30_tag_rules.
(** Giving a new key without a nonce to a context that was given key and nonce together does not keep
    the nonce: the message is processed under the all-zero nonce (the saved copy is only written when
    the nonce comes before the key). *)
Theorem C30_rekey_keeps_nonce_refuted :
  forall cph k1 k2 iv enc,
    let c := mgm_init_evp (mgm_bl cph) (mevp0 (mgm_bl cph)) (Some k1) (Some iv) enc in
    mgm_init_evp (mgm_bl cph) c (Some k2) None enc =
    mgm_init_evp (mgm_bl cph) (mevp0 (mgm_bl cph)) (Some k2) (Some (zeros (mgm_bl cph))) enc.
Proof. intros cph k1 k2 iv enc c. destruct cph; reflexivity. Qed.
Print Assumptions C30_rekey_keeps_nonce_refuted.
(** The Magma example of RFC 9058 (test_mgm.c:76-109) in uneven pieces, encrypted and decrypted. *)
Example C28_C29_C30_example :
  let k := [255; 238; 221; 204; 187; 170; 153; 136; 119; 102; 85; 68; 51; 34; 17; 0; 240; 241; 242; 243; 244; 245; 246; 247; 248; 249; 250; 251; 252; 253; 254; 255] in
  let iv := [18; 222; 240; 107; 60; 19; 10; 89] in
  let A := [1; 1; 1; 1; 1; 1; 1; 1; 2; 2; 2; 2; 2; 2; 2; 2; 3; 3; 3; 3; 3; 3; 3; 3; 4; 4; 4; 4; 4; 4; 4; 4; 5; 5; 5; 5; 5; 5; 5; 5; 234] in
  let P := [255; 238; 221; 204; 187; 170; 153; 136; 17; 34; 51; 68; 85; 102; 119; 0; 136; 153; 170; 187; 204; 238; 255; 10; 0; 17; 34; 51; 68; 85; 102; 119; 153; 170; 187; 204; 238; 255; 10; 0; 17; 34; 51; 68; 85; 102; 119; 136; 170; 187; 204; 238; 255; 10; 0; 17; 34; 51; 68; 85; 102; 119; 136; 153; 170; 187; 204] in
  let C := [199; 149; 6; 108; 95; 158; 160; 59; 133; 17; 51; 66; 69; 145; 133; 174; 31; 46; 0; 214; 191; 43; 120; 93; 148; 4; 112; 184; 187; 156; 142; 125; 154; 93; 211; 115; 31; 125; 220; 112; 236; 39; 203; 10; 206; 111; 165; 118; 112; 246; 92; 100; 106; 187; 117; 213; 71; 170; 55; 195; 188; 181; 195; 78; 3; 187; 156] in
  let T := [167; 146; 128; 105; 170; 16; 253; 16] in
  let s := session MagmaMgm true (kctx0, ctx0) in
  match s (mgm_init_evp 8 (mevp0 8) (Some k) (Some iv) true) [CallAad (firstn 3 A); CallAad (skipn 3 A); CallData (firstn 11 P); CallData (skipn 11 P); CallFinal] with
  | Some (c, C') => eqbl C C' = true /\ mgm_get_tag 8 c 8 = Some T
  | None => False
  end /\
  let d := snd (mgm_set_tag 8 (mgm_init_evp 8 (mevp0 8) (Some k) (Some iv) false) 8 T) in
  match s d [CallAad A; CallData (firstn 5 C); CallData (skipn 5 C); CallFinal] with
  | Some (_, P') => eqbl P P' = true
  | None => False
  end /\ s d [CallAad (0 :: tl A); CallData C; CallFinal] = None.
Proof. vm_compute. repeat split. Qed.
(** A data call with no bytes does not close the associated data: a later AAD call is accepted, although
    the unfinished AAD block has already been padded and processed. *)
Lemma aad_after_empty bl le Ek mul c a :
  x_keyset c = true -> x_ivset c = true -> x_enc c = true -> m_mlen (x_mgm c) = 0 -> m_alen (x_mgm c) + N.of_nat (length a) <= limit bl -> limit bl < 2 ^ 64 ->
  exists c1, do_mgm bl le Ek mul c (CallData nil) = (0%Z, c1, nil) /\ fst (fst (do_mgm bl le Ek mul c1 (CallAad a))) = Z.of_nat (length a).
Proof.
  intros K I EN M A L. unfold do_mgm. rewrite K, I, EN. cbn [negb]. unfold gost_mgm128_encrypt. rewrite M. cbn [N.eqb].
  set (m0 := init_Y _ _). assert (F0 : m_mlen m0 = 0 /\ m_alen m0 = m_alen (x_mgm c)) by (unfold m0; destruct (m_alen (x_mgm c) =? 0); cbn; auto).
  clearbody m0. destruct F0 as [F1 F2]. unfold mgm_crypt. rewrite F1, F2. cbn [length N.of_nat]. rewrite N.add_0_r. change (w64 0) with 0. rewrite N.add_0_l.
  rewrite w64_small by lia. destruct (N.ltb_spec (limit bl) 0); [lia|]. destruct (N.ltb_spec (limit bl) (m_alen (x_mgm c))); [lia|]. cbn [N.ltb N.compare orb].
  set (m1 := flush_aad _ _ _ _). assert (G : m_mlen m1 = 0 /\ m_alen m1 = m_alen (x_mgm c)).
  { unfold m1, flush_aad. destruct (_ =? _)%nat; cbn; auto. }
  clearbody m1. destruct G as [G1 G2]. cbn [mgm_bytes Z.eqb Z.of_nat]. eexists. split; [reflexivity|]. cbn [x_w_mgm x_keyset x_ivset x_mgm x_key]. rewrite K, I. cbn [negb].
  unfold gost_mgm128_aad. rewrite G1. cbn [N.eqb negb]. set (m2 := if _ =? 0 then _ else _).
  assert (HA : m_alen m2 = m_alen (x_mgm c)) by (unfold m2; destruct (_ =? 0); cbn; exact G2). clearbody m2. rewrite HA.
  rewrite w64_small by lia. destruct (N.ltb_spec (limit bl) (m_alen (x_mgm c) + N.of_nat (length a))); [lia|].
  destruct (N.ltb_spec (m_alen (x_mgm c) + N.of_nat (length a)) (N.of_nat (length a))); [lia|]. cbn [orb].
  destruct (_ =? 0)%nat; [reflexivity|]. destruct (aad_fill _ _ _ _) as [[aci n] rest]. destruct (n =? 0)%nat; reflexivity.
Qed.
Theorem C30_aad_after_empty_data_accepted_refuted :
  forall cph le old k iv a, N.of_nat (length a) <= 2 ^ 29 ->
    exists c1, do_mgm (mgm_bl cph) le (mgm_block cph old) (mgm_mul cph le)
        (mgm_init_evp (mgm_bl cph) (mevp0 (mgm_bl cph)) (Some k) (Some iv) true) (CallData nil) = (0%Z, c1, nil) /\
      fst (fst (do_mgm (mgm_bl cph) le (mgm_block cph old) (mgm_mul cph le) c1 (CallAad a))) = Z.of_nat (length a).
Proof.
  intros cph le old k iv a H. apply aad_after_empty; try reflexivity.
  - cbn. destruct cph; cbn [mgm_bl]; unfold limit; cbn; lia.
  - destruct cph; reflexivity.
Qed.
Print Assumptions C30_aad_after_empty_data_accepted_refuted.
