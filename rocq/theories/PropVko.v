(** Property C40: VKO, KEG and EVP_PKEY_derive. *)
From Coq Require Import ZArith List Bool Lia Znumtheory String.
From Verif Require Import Bytes BytesProofs Gost89Model Gost89Sboxes Gost89Spec Gost89Proofs Hash94Model Hash94Spec Hash94Proofs PropHash94
  StreebogTables StreebogSpec StreebogModel StreebogProofs PropStreebog KdfModel KdfSpec KdfProofs PropKdf
  EcLadderModel EcSpec EcLadderProofs EcModel EcProofs ToyGroup PropEc.
Import ListNotations.
Local Open Scope Z_scope.

(** The digests by their standards. *)
Definition md_std (d : digest_nid) (m : list N) : list N :=
  match d with
  | Md_94 => hash94 (sboxes_of GostR3411_94_CryptoProParamSet) m
  | Md_2012_256 => streebog256 m
  | Md_2012_512 => streebog512 m
  end.
Lemma evp_digest_std h c d m : bytes m -> (N.of_nat (List.length m) < 2 ^ 60)%N -> evp_digest h c d m = md_std d m.
Proof.
  intros B L. assert (F : Forall bytes [m]) by (constructor; auto).
  assert (E : concat [m] = m) by apply app_nil_r.
  destruct d; unfold evp_digest, md_std.
  - rewrite (C17_md_gost94_chunks_match_standard c [m] F); rewrite E; auto.
  - rewrite (proj2 (C19_streebog_chunks_match_standard (h_bd h) (h_ac h) [m] F)), E. reflexivity.
  - rewrite (proj1 (C19_streebog_chunks_match_standard (h_bd h) (h_ac h) [m] F)), E. reflexivity.
Qed.
Lemma pad32_ok m : bytes m -> (List.length (pad32 m) mod 32 = 0)%nat /\ bytes (pad32 m).
Proof.
  intros B. unfold pad32. destruct m as [|x m]; [split; [reflexivity|apply bytes_zeros]|].
  split; [|apply bytes_app; [exact B|apply bytes_zeros]].
  rewrite app_length, zeros_length. set (n := List.length (x :: m)).
  pose proof (Nat.div_mod n 32 ltac:(lia)) as D. pose proof (Nat.mod_upper_bound n 32 ltac:(lia)) as U.
  destruct (Nat.eq_dec (n mod 32) 0) as [E|E].
  - rewrite E. change ((32 - 0) mod 32)%nat with 0%nat. rewrite Nat.add_0_r. exact E.
  - rewrite (Nat.mod_small (32 - n mod 32)) by lia. rewrite D at 1.
    replace (32 * (n / 32) + n mod 32 + (32 - n mod 32))%nat with ((n / 32 + 1) * 32)%nat by lia. apply Nat.mod_mul. lia.
Qed.
Lemma hash94_ok S m : bytes m -> blk32 (hash94 S m).
Proof.
  intros B. unfold hash94. cbv zeta. destruct (pad32_ok m B) as [P1 P2].
  apply chi_blk32; [split; [apply n2le_length|apply n2le_bytes]|].
  apply chi_blk32; [split; [apply n2le_length|apply n2le_bytes]|].
  apply (fold_blk32 (fun h b => chi S b h)); [intros; apply chi_blk32; assumption|apply blocks_blk32; assumption|exact blk32_zeros].
Qed.
Lemma md_std_ok d m : bytes m -> List.length (md_std d m) = md_size d /\ bytes (md_std d m).
Proof.
  intros B. destruct d; cbn [md_std md_size].
  - apply hash94_ok, B.
  - apply streebog256_ok, B.
  - unfold streebog512. apply streebog_ok; [split; [reflexivity|apply bytes_forallb; reflexivity]|exact B].
Qed.

Lemma point_key_ext C H H' P : (forall m, bytes m -> (List.length m <= 128)%nat -> H m = H' m) -> (fieldlen C <= 64)%nat ->
  point_key C H P = point_key C H' P.
Proof.
  intros E L. unfold point_key. destruct (affine C P) as [[x y]|]; [|reflexivity]. f_equal. apply E.
  - apply bytes_app; apply n2le_bytes.
  - rewrite app_length, !n2le_length. lia.
Qed.
Lemma lebinpad_coord len x : 0 <= x < 256 ^ Z.of_nat len -> lebinpad len x = Some (n2le len (Z.to_N x)).
Proof.
  intros H. unfold lebinpad, bn2lebinpad. rewrite Z.abs_eq by lia. destruct (Z.ltb_spec x (256 ^ Z.of_nat len)); [|lia].
  rewrite Zabs2N.abs_N_nonneg by lia. reflexivity.
Qed.

(** What VKO_compute_key computes, for any peer point. *)
Lemma vko_general C h c Q d ukm md : ec_laws C ->
  VKO_compute_key C h c Q d ukm (Some md) =
  point_key C (md_std md) (smul (cofactor C * ((digest_number ukm * d) mod order C)) Q).
Proof.
  intros L. pose proof (order_pos C L) as OP. unfold VKO_compute_key.
  change (lebin2bn ukm) with (digest_number ukm).
  pose proof (Z.mod_pos_bound (digest_number ukm * d) (order C) ltac:(lia)) as B.
  set (z := (digest_number ukm * d) mod order C) in *. clearbody z.
  assert (Z : affine C Q = None \/ Q <> pzero C).
  { destruct (affine C Q) as [xy|] eqn:A; [right|left; reflexivity]. intros ->. rewrite (affine_zero C L) in A. discriminate A. }
  destruct Z as [Z|Z].
  - apply (l_affine C L) in Z. subst Q. rewrite (sm_zero C L). unfold point_key. rewrite (affine_zero C L).
    destruct (file_of (gname C)) as [f|] eqn:F.
    + rewrite (pm_var_zero C L) by congruence. reflexivity.
    + rewrite (pm_var_zero_lib C L) by assumption. rewrite (affine_zero C L). reflexivity.
  - rewrite (pm_var C L) by (try (apply fits_order; [exact L|]); try exact Z; lia).
    unfold point_key. destruct (affine C _) as [[x y]|] eqn:A; [|reflexivity].
    destruct (l_range C L _ _ _ A) as [Rx Ry]. rewrite !lebinpad_coord by assumption. f_equal.
    pose proof (l_fieldlen C L). apply evp_digest_std.
    + apply bytes_app; apply n2le_bytes.
    + rewrite app_length, !n2le_length. apply N.le_lt_trans with 128%N; [lia|reflexivity].
Qed.
Lemma vko_none C h c Q d ukm : VKO_compute_key C h c Q d ukm None = None. Proof. reflexivity. Qed.

(** ** RFC 7836 *)
Theorem C40_vko_is_rfc7836 :
  forall C, ec_laws C -> forall h c d y ukm md,
    VKO_compute_key C h c (smul y (gen C)) d ukm (Some md)
    = point_key C (md_std md) (vko_point C d (digest_number ukm) (smul y (gen C))).
Proof.
  intros C L h c d y ukm md. rewrite (vko_general C) by exact L. f_equal. unfold vko_point.
  rewrite <- !(sm_mul C L). apply (gen_inj C L). pose proof (order_pos C L).
  rewrite Z.mul_mod_idemp_l by lia.
  replace (cofactor C * ((digest_number ukm * d) mod order C) * y) with ((cofactor C * y) * ((digest_number ukm * d) mod order C)) by lia.
  rewrite Z.mul_mod_idemp_r by lia. f_equal. lia.
Qed.
Print Assumptions C40_vko_is_rfc7836.

(** Both sides get the same key (or both none), on whatever hosts and builds they run. *)
Theorem C40_vko_symmetric :
  forall C, ec_laws C -> forall h h' c c' dA dB ukm md,
    VKO_compute_key C h c (smul dB (gen C)) dA ukm md = VKO_compute_key C h' c' (smul dA (gen C)) dB ukm md.
Proof.
  intros C L h h' c c' dA dB ukm [md|]; [|reflexivity]. rewrite !C40_vko_is_rfc7836 by exact L. f_equal. unfold vko_point.
  rewrite <- !(sm_mul C L). apply (gen_inj C L). pose proof (order_pos C L).
  rewrite !Z.mul_mod_idemp_l by lia. f_equal. lia.
Qed.
Print Assumptions C40_vko_symmetric.

Lemma cof_unit C : ec_laws C -> cofactor C = 4 \/ cofactor C = 1.
Proof. intros L. rewrite (l_cofactor C L). destruct (gname C); auto. Qed.
(** They get a key exactly if neither key nor the UKM is zero modulo the order. *)
Theorem C40_vko_succeeds_iff :
  forall C, ec_laws C -> forall h c d y ukm md,
    VKO_compute_key C h c (smul y (gen C)) d ukm (Some md) = None <->
    d mod order C = 0 \/ y mod order C = 0 \/ digest_number ukm mod order C = 0.
Proof.
  intros C L h c d y ukm md. rewrite C40_vko_is_rfc7836 by exact L. pose proof (order_pos C L) as OP. unfold vko_point, point_key.
  rewrite <- (sm_mul C L).
  assert (E : (affine C (smul ((cofactor C * digest_number ukm * d) mod order C * y) (gen C)) = None) <->
    (d mod order C = 0 \/ y mod order C = 0 \/ digest_number ukm mod order C = 0)).
  { rewrite (l_affine C L), (gen_zero C L), Z.mul_mod_idemp_l by lia.
    rewrite !Z.mod_divide by lia. split.
    - intros D. apply prime_mult in D; [|apply L]. destruct D as [D|D]; [|auto].
      apply prime_mult in D; [|apply L]. destruct D as [D|D]; [|auto].
      apply prime_mult in D; [|apply L]. destruct D as [D|D]; [|auto].
      destruct (cof_unit C L) as [E|E]; rewrite E in D; apply Z.divide_pos_le in D; lia.
    - intros [[k K]|[[k K]|[k K]]].
      + exists (cofactor C * digest_number ukm * k * y). rewrite K. ring.
      + exists (cofactor C * digest_number ukm * d * k). rewrite K. ring.
      + exists (cofactor C * k * d * y). rewrite K. ring. }
  rewrite <- E. destruct (affine C _) as [[x' y']|]; split; intros H; try discriminate H; reflexivity.
Qed.
Print Assumptions C40_vko_succeeds_iff.

(** ** Peer points outside the subgroup *)
(** A point that the cofactor kills (infinity included) gives no key ... *)
Theorem C40_small_order_peer_rejected :
  forall C, ec_laws C -> forall h c Q d ukm md, smul (cofactor C) Q = pzero C ->
    VKO_compute_key C h c Q d ukm (Some md) = None.
Proof.
  intros C L h c Q d ukm md H. rewrite (vko_general C) by exact L. rewrite Z.mul_comm, (sm_mul C L), H, (sm_zero C L).
  unfold point_key. rewrite (affine_zero C L). reflexivity.
Qed.
Print Assumptions C40_small_order_peer_rejected.

(** ... and for any other point the key depends on the cofactor multiple only: what an attacker adds to a
    point inside the small subgroup does not show, and the shared point lies in the subgroup. *)
Theorem C40_small_component_invisible :
  forall C, ec_laws C -> forall h c Q Q' d ukm md,
    smul (cofactor C) Q = smul (cofactor C) Q' ->
    VKO_compute_key C h c Q d ukm md = VKO_compute_key C h c Q' d ukm md /\
    forall k, VKO_compute_key C h c Q d ukm md = Some k ->
      exists P m, md = Some m /\ point_key C (md_std m) P = Some k /\ smul (order C) P = pzero C.
Proof.
  intros C L h c Q Q' d ukm [md|] H; [|split; [reflexivity|discriminate]]. rewrite !(vko_general C) by exact L. split.
  - rewrite Z.mul_comm, !(sm_mul C L), H. reflexivity.
  - intros k K. exists (smul (cofactor C * ((digest_number ukm * d) mod order C)) Q), md.
    split; [reflexivity|]. split; [exact K|]. rewrite <- (sm_mul C L).
    replace (order C * (cofactor C * ((digest_number ukm * d) mod order C)))
      with ((digest_number ukm * d) mod order C * (cofactor C * order C)) by ring.
    rewrite (sm_mul C L), (l_total C L). apply (sm_zero C L).
Qed.
Print Assumptions C40_small_component_invisible.

(** ** KEG (R 1323565.1.020-2018, 6.4.5.1; RFC 9189, 8.3.1) *)
(** The number UKM: the first sixteen bytes, highest first, 1 if they are all zero. *)
Definition keg_ukm (ukm : list N) : Z := let u := Z.of_N (be2n (firstn 16 ukm)) in if u =? 0 then 1 else u.
Definition keg (C : group) (d : Z) (Q : pt C) (ukm : list N) (a : pkey_alg) : option (list N) :=
  let K md := point_key C (md_std md) (vko_point C d (keg_ukm ukm) Q) in
  match a with
  | A2012_512 => K Md_2012_512
  | A2012_256 => option_map (fun k => kdf_tree 2 k (ascii_bytes "kdf tree") (firstn 8 (skipn 16 ukm)) 1) (K Md_2012_256)
  | _ => None
  end.

Lemma real_ukm_number ukm : (16 <= List.length ukm)%nat -> bytes ukm -> be2n (firstn 16 ukm) <> 0%N ->
  digest_number (real_ukm ukm) = keg_ukm ukm.
Proof.
  intros Len B N. unfold real_ukm, keg_ukm, digest_number.
  destruct (eqbl (firstn 16 ukm) (zeros 16)) eqn:E.
  - apply eqbl_eq in E. rewrite E in N. exfalso. apply N. reflexivity.
  - cbv zeta. destruct (Z.eqb_spec (Z.of_N (be2n (firstn 16 ukm))) 0) as [Z|Z]; [lia|]. reflexivity.
Qed.
Lemma bytes_sub_ n m (l : list N) : bytes l -> bytes (firstn n (skipn m l)).
Proof. intros. apply bytes_firstn, bytes_skipn. assumption. Qed.
Lemma kdf_label : bytes (ascii_bytes "kdf tree"). Proof. apply bytes_forallb. reflexivity. Qed.
Lemma keg_kdf h k s : bytes k -> bytes s ->
  gost_kdftree2012_256 h 64 k (ascii_bytes "kdf tree") s 1 = Kdf_ok (kdf_tree 2 k (ascii_bytes "kdf tree") s 1).
Proof.
  intros Bk Bs. rewrite C34_kdftree_is_KDF_TREE; auto using kdf_label; try reflexivity; split; reflexivity.
Qed.
Lemma point_key_bytes C md P k : point_key C (md_std md) P = Some k -> bytes k /\ List.length k = md_size md.
Proof.
  unfold point_key. destruct (affine C P) as [[x y]|]; [|discriminate]. intros H. injection H as <-.
  apply and_comm, md_std_ok. apply bytes_app; apply n2le_bytes.
Qed.
Lemma keg_general C h c ukm a Q d : ec_laws C -> bytes ukm ->
  gost_keg C h c ukm a Q d =
  let K md := point_key C (md_std md) (smul (cofactor C * ((digest_number (real_ukm ukm) * d) mod order C)) Q) in
  match a with
  | A2012_512 => K Md_2012_512
  | A2012_256 => option_map (fun k => kdf_tree 2 k (ascii_bytes "kdf tree") (firstn 8 (skipn 16 ukm)) 1) (K Md_2012_256)
  | _ => None
  end.
Proof.
  intros L B. unfold gost_keg. cbv zeta. destruct a; try reflexivity.
  - rewrite (vko_general C) by exact L. destruct (point_key C _ _) as [k|] eqn:E; [|reflexivity].
    apply point_key_bytes in E as [E _]. rewrite keg_kdf; [reflexivity|exact E|apply bytes_sub_, B].
  - apply (vko_general C). exact L.
Qed.

Theorem C40_keg_is_standard :
  forall C, ec_laws C -> forall h c ukm a d y, (24 <= List.length ukm)%nat -> bytes ukm ->
    be2n (firstn 16 ukm) <> 0%N ->
    gost_keg C h c ukm a (smul y (gen C)) d = keg C d (smul y (gen C)) ukm a.
Proof.
  intros C L h c ukm a d y Len B N. rewrite keg_general by assumption. unfold keg.
  assert (E : smul (cofactor C * ((digest_number (real_ukm ukm) * d) mod order C)) (smul y (gen C)) =
              vko_point C d (keg_ukm ukm) (smul y (gen C))).
  { rewrite (real_ukm_number ukm) by (auto; lia). unfold vko_point. rewrite <- !(sm_mul C L). apply (gen_inj C L). pose proof (order_pos C L).
    rewrite Z.mul_mod_idemp_l by lia.
    replace (cofactor C * ((keg_ukm ukm * d) mod order C) * y) with ((cofactor C * y) * ((keg_ukm ukm * d) mod order C)) by lia.
    rewrite Z.mul_mod_idemp_r by lia. f_equal. lia. }
  cbv zeta. rewrite E. reflexivity.
Qed.
Print Assumptions C40_keg_is_standard.

(** Defect: for an all-zero UKM the standard says UKM = 1; the byte set is the wrong one and the number
    used is 2^120.  The agreed point is then another one (in any group where 2^120 is not 1 modulo the
    order, and so in all the curves of gost_params.c). *)
Theorem C40_keg_zero_ukm_refuted :
  forall C, ec_laws C -> forall ukm d y, firstn 16 ukm = zeros 16 -> d mod order C <> 0 -> y mod order C <> 0 ->
    2 ^ 120 mod order C <> 1 ->
    digest_number (real_ukm ukm) = 2 ^ 120 /\ keg_ukm ukm = 1 /\
    vko_point C d (digest_number (real_ukm ukm)) (smul y (gen C)) <> vko_point C d (keg_ukm ukm) (smul y (gen C)).
Proof.
  intros C L ukm d y E Nd Ny N.
  assert (E1 : digest_number (real_ukm ukm) = 2 ^ 120) by (unfold real_ukm; rewrite E; reflexivity).
  assert (E2 : keg_ukm ukm = 1) by (unfold keg_ukm; rewrite E; reflexivity).
  split; [exact E1|]. split; [exact E2|]. rewrite E1, E2. unfold vko_point. intros H.
  pose proof (order_pos C L) as OP. generalize dependent (2 ^ 120). intros w N _ H.
  rewrite <- !(sm_mul C L) in H. apply (gen_inj C L) in H. rewrite !Z.mul_mod_idemp_l in H by lia.
  assert (D : (order C | (w - 1) * (cofactor C * d * y))).
  { apply Z.mod_divide; [lia|]. replace ((w - 1) * (cofactor C * d * y)) with (cofactor C * w * d * y - cofactor C * 1 * d * y) by ring.
    rewrite Zminus_mod, H, Z.sub_diag. reflexivity. }
  rewrite Z.mod_divide in Nd, Ny by lia.
  apply prime_mult in D; [|apply L]. destruct D as [D|D].
  - apply N. destruct D as [k K]. replace w with (1 + k * order C) by lia. rewrite Z_mod_plus_full. apply Z.mod_small. lia.
  - apply prime_mult in D; [|apply L]. destruct D as [D|D]; [|contradiction].
    apply prime_mult in D; [|apply L]. destruct D as [D|D]; [|contradiction].
    destruct (cof_unit C L) as [F|F]; rewrite F in D; apply Z.divide_pos_le in D; lia.
Qed.
Print Assumptions C40_keg_zero_ukm_refuted.
Example C40_keg_zero_ukm_witness :
  ec_laws (toy Tc512_A true) /\ 2 ^ 120 mod order (toy Tc512_A true) <> 1 /\ firstn 16 (zeros 32) = zeros 16.
Proof. split; [apply toy_laws|]. split; [vm_compute; discriminate|reflexivity]. Qed.

(** ** EVP_PKEY_derive *)
(** What EVP_PKEY_derive returns: with a digest chosen by the caller (EVP_PKEY_CTRL_SET_VKO), VKO with all of the UKM
    and that digest; otherwise, for a UKM of 8 bytes, VKO with the 256-bit digest of the key's generation, and for one of
    32 bytes KEG; anything else is refused. *)
Definition derive_std (C : group) (data : pmeth) (a : pkey_alg) (d : Z) (Q : pt C) : option (list N) :=
  match List.length (p_ukm data), p_vko data with
  | O, _ => None
  | _, Some md => point_key C (md_std md) (vko_point C d (digest_number (p_ukm data)) Q)
  | 8%nat, None =>
    match a with
    | A2001 | A2001DH => point_key C (md_std Md_94) (vko_point C d (digest_number (p_ukm data)) Q)
    | A2012_256 | A2012_512 => point_key C (md_std Md_2012_256) (vko_point C d (digest_number (p_ukm data)) Q)
    | A_other => None
    end
  | 32%nat, None => keg C d Q (p_ukm data) a
  | _, None => None
  end.
Theorem C40_derive_is_standard :
  forall C, ec_laws C -> forall h c data a d y, bytes (p_ukm data) -> p_ukm_size data = List.length (p_ukm data) ->
    (List.length (p_ukm data) = 32%nat -> p_vko data = None -> be2n (firstn 16 (p_ukm data)) <> 0%N) ->
    pkey_gost_ec_derive C h c data a d (smul y (gen C)) = derive_std C data a d (smul y (gen C)).
Proof.
  intros C L h c data a d y B SZ NZ. unfold pkey_gost_ec_derive. rewrite SZ, firstn_all.
  assert (E : forall n, List.length (p_ukm data) = n -> derive_std C data a d (smul y (gen C)) =
    if (n =? 0)%nat then None else match p_vko data with
    | Some md => point_key C (md_std md) (vko_point C d (digest_number (p_ukm data)) (smul y (gen C)))
    | None => if (n =? 8)%nat then
        match shorten (default_digest a) with
        | Some md => point_key C (md_std md) (vko_point C d (digest_number (p_ukm data)) (smul y (gen C))) | None => None end
      else if (n =? 32)%nat then keg C d (smul y (gen C)) (p_ukm data) a else None end).
  { intros n Ln. unfold derive_std. rewrite Ln. destruct (p_vko data).
    - do 33 (destruct n as [|n]; [reflexivity|]). reflexivity.
    - do 33 (destruct n as [|n]; [try reflexivity; destruct a; reflexivity|]). reflexivity. }
  rewrite (E _ eq_refl). destruct (length (p_ukm data) =? 0)%nat; [reflexivity|].
  destruct (p_vko data) as [md|] eqn:V; [apply C40_vko_is_rfc7836, L|].
  destruct (Nat.eqb_spec (length (p_ukm data)) 8) as [L8|_].
  - replace (firstn 8 (p_ukm data)) with (p_ukm data) by (rewrite <- L8; symmetry; apply firstn_all).
    destruct (shorten (default_digest a)); [apply C40_vko_is_rfc7836, L|reflexivity].
  - destruct (Nat.eqb_spec (length (p_ukm data)) 32) as [L32|_]; [|reflexivity].
    apply C40_keg_is_standard; [exact L|lia|exact B|auto].
Qed.
Print Assumptions C40_derive_is_standard.
Theorem C40_derive_symmetric :
  forall C, ec_laws C -> forall h h' c c' data a dA dB, bytes (p_ukm data) ->
    pkey_gost_ec_derive C h c data a dA (smul dB (gen C)) = pkey_gost_ec_derive C h' c' data a dB (smul dA (gen C)).
Proof.
  intros C L h h' c c' data a dA dB B. unfold pkey_gost_ec_derive.
  destruct (p_ukm_size data =? 0)%nat; [reflexivity|].
  destruct (p_vko data) as [md|]; [apply C40_vko_symmetric, L|].
  destruct (p_ukm_size data =? 8)%nat; [apply C40_vko_symmetric, L|].
  destruct (p_ukm_size data =? 32)%nat; [|reflexivity].
  rewrite !keg_general by assumption.
  assert (E : smul (cofactor C * ((digest_number (real_ukm (p_ukm data)) * dA) mod order C)) (smul dB (gen C)) =
              smul (cofactor C * ((digest_number (real_ukm (p_ukm data)) * dB) mod order C)) (smul dA (gen C))).
  { set (u := digest_number _). rewrite <- !(sm_mul C L). apply (gen_inj C L). pose proof (order_pos C L).
    assert (R : forall x y, (cofactor C * ((u * x) mod order C) * y) mod order C = (cofactor C * u * x * y) mod order C).
    { intros x y. replace (cofactor C * ((u * x) mod order C) * y) with ((cofactor C * y) * ((u * x) mod order C)) by lia.
      rewrite Z.mul_mod_idemp_r by lia. f_equal. lia. }
    rewrite !R. f_equal. lia. }
  cbv zeta. rewrite E. reflexivity.
Qed.
Print Assumptions C40_derive_symmetric.

Lemma kdf_tree_length k s : bytes k -> bytes s -> List.length (kdf_tree 2 k (ascii_bytes "kdf tree") s 1) = 64%nat.
Proof.
  intros Bk Bs.
  destruct (C34_output_blocks (mk_host RefLE false true) 64 k (ascii_bytes "kdf tree") s 1
    (kdf_tree 2 k (ascii_bytes "kdf tree") s 1)) as [H _]; auto using kdf_label; try reflexivity; try (split; reflexivity).
  { apply keg_kdf; assumption. }
  apply (f_equal N.to_nat) in H. rewrite Nat2N.id in H. exact H.
Qed.
(** The length announced for a NULL buffer is the length delivered.  ([p_vko] is set by
    EVP_PKEY_CTRL_SET_VKO, which takes the two 2012 digests only.) *)
Theorem C40_derive_length :
  forall C, ec_laws C -> forall h c data a d Q out, bytes (p_ukm data) -> p_vko data <> Some Md_94 ->
    pkey_gost_ec_derive C h c data a d Q = Some out ->
    pkey_gost_ec_derive_len data = Some (List.length out).
Proof.
  intros C L h c data a d Q out B N. unfold pkey_gost_ec_derive, pkey_gost_ec_derive_len.
  destruct (p_ukm_size data =? 0)%nat; [discriminate|].
  destruct (p_vko data) as [md|].
  - rewrite (vko_general C) by exact L. intros H. apply point_key_bytes in H as [_ ->]. destruct md; [congruence|reflexivity|reflexivity].
  - destruct (p_ukm_size data =? 8)%nat.
    + destruct (shorten (default_digest a)) as [md|] eqn:E; [|discriminate].
      rewrite (vko_general C) by exact L. intros H. apply point_key_bytes in H as [_ ->].
      destruct a; cbn in E; try discriminate E; injection E as <-; reflexivity.
    + destruct (p_ukm_size data =? 32)%nat; [|discriminate].
      rewrite keg_general by assumption. cbv zeta. destruct a; try discriminate.
      * destruct (point_key C _ _) as [k|] eqn:E; [|discriminate]. apply point_key_bytes in E as [E _].
        cbn [option_map]. intros H. apply (f_equal (fun o => match o with Some x => x | None => out end)) in H. cbv beta iota in H. rewrite <- H. rewrite kdf_tree_length; [reflexivity|exact E|apply bytes_sub_, B].
      * intros H. apply point_key_bytes in H as [_ ->]. reflexivity.
Qed.
Print Assumptions C40_derive_length.

(** Which requests are refused outright: no UKM, and, unless a digest was chosen, a UKM of a size other than
    8 and 32 or a 2001 key with 32 bytes. *)
Theorem C40_derive_refusals :
  forall C h c data a d Q,
    (p_ukm_size data = 0%nat -> pkey_gost_ec_derive C h c data a d Q = None) /\
    (p_vko data = None -> p_ukm_size data <> 8%nat -> p_ukm_size data <> 32%nat -> pkey_gost_ec_derive C h c data a d Q = None) /\
    (p_vko data = None -> p_ukm_size data = 32%nat -> a = A2001 \/ a = A2001DH -> pkey_gost_ec_derive C h c data a d Q = None).
Proof.
  intros C h c data a d Q. unfold pkey_gost_ec_derive. split; [|split].
  - intros ->. reflexivity.
  - intros -> N1 N2. apply Nat.eqb_neq in N1, N2. rewrite N1, N2. destruct (p_ukm_size data =? 0)%nat; reflexivity.
  - intros -> -> [-> | ->]; reflexivity.
Qed.
Print Assumptions C40_derive_refusals.

(** The hypotheses are met: on a toy group the agreed point is not zero, so a key comes out; a point of
    order 2 gives none. *)
Example C40_nontrivial :
  ec_laws (toy Tc256_A true) /\
  affine (toy Tc256_A true) (vko_point (toy Tc256_A true) 3 (digest_number [5; 1]%N) (smul 7 (gen (toy Tc256_A true)))) <> None /\
  smul (C := toy Tc256_A true) (cofactor (toy Tc256_A true)) (mkp Tc256_A 38) = pzero (toy Tc256_A true) /\ mkp Tc256_A 38 <> pzero (toy Tc256_A true) /\
  be2n (firstn 16 (1%N :: zeros 31)) <> 0%N.
Proof.
  split; [apply toy_laws|]. split; [vm_compute; discriminate|]. split; [apply toy_eq; vm_compute; reflexivity|].
  split; [|vm_compute; discriminate]. intros H. apply (f_equal (@proj1_sig _ _)) in H. vm_compute in H. discriminate H.
Qed.
