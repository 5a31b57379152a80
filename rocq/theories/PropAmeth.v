(** Properties C41 (private keys in PKCS8) and C42 (public keys in SubjectPublicKeyInfo). *)
From Coq Require Import ZArith List Bool Lia Znumtheory.
From Verif Require Import Bytes BytesProofs EcLadderModel EcSpec EcLadderProofs EcModel EcProofs ToyGroup PropEc PropEcSig
  Asn1Model AmethModel.
Import ListNotations.
Local Open Scope Z_scope.

(** * Specification *)
(** A number as [n] bytes, lowest first. *)
Definition le_bytes (n : nat) (x : Z) : list N := n2le n (Z.to_N x).
(** Length of a private key in bytes. *)
Definition key_bytes (a : pkey_alg) : nat := match a with A2012_512 => 64 | _ => 32 end.
(** The parameter sets: each has its own name and is a curve with the laws of EcSpec. *)
Definition curves_ok (curves : curve_nid -> option group) : Prop :=
  curves OtherNid = None /\ forall n C, curves n = Some C -> gname C = n /\ ec_laws C.
(** Building a point from coordinates: they are reduced modulo the field prime [p], and accepted exactly if
    they then are the coordinates of a point. *)
Definition lift_ok (p : Z) (c : curve) : Prop :=
  0 < p /\
  (forall x y P, 0 <= x -> 0 <= y -> (lift c x y = Some P <-> affine (cv c) P = Some (x mod p, y mod p))) /\
  (forall P x y, affine (cv c) P = Some (x, y) -> x < p /\ y < p).
(** The key pair of a private number. *)
Definition pair_of (a : pkey_alg) (C : group) (d : Z) : evp_pkey :=
  mk_pkey a C (mk_key (Some d) (Some (smul d (gen C)))).
Definition product (l : list Z) : Z := fold_right Z.mul 1 l.

(** * Lemmas *)
Lemma get_len_der n r : get_len (der_len n ++ r) = Some (N.of_nat n, r) \/ (128 <= N.of_nat (len_bytes n))%N.
Proof.
  unfold der_len. destruct (Nat.ltb_spec n 128) as [H|H].
  - left. cbn [app get_len]. destruct (N.ltb_spec (N.of_nat n) 128); [reflexivity|lia].
  - destruct (N.leb_spec 128 (N.of_nat (len_bytes n))) as [B|B]; [right; exact B|left].
    assert (P : (0 < len_bytes n)%nat).
    { unfold len_bytes. rewrite N.size_log2 by lia.
      assert (7 <= N.log2 (N.of_nat n))%N by (change 7%N with (N.log2 128); apply N.log2_le_mono; lia).
      assert (1 <= (N.succ (N.log2 (N.of_nat n)) + 7) / 8)%N by (apply N.div_le_lower_bound; lia). lia. }
    cbn [app get_len]. destruct (N.ltb_spec (N.of_nat (128 + len_bytes n)) 128); [lia|].
    destruct (N.eqb_spec (N.of_nat (128 + len_bytes n)) 128); [lia|].
    replace (N.to_nat (N.of_nat (128 + len_bytes n) - 128)) with (len_bytes n) by lia.
    rewrite app_length, n2be_length. destruct (Nat.ltb_spec (len_bytes n + length r) (len_bytes n)); [lia|].
    rewrite firstn_app_exact, skipn_app_exact by apply n2be_length. f_equal. f_equal.
    rewrite be2n_n2be. apply N.mod_small. unfold len_bytes. rewrite N2Nat.id. change 256%N with (2 ^ 8)%N. rewrite <- N.pow_mul_r.
    eapply N.lt_le_trans; [apply N.size_gt|]. apply N.pow_le_mono_r; [lia|].
    pose proof (N.div_mod (N.size (N.of_nat n) + 7) 8 ltac:(lia)). pose proof (N.mod_lt (N.size (N.of_nat n) + 7) 8 ltac:(lia)). lia.
Qed.
Lemma len_bytes_small n : (N.of_nat n < 2 ^ 1000)%N -> (N.of_nat (len_bytes n) < 128)%N.
Proof.
  intros H. unfold len_bytes. rewrite N2Nat.id. apply N.div_lt_upper_bound; [lia|].
  destruct (N.eq_dec (N.of_nat n) 0) as [E|E]; [rewrite E; cbn; lia|].
  rewrite N.size_log2 by exact E. assert (N.log2 (N.of_nat n) < 1000)%N by (apply N.log2_lt_pow2; [lia|exact H]). lia.
Qed.
Definition der_small (n : nat) : Prop := (N.of_nat n < 2 ^ 1000)%N.
Lemma get_tlv_der tag c r : der_small (length c) -> get_tlv tag (der tag c ++ r) = Some (c, r).
Proof.
  intros H. unfold der. cbn [app get_tlv]. rewrite N.eqb_refl, <- app_assoc.
  destruct (get_len_der (length c) (c ++ r)) as [->|B]; [|pose proof (len_bytes_small _ H); lia].
  rewrite Nat2N.id, firstn_app_exact, skipn_app_exact by reflexivity.
  destruct (N.ltb_spec (N.of_nat (length (c ++ r))) (N.of_nat (length c))) as [B|B]; [rewrite app_length in B; lia|reflexivity].
Qed.
Lemma small_le a b : (a <= b)%nat -> der_small b -> der_small a.
Proof. unfold der_small. lia. Qed.
Lemma small_128 n : (n <= 512)%nat -> der_small n.
Proof. intros H. unfold der_small. assert (512 < 2 ^ 1000)%N by reflexivity. lia. Qed.
Lemma d2i_octet_i2d s r : der_small (length s) -> d2i_octet (i2d_octet s ++ r) = Some s.
Proof. intros H. unfold d2i_octet, i2d_octet. rewrite get_tlv_der by exact H. reflexivity. Qed.

Lemma key_len_bytes a : a <> A_other -> key_len a = key_bytes a.
Proof. destruct a; intros H; try reflexivity. congruence. Qed.
Lemma key_bytes_cases a : key_bytes a = 32%nat \/ key_bytes a = 64%nat.
Proof. destruct a; auto. Qed.
Lemma lebin_le n x : 0 <= x < 256 ^ Z.of_nat n -> lebin2bn (le_bytes n x) = x.
Proof.
  intros H. unfold lebin2bn, le_bytes. rewrite le2n_n2le_small; [apply Z2N.id, H|].
  apply N2Z.inj_lt. rewrite Z2N.id, N2Z.inj_pow, nat_N_Z by lia. apply H.
Qed.
Lemma le_bytes_length n x : length (le_bytes n x) = n. Proof. apply n2le_length. Qed.
Lemma rev_be n x : rev (be_bytes n x) = le_bytes n x.
Proof. unfold be_bytes, le_bytes, n2be. apply rev_involutive. Qed.

Lemma set_priv a C d : ec_laws C -> a <> A_other -> 0 <= d -> scalar_fits (gname C) d = true ->
  gost_set_priv_key a C d = Dec_ok (pair_of a C d).
Proof.
  intros L A H F. unfold gost_set_priv_key, gost_ec_compute_public. cbn [k_priv].
  rewrite (pm_g C L d H F None). destruct a; try reflexivity. congruence.
Qed.
Lemma set_priv_big a C d : ec_laws C -> 0 <= d -> scalar_fits (gname C) d = false ->
  gost_set_priv_key a C d = Dec_fail.
Proof.
  intros L H F. unfold gost_set_priv_key, gost_ec_compute_public. cbn [k_priv].
  rewrite (pm_g_big C d None H) by (unfold fits; congruence). destruct a; reflexivity.
Qed.
Lemma set_priv_cases a C d : ec_laws C -> 0 <= d ->
  gost_set_priv_key a C d = Dec_fail \/ gost_set_priv_key a C d = Dec_ok (pair_of a C d).
Proof.
  intros L H. destruct (scalar_fits (gname C) d) eqn:F; [|left; apply set_priv_big; auto].
  destruct a; try (right; apply set_priv; auto; congruence). left. reflexivity.
Qed.

Lemma read_at (buf a b c : list N) off len : buf = a ++ b ++ c -> length a = off -> length b = len ->
  read buf off len = Some b.
Proof.
  intros -> <- <-. unfold read. rewrite !app_length. destruct (Nat.leb_spec (length a + length b) (length a + (length b + length c))); [|lia].
  rewrite skipn_app_exact, firstn_app_exact; reflexivity.
Qed.
Lemma concat_le_length n (ms : list Z) : length (concat (map (le_bytes n) ms)) = (length ms * n)%nat.
Proof. induction ms as [|m ms IH]; [reflexivity|]. cbn [map concat length]. rewrite app_length, le_bytes_length, IH. lia. Qed.
Lemma unmask_loop_spec q len k ms rest acc : 0 < q -> length k = len ->
  Forall (fun m => 0 <= m < 256 ^ Z.of_nat len) ms ->
  exists v, unmask_loop q (k ++ concat (map (le_bytes len) ms) ++ rest) len (length ms) acc = Some v /\
    v mod q = (acc * product ms) mod q /\ (ms <> [] -> v = (acc * product ms) mod q).
Proof.
  intros Q K. revert rest acc. induction ms as [|m ms IH] using rev_ind; intros rest acc F.
  - exists acc. cbn [length unmask_loop product fold_right]. rewrite Z.mul_1_r. repeat split; auto. congruence.
  - apply Forall_app in F. destruct F as [F Fm]. inversion Fm as [|? ? M _]; subst.
    rewrite app_length. cbn [length]. rewrite Nat.add_1_r. cbn [unmask_loop].
    rewrite map_app, concat_app. cbn [map concat]. rewrite app_nil_r.
    erewrite read_at with (a := k ++ concat (map (le_bytes (length k)) ms)) (b := le_bytes (length k) m) (c := rest);
      [|rewrite <- !app_assoc; reflexivity|rewrite app_length, concat_le_length; lia|apply le_bytes_length].
    rewrite lebin_le by exact M. rewrite <- app_assoc.
    destruct (IH (le_bytes (length k) m ++ rest) ((acc * m) mod q) F) as (v & E & V & W).
    exists v. rewrite E. split; [reflexivity|].
    assert (PP : ((acc * m) mod q * product ms) mod q = (acc * product (ms ++ [m])) mod q).
    { rewrite Z.mul_mod_idemp_l by lia. f_equal. unfold product. rewrite fold_right_app. cbn [fold_right].
      assert (G : forall l x, fold_right Z.mul x l = fold_right Z.mul 1 l * x).
      { induction l as [|y l I]; intros x; cbn [fold_right]; [lia|]. rewrite I. lia. }
      rewrite (G ms (m * 1)). lia. }
    split; [rewrite V; exact PP|]. intros _.
    destruct ms as [|m0 ms'].
    + cbn [length unmask_loop] in E. injection E as <-. rewrite <- PP. cbn [product fold_right]. rewrite Z.mul_1_r, Z.mod_mod by lia. reflexivity.
    + rewrite W by congruence. exact PP.
Qed.
Lemma unmask_spec q len x ms : 0 < q -> (0 < len)%nat -> 0 <= x < 256 ^ Z.of_nat len ->
  Forall (fun m => 0 <= m < 256 ^ Z.of_nat len) ms ->
  let buf := le_bytes len x ++ concat (map (le_bytes len) ms) in
  unmask_priv_key q buf len (Z.of_nat (length buf / len) - 1) =
  Some (if match ms with [] => true | _ => false end then x else (x * product ms) mod q).
Proof.
  intros Q Ln X F buf. unfold unmask_priv_key.
  rewrite (read_at buf [] (le_bytes len x) (concat (map (le_bytes len) ms)) 0 len); [|reflexivity|reflexivity|apply le_bytes_length].
  rewrite lebin_le by exact X.
  assert (LB : (length buf / len = S (length ms))%nat).
  { unfold buf. rewrite app_length, le_bytes_length, concat_le_length. replace (len + length ms * len)%nat with (S (length ms) * len)%nat by lia.
    apply Nat.div_mul. lia. }
  rewrite LB. replace (Z.of_nat (S (length ms)) - 1) with (Z.of_nat (length ms)) by lia. rewrite Nat2Z.id.
  destruct ms as [|m ms]; [reflexivity|]. destruct (Z.ltb_spec 0 (Z.of_nat (length (m :: ms)))); [|cbn [length] in *; lia].
  destruct (unmask_loop_spec q len (le_bytes len x) (m :: ms) [] x Q (le_bytes_length _ _) F) as (v & E & _ & W).
  rewrite app_nil_r in E. fold buf in E. rewrite E, W by congruence. reflexivity.
Qed.
Lemma decode_algor_gen {G} (curves : curve_nid -> option G) n C a h : curves n = Some C -> a <> A_other ->
  decode_gost_algor_params curves (mk_algor a (Some (n, h))) = Some (a, C).
Proof. intros E A. unfold decode_gost_algor_params. cbn [al_params al_alg]. rewrite E. destruct a; try reflexivity. congruence. Qed.
Lemma decode_algor_ok curves n C a h : curves_ok curves -> curves n = Some C -> a <> A_other ->
  decode_gost_algor_params curves (mk_algor a (Some (n, h))) = Some (a, C).
Proof. intros _. apply decode_algor_gen. Qed.
(** The digest named in the parameters (RFC 4491, RFC 9215): GOST R 34.11-94 with every 2001 key; for 2012 keys the
    digest of the key's size with the parameter sets that existed before RFC 7836, nothing with the newer ones. *)
Definition digest_named (a : pkey_alg) (c : curve_nid) (h : option digest_nid) : Prop :=
  (h = Some Md_94 <-> In a [A2001; A2001DH]) /\
  (h = Some Md_2012_256 <-> a = A2012_256 /\ In c [TestParamSet; CryptoPro_A; CryptoPro_B; CryptoPro_C; CryptoPro_XchA; CryptoPro_XchB]) /\
  (h = Some Md_2012_512 <-> a = A2012_512 /\ In c [Tc512_Test; Tc512_A; Tc512_B]).
Ltac in_list := repeat first [left; reflexivity | right].
Lemma encode_algor_ok a c : a <> A_other -> c <> OtherNid ->
  exists h, digest_named a c h /\ encode_gost_algor_params a c = Some (mk_algor a (Some (c, h))).
Proof.
  intros A H. destruct a; try congruence; destruct c; try congruence; (eexists; split; [|reflexivity]);
  (split; [|split]); (split; [first [discriminate | intros _]|]); try (intros _; reflexivity);
  try (split; [reflexivity|]); try solve [in_list];
  try (intros [Q _]; discriminate Q); intros Q; cbn [In] in Q; exfalso;
  repeat match goal with H : _ /\ _ |- _ => destruct H | H : _ \/ _ |- _ => destruct H end; try discriminate; try contradiction.
Qed.
Lemma curve_known curves n C : curves_ok curves -> curves n = Some C -> gname C = n /\ ec_laws C /\ n <> OtherNid.
Proof. intros [O K] E. destruct (K n C E) as [G L]. split; [exact G|]. split; [exact L|]. intros ->. congruence. Qed.

(** * C41 *)
(** The private key field: the key lowest byte first in exactly 32 or 64 bytes, bare or (LEGACY_PK_WRAP) as
    an OCTET STRING; the algorithm identifier names the key's algorithm and parameter set. *)
Theorem C41_encoded_form :
  forall wrap a C d pub, a <> A_other -> gname C <> OtherNid -> 0 <= d < 256 ^ Z.of_nat (key_bytes a) ->
  exists h, digest_named a (gname C) h /\ priv_encode_gost wrap (mk_pkey a C (mk_key (Some d) pub)) =
    Some (Some (mk_algor a (Some (gname C, h)),
      (if wrap then [4; N.of_nat (key_bytes a)]%N else []) ++ le_bytes (key_bytes a) d)).
Proof.
  intros wrap a C d pub A G D. destruct (encode_algor_ok a (gname C) A G) as [h [DN E]]. exists h. split; [exact DN|].
  unfold priv_encode_gost. cbn [pk_alg pk_curve pk_key k_priv]. rewrite (key_len_bytes a A).
  destruct (Nat.eqb_spec (key_bytes a) 0) as [Z0'|_]; [destruct (key_bytes_cases a); lia|].
  rewrite store_fits by exact D. rewrite E, rev_be. do 4 f_equal. destruct wrap; [|reflexivity].
  unfold i2d_octet, der, der_len. rewrite le_bytes_length. destruct (key_bytes_cases a) as [K|K]; rewrite K; reflexivity.
Qed.
(** A number that needs more bytes is refused, not truncated. *)
Theorem C41_too_long_refused :
  forall wrap a C d pub, a <> A_other -> 256 ^ Z.of_nat (key_bytes a) <= d ->
  priv_encode_gost wrap (mk_pkey a C (mk_key (Some d) pub)) = Some None.
Proof.
  intros wrap a C d pub A D. unfold priv_encode_gost. cbn [pk_alg pk_curve pk_key k_priv]. rewrite (key_len_bytes a A).
  destruct (Nat.eqb_spec (key_bytes a) 0) as [Z0'|_]; [reflexivity|]. rewrite store_big by exact D. reflexivity.
Qed.

Lemma decode_raw curves n C a h x ms : curves_ok curves -> curves n = Some C -> a <> A_other ->
  0 <= x < 256 ^ Z.of_nat (key_bytes a) -> Forall (fun m => 0 <= m < 256 ^ Z.of_nat (key_bytes a)) ms ->
  priv_decode_gost curves (mk_algor a (Some (n, h))) (le_bytes (key_bytes a) x ++ concat (map (le_bytes (key_bytes a)) ms)) =
  gost_set_priv_key a C (if match ms with [] => true | _ => false end then x else (x * product ms) mod order C).
Proof.
  intros K E A X F. destruct (curve_known curves n C K E) as (G & L & O).
  pose proof (order_pos C L) as Q.
  unfold priv_decode_gost. rewrite (decode_algor_ok curves n C a h K E A), (key_len_bytes a A).
  assert (P : (0 < key_bytes a)%nat) by (destruct (key_bytes_cases a); lia).
  destruct (Nat.eqb_spec (key_bytes a) 0); [lia|].
  set (buf := le_bytes (key_bytes a) x ++ concat (map (le_bytes (key_bytes a)) ms)).
  assert (M : (length buf mod key_bytes a = 0)%nat).
  { unfold buf. rewrite app_length, le_bytes_length, concat_le_length. replace (key_bytes a + length ms * key_bytes a)%nat with (S (length ms) * key_bytes a)%nat by lia.
    apply Nat.mod_mul. lia. }
  rewrite M. cbn [Nat.eqb]. unfold buf at 1 2.
  rewrite (unmask_spec (order C) (key_bytes a) x ms ltac:(lia) P X F). reflexivity.
Qed.
Lemma decode_octet curves n C a h s r : curves_ok curves -> curves n = Some C -> a <> A_other ->
  (length s = 32 \/ length s = 64)%nat -> (length (i2d_octet s ++ r) mod key_bytes a <> 0)%nat ->
  priv_decode_gost curves (mk_algor a (Some (n, h))) (i2d_octet s ++ r) = gost_set_priv_key a C (lebin2bn s).
Proof.
  intros K E A S M. unfold priv_decode_gost. rewrite (decode_algor_ok curves n C a h K E A), (key_len_bytes a A).
  assert (P : (0 < key_bytes a)%nat) by (destruct (key_bytes_cases a); lia).
  destruct (Nat.eqb_spec (key_bytes a) 0); [lia|].
  destruct (Nat.eqb_spec (length (i2d_octet s ++ r) mod key_bytes a) 0) as [|_]; [contradiction|].
  assert (D : d2i_octet (i2d_octet s ++ r) = Some s) by (apply d2i_octet_i2d, small_128; lia).
  change (i2d_octet s ++ r) with (TAG_OCTET_STRING :: (der_len (length s) ++ s) ++ r) in *. cbv iota.
  rewrite N.eqb_refl, D. destruct S as [-> | ->]; reflexivity.
Qed.

(** Decoding an encoded key gives the same key pair, in both formats. *)
Theorem C41_decode_of_encoded :
  forall curves n C wrap a d pub, curves_ok curves -> curves n = Some C -> a <> A_other ->
  0 <= d < order C -> d < 256 ^ Z.of_nat (key_bytes a) ->
  exists al buf, priv_encode_gost wrap (mk_pkey a C (mk_key (Some d) pub)) = Some (Some (al, buf)) /\
    priv_decode_gost curves al buf = Dec_ok (pair_of a C d).
Proof.
  intros curves n C wrap a d pub K E A D B. destruct (curve_known curves n C K E) as (G & L & O).
  assert (B' : 0 <= d < 256 ^ Z.of_nat (key_bytes a)) by (split; [apply D|exact B]).
  destruct (C41_encoded_form wrap a C d pub A ltac:(congruence) B') as [h [_ EN]].
  eexists _, _. split; [exact EN|]. rewrite G.
  assert (SP : gost_set_priv_key a C d = Dec_ok (pair_of a C d))
    by (apply set_priv; auto; [apply D|apply (fits_order C L); apply D]).
  destruct wrap.
  - replace ([4; N.of_nat (key_bytes a)]%N ++ le_bytes (key_bytes a) d) with (i2d_octet (le_bytes (key_bytes a) d) ++ []).
    + rewrite (decode_octet curves n C a h _ [] K E A), lebin_le; auto.
      * rewrite le_bytes_length. apply key_bytes_cases.
      * rewrite app_nil_r. unfold i2d_octet, der, der_len. cbn [length]. rewrite app_length, le_bytes_length.
        destruct (key_bytes_cases a) as [W|W]; rewrite W; vm_compute; congruence.
    + rewrite app_nil_r. unfold i2d_octet, der, der_len. rewrite le_bytes_length. destruct (key_bytes_cases a) as [W|W]; rewrite W; reflexivity.
  - cbn [app]. rewrite <- (app_nil_r (le_bytes (key_bytes a) d)).
    pose proof (decode_raw curves n C a h d [] K E A B' (Forall_nil _)) as R. cbn [map concat] in R. rewrite R. exact SP.
Qed.

(** Masked keys: a masked key followed by masks M1 .. Mk decodes to (masked key * M1 * ... * Mk) mod q; so
    a key masked with invertible masks is recovered. *)
Theorem C41_masked_keys :
  forall curves n C a h x ms, curves_ok curves -> curves n = Some C -> a <> A_other -> ms <> [] ->
  0 <= x < 256 ^ Z.of_nat (key_bytes a) -> Forall (fun m => 0 <= m < 256 ^ Z.of_nat (key_bytes a)) ms ->
  let buf := le_bytes (key_bytes a) x ++ concat (map (le_bytes (key_bytes a)) ms) in
  priv_decode_gost curves (mk_algor a (Some (n, h))) buf = Dec_ok (pair_of a C ((x * product ms) mod order C)) /\
  (forall pub, der_small (length buf + length pub + 300) ->
    (length (der TAG_SEQUENCE (i2d_octet buf ++ i2d_octet pub)) mod key_bytes a <> 0)%nat ->
    priv_decode_gost curves (mk_algor a (Some (n, h))) (der TAG_SEQUENCE (i2d_octet buf ++ i2d_octet pub)) =
    Dec_ok (pair_of a C ((x * product ms) mod order C))).
Proof.
  intros curves n C a h x ms K E A NE X F buf. destruct (curve_known curves n C K E) as (G & L & O).
  pose proof (order_pos C L) as Q.
  assert (R : 0 <= (x * product ms) mod order C < order C) by (apply Z.mod_pos_bound; lia).
  assert (SP : gost_set_priv_key a C ((x * product ms) mod order C) = Dec_ok (pair_of a C ((x * product ms) mod order C)))
    by (apply set_priv; auto; [apply R|apply (fits_order C L); apply R]).
  assert (ME : match ms with [] => true | _ => false end = false) by (destruct ms; [congruence|reflexivity]).
  split.
  - unfold buf. rewrite (decode_raw curves n C a h x ms K E A X F), ME. exact SP.
  - intros pub SM M. unfold priv_decode_gost. rewrite (decode_algor_ok curves n C a h K E A), (key_len_bytes a A).
    assert (P : (0 < key_bytes a)%nat) by (destruct (key_bytes_cases a); lia).
    destruct (Nat.eqb_spec (key_bytes a) 0); [lia|].
    destruct (Nat.eqb_spec (length (der TAG_SEQUENCE (i2d_octet buf ++ i2d_octet pub)) mod key_bytes a) 0) as [|_]; [contradiction|].
    assert (DL : forall k, der_small (length buf + length pub + 300) -> (k <= length buf + length pub)%nat -> (length (der_len k) <= 129)%nat).
    { intros k S Kk. unfold der_len. destruct (k <? 128)%nat; [cbn; lia|]. cbn [length]. rewrite n2be_length.
      pose proof (len_bytes_small k ltac:(eapply small_le; [|exact S]; lia)). lia. }
    assert (D : d2i_masked_key (der TAG_SEQUENCE (i2d_octet buf ++ i2d_octet pub)) = Some (buf, pub)).
    { unfold d2i_masked_key. rewrite <- (app_nil_r (der _ _)), get_tlv_der.
      - unfold i2d_octet at 1. rewrite get_tlv_der by (eapply small_le; [|exact SM]; lia).
        rewrite <- (app_nil_r (i2d_octet pub)). unfold i2d_octet. rewrite get_tlv_der by (eapply small_le; [|exact SM]; lia). reflexivity.
      - eapply small_le; [|exact SM]. rewrite app_length. unfold i2d_octet, der. cbn [length]. rewrite !app_length.
        pose proof (DL (length buf) SM ltac:(lia)). pose proof (DL (length pub) SM ltac:(lia)). lia. }
    set (whole := der TAG_SEQUENCE (i2d_octet buf ++ i2d_octet pub)) in *.
    assert (W : exists t, whole = TAG_SEQUENCE :: t) by (eexists; reflexivity). destruct W as [t W].
    rewrite W at 1. cbv iota. change (TAG_SEQUENCE =? TAG_OCTET_STRING)%N with false. change (TAG_SEQUENCE =? TAG_INTEGER)%N with false.
    rewrite N.eqb_refl. cbv iota. rewrite D.
    assert (LB : (length buf mod key_bytes a = 0)%nat).
    { unfold buf. rewrite app_length, le_bytes_length, concat_le_length. replace (key_bytes a + length ms * key_bytes a)%nat with (S (length ms) * key_bytes a)%nat by lia.
      apply Nat.mod_mul. lia. }
    rewrite LB. cbn [Nat.eqb]. unfold buf at 1 2.
    rewrite (unmask_spec (order C) (key_bytes a) x ms ltac:(lia) P X F), ME. exact SP.
Qed.

Theorem C41_masked_key_recovered :
  forall curves n C a h d inv ms, curves_ok curves -> curves n = Some C -> a <> A_other -> ms <> [] ->
  Forall (fun m => 0 <= m < 256 ^ Z.of_nat (key_bytes a)) ms -> (inv * product ms) mod order C = 1 ->
  0 <= d < order C -> order C <= 256 ^ Z.of_nat (key_bytes a) ->
  priv_decode_gost curves (mk_algor a (Some (n, h)))
    (le_bytes (key_bytes a) ((d * inv) mod order C) ++ concat (map (le_bytes (key_bytes a)) ms)) = Dec_ok (pair_of a C d).
Proof.
  intros curves n C a h d inv ms K E A NE F I D B. destruct (curve_known curves n C K E) as (G & L & O).
  pose proof (order_pos C L) as Q. pose proof (Z.mod_pos_bound (d * inv) (order C) ltac:(lia)) as R.
  destruct (C41_masked_keys curves n C a h ((d * inv) mod order C) ms K E A NE ltac:(lia) F) as [-> _].
  do 2 f_equal. rewrite Z.mul_mod_idemp_l by lia. replace (d * inv * product ms) with (d * (inv * product ms)) by ring.
  rewrite <- Z.mul_mod_idemp_r, I, Z.mul_1_r by lia. apply Z.mod_small, D.
Qed.

(** The two wrapped formats: an OCTET STRING holding the key lowest byte first, an INTEGER holding it. *)
Theorem C41_other_formats :
  forall curves n C a h d, curves_ok curves -> curves n = Some C -> a <> A_other -> 0 <= d < order C ->
  (forall len r, (len = 32 \/ len = 64)%nat -> d < 256 ^ Z.of_nat len ->
     (length (i2d_octet (le_bytes len d) ++ r) mod key_bytes a <> 0)%nat ->
     priv_decode_gost curves (mk_algor a (Some (n, h))) (i2d_octet (le_bytes len d) ++ r) = Dec_ok (pair_of a C d)) /\
  (forall c r, bytes c -> integer_value c = Some d -> der_small (length c) ->
     (length (der TAG_INTEGER c ++ r) mod key_bytes a <> 0)%nat ->
     priv_decode_gost curves (mk_algor a (Some (n, h))) (der TAG_INTEGER c ++ r) = Dec_ok (pair_of a C d)).
Proof.
  intros curves n C a h d K E A D. destruct (curve_known curves n C K E) as (G & L & O).
  assert (SP : gost_set_priv_key a C d = Dec_ok (pair_of a C d))
    by (apply set_priv; auto; [apply D|apply (fits_order C L); apply D]).
  split.
  - intros len r Ln B M. rewrite (decode_octet curves n C a h _ r K E A), lebin_le; auto; [lia|].
    rewrite le_bytes_length. exact Ln.
  - intros c r BC V SM M. unfold priv_decode_gost. rewrite (decode_algor_ok curves n C a h K E A), (key_len_bytes a A).
    assert (P : (0 < key_bytes a)%nat) by (destruct (key_bytes_cases a); lia).
    destruct (Nat.eqb_spec (key_bytes a) 0); [lia|].
    destruct (Nat.eqb_spec (length (der TAG_INTEGER c ++ r) mod key_bytes a) 0) as [|_]; [contradiction|].
    assert (I : d2i_integer (der TAG_INTEGER c ++ r) = Some d) by (unfold d2i_integer; rewrite get_tlv_der by exact SM; exact V).
    set (whole := der TAG_INTEGER c ++ r) in *.
    assert (W : exists t, whole = TAG_INTEGER :: t) by (eexists; reflexivity). destruct W as [t W].
    rewrite W at 1. cbv iota. change (TAG_INTEGER =? TAG_OCTET_STRING)%N with false. cbv iota.
    rewrite N.eqb_refl, I. exact SP.
Qed.
(** The shortest two's complement form of a number is understood. *)
Theorem C41_integer_form :
  forall len d, (0 < len)%nat -> 0 <= d < 256 ^ Z.of_nat len -> (num_bytes d = len \/ (d = 0 /\ len = 1%nat)) ->
  integer_value ((if (hd 0 (be_bytes len d) <? 128)%N then [] else [0%N]) ++ be_bytes len d) = Some d.
Proof.
  intros len d P D M. pose proof (be_bytes_length len d) as BL. pose proof (bin_be len d D) as BV. unfold bin2bn in BV.
  assert (BB : bytes (be_bytes len d)) by apply n2be_bytes.
  destruct (be_bytes len d) as [|b0 rest] eqn:EB; [cbn in BL; lia|]. cbn [hd].
  destruct (N.ltb_spec b0 128) as [H|H].
  - cbn [app integer_value]. rewrite (proj2 (N.ltb_lt b0 128) H), BV.
    assert (NP : match rest with [] => false | b1 :: _ => ((b0 =? 0) && (b1 <? 128) || (b0 =? 255) && (128 <=? b1))%N end = false).
    { destruct rest as [|b1 r]; [reflexivity|]. destruct (N.eqb_spec b0 255); [lia|]. rewrite andb_false_l, orb_false_r.
      destruct (N.eqb_spec b0 0) as [-> |]; [|reflexivity]. exfalso.
      destruct M as [M|[_ M]]; [|subst len; cbn in BL; lia].
      assert (LT : (be2n (0%N :: b1 :: r) < 256 ^ N.of_nat (len - 1))%N).
      { change (0%N :: b1 :: r) with (zeros 1 ++ (b1 :: r)). rewrite be2n_zeros.
        replace (len - 1)%nat with (length (b1 :: r)) by (cbn in BL |- *; lia). apply be2n_lt. inversion BB; assumption. }
      assert (LE : (num_bytes d <= len - 1)%nat).
      { apply size_le. rewrite Zabs2N.abs_N_nonneg by lia. rewrite <- BV, N2Z.id. exact LT. }
      lia. }
    rewrite NP. reflexivity.
  - cbn [app integer_value]. rewrite N.ltb_antisym. destruct (N.leb_spec 128 b0) as [_|]; [|lia].
    cbn [negb andb orb N.eqb]. change (0 <? 128)%N with true. cbv iota.
    change (0%N :: b0 :: rest) with (zeros 1 ++ (b0 :: rest)). rewrite be2n_zeros, BV. reflexivity.
Qed.

(** Whatever is decoded is a complete key pair of the announced algorithm and parameter set, the public key
    belonging to the private number.  (An INTEGER may hold a negative number; see below.) *)
Definition decoded_pair (curves : curve_nid -> option group) (al : algor) (pk : evp_pkey) : Prop :=
  exists C h d Q, al_params al = Some (gname C, h) /\ curves (gname C) = Some C /\
    pk = mk_pkey (al_alg al) C (mk_key (Some d) (Some Q)) /\
    (Q = smul d (gen C) \/ d < 0 /\ Q = smul (- d) (gen C)).
Theorem C41_decoded_is_a_pair :
  forall curves al buf pk, curves_ok curves -> priv_decode_gost curves al buf = Dec_ok pk -> decoded_pair curves al pk.
Proof.
  intros curves al buf pk K. unfold priv_decode_gost.
  destruct (decode_gost_algor_params curves al) as [[a C]|] eqn:ED; [|discriminate].
  assert (HC : exists h, al_params al = Some (gname C, h) /\ curves (gname C) = Some C /\ a = al_alg al /\ ec_laws C /\ gname C <> OtherNid).
  { unfold decode_gost_algor_params in ED. destruct (al_params al) as [[n h]|]; [|discriminate].
    destruct (curves n) as [C'|] eqn:EC; [|destruct (al_alg al); discriminate].
    assert (a = al_alg al /\ C' = C) as [-> ->] by (destruct (al_alg al); try discriminate; injection ED as <- <-; auto).
    destruct (curve_known curves n C K EC) as (G & L & O). exists h. rewrite G. auto. }
  destruct HC as (h & AP & EC & -> & L & O).
  assert (SET : forall z pk, gost_set_priv_key (al_alg al) C z = Dec_ok pk -> decoded_pair curves al pk).
  { intros z pk' H. exists C, h, z.
    destruct (Z.leb_spec 0 z) as [Zp|Zn].
    - exists (smul z (gen C)). split; [exact AP|]. split; [exact EC|].
      destruct (set_priv_cases (al_alg al) C z L Zp) as [R|R]; rewrite R in H; [discriminate|]. injection H as <-. split; [reflexivity|auto].
    - unfold gost_set_priv_key, gost_ec_compute_public in H. cbn [k_priv] in H.
      assert (N : gost_ec_point_mul C (Some z) None None =
        match file_of (gname C) with Some _ => gost_ec_point_mul C (Some (- z)) None None | None => Some (smul z (gen C)) end).
      { unfold gost_ec_point_mul. destruct (file_of (gname C)) as [f|] eqn:EF; cbn [option_map].
        - unfold c_mul_g, bn2lebinpad. rewrite Z.abs_opp, Zabs2N.inj_opp. reflexivity.
        - rewrite lib_mul_smul by apply L. reflexivity. }
      rewrite N in H. destruct (file_of (gname C)) as [f|] eqn:EF.
      + destruct (scalar_fits (gname C) (- z)) eqn:SF.
        * rewrite (pm_g C L (- z) ltac:(lia) SF None) in H. exists (smul (- z) (gen C)). split; [exact AP|]. split; [exact EC|].
          split; [destruct (al_alg al); try discriminate; injection H as <-; reflexivity|auto].
        * rewrite (pm_g_big C (- z) None ltac:(lia)) in H by (unfold fits; congruence). destruct (al_alg al); discriminate.
      + exists (smul z (gen C)). split; [exact AP|]. split; [exact EC|].
        split; [destruct (al_alg al); try discriminate; injection H as <-; reflexivity|auto]. }
  intros H. destruct (key_len (al_alg al) =? 0)%nat; [discriminate|].
  destruct (length buf mod key_len (al_alg al) =? 0)%nat.
  - destruct (unmask_priv_key _ _ _ _); [|discriminate]. eapply SET, H.
  - destruct buf as [|t b]; [discriminate|]. destruct (t =? TAG_OCTET_STRING)%N.
    + destruct (d2i_octet _); [|discriminate]. destruct (_ || _); [|discriminate]. eapply SET, H.
    + destruct (t =? TAG_INTEGER)%N; [destruct (d2i_integer _); [|discriminate]; eapply SET, H|].
      destruct (t =? TAG_SEQUENCE)%N; [|discriminate]. destruct (d2i_masked_key _) as [[m u]|]; [|discriminate].
      destruct (length m mod _ =? 0)%nat; [|discriminate]. destruct (unmask_priv_key _ _ _ _); [|discriminate]. eapply SET, H.
Qed.

Lemma unmask_total q buf len : (0 < len)%nat -> (length buf mod len = 0)%nat ->
  unmask_priv_key q buf len (Z.of_nat (length buf / len) - 1) = None <-> buf = [].
Proof.
  intros P M. assert (DM : length buf = (length buf / len * len)%nat).
  { pose proof (Nat.div_mod (length buf) len ltac:(lia)). rewrite M in *. lia. }
  set (k := (length buf / len)%nat) in *. split.
  - destruct buf as [|b r]; [reflexivity|]. intros H. exfalso.
    assert (K1 : (1 <= k)%nat) by (destruct k; [cbn in DM; lia|lia]).
    unfold unmask_priv_key, read in H. destruct (Nat.leb_spec (0 + len) (length (b :: r))) as [_|B]; [|nia].
    destruct (0 <? Z.of_nat k - 1); [|discriminate]. revert H.
    assert (G : forall n acc, (n < k)%nat -> unmask_loop q (b :: r) len n acc <> None).
    { induction n as [|n IH]; intros acc Hn; cbn [unmask_loop]; [discriminate|].
      unfold read. destruct (Nat.leb_spec (S n * len + len) (length (b :: r))) as [_|B]; [apply IH; lia|nia]. }
    apply G. lia.
  - intros ->. unfold unmask_priv_key, read. destruct (Nat.leb_spec (0 + len) (length (@nil N))) as [B|]; [cbn in B; lia|reflexivity].
Qed.
(** The decoder stays inside the private key field, except for an empty field (bare, or as the first string
    of the masked form): then it reads 32 or 64 bytes that are not there. *)
Theorem C41_empty_key_overread_refuted :
  forall curves n C a h buf, curves_ok curves -> curves n = Some C -> a <> A_other ->
  priv_decode_gost curves (mk_algor a (Some (n, h))) buf = Dec_overread <->
  buf = [] \/ (length buf mod key_bytes a <> 0)%nat /\ exists t pub, buf = 48%N :: t /\ d2i_masked_key buf = Some ([], pub).
Proof.
  intros curves n C a h buf K E A.
  assert (P : (0 < key_bytes a)%nat) by (destruct (key_bytes_cases a); lia).
  assert (NS : forall z, gost_set_priv_key a C z <> Dec_overread).
  { intros z. unfold gost_set_priv_key. destruct (gost_ec_compute_public C _) as [[|[?|?|]|?] ?]; destruct a; discriminate. }
  unfold priv_decode_gost. rewrite (decode_algor_ok curves n C a h K E A), (key_len_bytes a A).
  destruct (Nat.eqb_spec (key_bytes a) 0); [lia|].
  destruct (Nat.eqb_spec (length buf mod key_bytes a) 0) as [M|M].
  - pose proof (unmask_total (order C) buf (key_bytes a) P M) as U. destruct (unmask_priv_key _ _ _ _) as [z|].
    + split; [intros H; destruct (NS z H)|]. intros [-> |[H _]]; [|contradiction]. discriminate (proj2 U eq_refl).
    + split; [intros _; left; apply U; reflexivity|reflexivity].
  - destruct buf as [|t b]; [split; auto|].
    destruct (N.eqb_spec t TAG_OCTET_STRING) as [-> |N1].
    { split.
      - destruct (d2i_octet _); [|discriminate]. destruct (_ || _); [|discriminate]. intros H. destruct (NS _ H).
      - intros [H|[_ (t' & pub & H & _)]]; discriminate H. }
    destruct (N.eqb_spec t TAG_INTEGER) as [-> |N2].
    { split.
      - destruct (d2i_integer _); [|discriminate]. intros H. destruct (NS _ H).
      - intros [H|[_ (t' & pub & H & _)]]; discriminate H. }
    destruct (N.eqb_spec t TAG_SEQUENCE) as [-> |N3].
    + destruct (d2i_masked_key (TAG_SEQUENCE :: b)) as [[m u]|] eqn:ED.
      * destruct (Nat.eqb_spec (length m mod key_bytes a) 0) as [Mm|Mm].
        -- pose proof (unmask_total (order C) m (key_bytes a) P Mm) as U. destruct (unmask_priv_key _ _ _ _) as [z|].
           ++ split; [intros H; destruct (NS z H)|]. intros [H|[_ (t' & pub & _ & H)]]; [discriminate|].
              assert (m = []) as -> by congruence. discriminate (proj2 U eq_refl).
           ++ split; [|reflexivity]. intros _. right. split; [exact M|]. exists b, u. split; [reflexivity|].
              rewrite (proj1 U eq_refl). reflexivity.
        -- split; [discriminate|]. intros [H|[_ (t' & pub & _ & H)]]; [discriminate|].
           assert (m = []) as -> by congruence. exfalso. apply Mm. apply Nat.mod_0_l. lia.
      * split; [discriminate|]. intros [H|[_ (t' & pub & _ & H)]]; discriminate.
    + split; [discriminate|]. intros [H|[_ (t' & pub & H & _)]]; [discriminate|]. exfalso. apply N3. unfold TAG_SEQUENCE. congruence.
Qed.

(** The decoder accepts numbers that are no private keys: the all-zero field, and any number that fits the
    field although it is not below the order; and it never compares the sizes of the algorithm and of the
    parameter set (see [C41_decode_of_encoded], which holds for any pair of them). *)
Theorem C41_range_unchecked_refuted :
  forall curves n C a h, curves_ok curves -> curves n = Some C -> a <> A_other ->
  (priv_decode_gost curves (mk_algor a (Some (n, h))) (zeros (key_bytes a)) =
     Dec_ok (mk_pkey a C (mk_key (Some 0) (Some (pzero C))))) /\
  (forall x, 0 <= x < 256 ^ Z.of_nat (key_bytes a) -> scalar_fits n x = true ->
     priv_decode_gost curves (mk_algor a (Some (n, h))) (le_bytes (key_bytes a) x) = Dec_ok (pair_of a C x)) /\
  (forall c, file_of n <> None -> integer_value c = Some (-1) -> (length c = 1)%nat ->
     priv_decode_gost curves (mk_algor a (Some (n, h))) (der TAG_INTEGER c) =
     Dec_ok (mk_pkey a C (mk_key (Some (-1)) (Some (gen C))))).
Proof.
  intros curves n C a h K E A. destruct (curve_known curves n C K E) as (G & L & O).
  assert (R : forall x, 0 <= x < 256 ^ Z.of_nat (key_bytes a) -> scalar_fits n x = true ->
     priv_decode_gost curves (mk_algor a (Some (n, h))) (le_bytes (key_bytes a) x) = Dec_ok (pair_of a C x)).
  { intros x X F. pose proof (decode_raw curves n C a h x [] K E A X (Forall_nil _)) as D. cbn [map concat] in D.
    rewrite app_nil_r in D. rewrite D. apply set_priv; auto; [lia|rewrite G; exact F]. }
  assert (P : (0 < key_bytes a)%nat) by (destruct (key_bytes_cases a); lia).
  split; [|split; [exact R|]].
  - replace (zeros (key_bytes a)) with (le_bytes (key_bytes a) 0).
    + rewrite (R 0); [reflexivity|split; [lia|apply Z.pow_pos_nonneg; lia]|].
      destruct n; reflexivity.
    + destruct (key_bytes_cases a) as [W|W]; rewrite W; reflexivity.
  - intros c F V Lc. unfold priv_decode_gost. rewrite (decode_algor_ok curves n C a h K E A), (key_len_bytes a A).
    destruct (Nat.eqb_spec (key_bytes a) 0); [lia|].
    assert (Lw : length (der TAG_INTEGER c) = 3%nat) by (unfold der; cbn [length]; rewrite app_length, Lc; reflexivity).
    rewrite Lw. destruct (Nat.eqb_spec (3 mod key_bytes a) 0) as [B|_]; [destruct (key_bytes_cases a) as [W|W]; rewrite W in B; discriminate|].
    assert (I : d2i_integer (der TAG_INTEGER c) = Some (-1)).
    { unfold d2i_integer. rewrite <- (app_nil_r (der _ _)), get_tlv_der by (apply small_128; lia). exact V. }
    set (whole := der TAG_INTEGER c) in *.
    assert (W : exists t, whole = TAG_INTEGER :: t) by (eexists; reflexivity). destruct W as [t W].
    rewrite W at 1. cbv iota. change (TAG_INTEGER =? TAG_OCTET_STRING)%N with false. cbv iota.
    rewrite N.eqb_refl, I. unfold gost_set_priv_key, gost_ec_compute_public. cbn [k_priv].
    assert (N1 : gost_ec_point_mul C (Some (-1)) None None = Some (gen C)).
    { transitivity (gost_ec_point_mul C (Some 1) None None).
      - unfold gost_ec_point_mul. rewrite G. destruct (file_of n) as [f|]; [|congruence]. cbn [option_map].
        unfold c_mul_g, bn2lebinpad. reflexivity.
      - rewrite (pm_g C L 1 ltac:(lia)); [rewrite (sm_1 C L); reflexivity|]. unfold fits. rewrite G. destruct n; reflexivity. }
    rewrite N1. destruct a; try reflexivity. congruence.
Qed.

(** * C42 *)
Definition public_of (a : pkey_alg) (C : group) (P : pt C) : evp_pkey := mk_pkey a C (mk_key None (Some P)).

Lemma half_app {A} (a b : list A) n : length a = n -> length b = n -> (length (a ++ b) / 2 = n)%nat.
Proof. intros La Lb. rewrite app_length, La, Lb. replace (n + n)%nat with (n * 2)%nat by lia. apply Nat.div_mul. lia. Qed.
(** The encoding: an OCTET STRING holding x and y, each lowest byte first and as long as the order of the
    generator. *)
Theorem C42_encoded_form :
  forall a C priv P x y, a <> A_other -> gname C <> OtherNid -> affine C P = Some (x, y) ->
  let n := num_bytes (order C) in
  0 <= x < 256 ^ Z.of_nat n -> 0 <= y < 256 ^ Z.of_nat n ->
  exists h, digest_named a (gname C) h /\ pub_encode_gost_ec (mk_pkey a C (mk_key priv (Some P))) =
    Some (mk_algor a (Some (gname C, h)), i2d_octet (le_bytes n x ++ le_bytes n y)).
Proof.
  intros a C priv P x y A G EA n X Y. destruct (encode_algor_ok a (gname C) A G) as [h [DN E]]. exists h. split; [exact DN|].
  unfold pub_encode_gost_ec. cbn [pk_alg pk_curve pk_key k_pub]. rewrite E, EA.
  change (num_bytes (order C)) with n. rewrite (store_fits y), (store_fits x) by assumption. cbn [snd].
  rewrite rev_app_distr, !rev_be. reflexivity.
Qed.
(** What the decoder does with any octets: the first half is x, the second half y (with an odd length the
    first byte is skipped), lowest byte first, and the point is accepted exactly if it is on the curve. *)
Lemma decode_pub curves n c a h o1 o2 odd r : curves n = Some c -> a <> A_other ->
  length o1 = length o2 -> (length odd <= 1)%nat -> der_small (length (odd ++ o1 ++ o2)) ->
  pub_decode_gost_ec curves (mk_algor a (Some (n, h))) (i2d_octet (odd ++ o1 ++ o2) ++ r) =
  option_map (public_of a (cv c)) (lift c (lebin2bn o1) (lebin2bn o2)).
Proof.
  intros E A Lo Od SM. unfold pub_decode_gost_ec. rewrite (decode_algor_gen curves n c a h E A), d2i_octet_i2d by exact SM.
  assert (H : (length (odd ++ o1 ++ o2) / 2 = length o2)%nat).
  { rewrite !app_length, Lo. assert (O : length odd = 0%nat \/ length odd = 1%nat) by lia.
    destruct O as [-> | ->].
    - replace (0 + (length o2 + length o2))%nat with (length o2 * 2)%nat by lia. apply Nat.div_mul. lia.
    - symmetry. apply (Nat.div_unique _ 2 _ 1); lia. }
  rewrite H. rewrite !rev_app_distr, <- !app_assoc.
  rewrite firstn_app_exact, skipn_app_exact by apply rev_length.
  rewrite firstn_app_exact by (rewrite rev_length; lia).
  unfold bin2bn, be2n. rewrite !rev_involutive.
  change (Z.of_N (le2n o1)) with (lebin2bn o1). change (Z.of_N (le2n o2)) with (lebin2bn o2).
  destruct (lift c _ _); reflexivity.
Qed.
Theorem C42_decoder_checks_the_curve :
  forall curves p n c a h o1 o2 odd r, curves n = Some c -> lift_ok p c -> a <> A_other ->
  length o1 = length o2 -> (length odd <= 1)%nat -> der_small (length (odd ++ o1 ++ o2)) ->
  let got := pub_decode_gost_ec curves (mk_algor a (Some (n, h))) (i2d_octet (odd ++ o1 ++ o2) ++ r) in
  (forall P, affine (cv c) P = Some (lebin2bn o1 mod p, lebin2bn o2 mod p) -> got = Some (public_of a (cv c) P)) /\
  ((forall P, affine (cv c) P <> Some (lebin2bn o1 mod p, lebin2bn o2 mod p)) -> got = None).
Proof.
  intros curves p n c a h o1 o2 odd r E LO A Lo Od SM got.
  unfold got. rewrite (decode_pub curves n c a h o1 o2 odd r E A Lo Od SM).
  destruct LO as (_ & LI & _).
  assert (N1 : 0 <= lebin2bn o1) by apply N2Z.is_nonneg. assert (N2 : 0 <= lebin2bn o2) by apply N2Z.is_nonneg.
  split.
  - intros P H. apply (LI _ _ _ N1 N2) in H. rewrite H. reflexivity.
  - intros H. destruct (lift c _ _) as [P|] eqn:EL; [|reflexivity]. apply (LI _ _ _ N1 N2) in EL. destruct (H P EL).
Qed.
(** Round trip. *)
Theorem C42_decode_of_encoded :
  forall curves p n c a priv P, let C := cv c in
  curves n = Some c -> gname C = n -> n <> OtherNid -> ec_laws C -> lift_ok p c -> a <> A_other ->
  P <> pzero C -> p <= 256 ^ Z.of_nat (num_bytes (order C)) -> (num_bytes (order C) <= 128)%nat ->
  exists al buf, pub_encode_gost_ec (mk_pkey a C (mk_key priv (Some P))) = Some (al, buf) /\
    pub_decode_gost_ec curves al buf = Some (public_of a C P).
Proof.
  intros curves p n c a priv P C E G O L LO A NZ PB NB.
  destruct (affine_some C L P NZ) as (x & y & EA). pose proof LO as (P0 & _ & PR).
  destruct (PR P x y EA) as [XP YP]. destruct (l_range C L P x y EA) as [[X0 _] [Y0 _]].
  destruct (C42_encoded_form a C priv P x y A ltac:(congruence) EA ltac:(lia) ltac:(lia)) as [h [_ EN]].
  eexists _, _. split; [exact EN|]. rewrite G.
  set (k := num_bytes (order C)) in *. rewrite <- (app_nil_r (i2d_octet _)).
  pose proof (C42_decoder_checks_the_curve curves p n c a h (le_bytes k x) (le_bytes k y) [] [] E LO A) as D.
  cbn [app] in D. destruct D as [D _].
  - rewrite !le_bytes_length. reflexivity.
  - cbn; lia.
  - apply small_128. rewrite app_length, !le_bytes_length. lia.
  - apply D. rewrite !lebin_le by lia. rewrite !Z.mod_small by lia. exact EA.
Qed.
(** The point at infinity has no encoding. *)
Theorem C42_infinity_refused :
  forall a C priv, ec_laws C -> pub_encode_gost_ec (mk_pkey a C (mk_key priv (Some (pzero C)))) = None.
Proof.
  intros a C priv L. unfold pub_encode_gost_ec. cbn [pk_alg pk_curve pk_key k_pub]. rewrite (affine_zero C L).
  destruct (encode_gost_algor_params a (gname C)); reflexivity.
Qed.
(** Encodings are not unique: a byte may be put in front, both halves may be longer, and coordinates may be
    increased by the field prime; all these decode to the same key. *)
Theorem C42_other_encodings_accepted_refuted :
  forall curves p n c a h k x y P, let C := cv c in curves n = Some c -> ec_laws C -> lift_ok p c -> a <> A_other ->
  affine C P = Some (x, y) -> (k <= 100)%nat -> x + p < 256 ^ Z.of_nat k -> y < 256 ^ Z.of_nat k ->
  let accepts b := pub_decode_gost_ec curves (mk_algor a (Some (n, h))) b = Some (public_of a C P) in
  accepts (i2d_octet (le_bytes k x ++ le_bytes k y)) /\
  (forall b, accepts (i2d_octet (b :: le_bytes k x ++ le_bytes k y))) /\
  accepts (i2d_octet (le_bytes (k + 1) x ++ le_bytes (k + 1) y)) /\
  accepts (i2d_octet (le_bytes k (x + p) ++ le_bytes k y)).
Proof.
  intros curves p n c a h k x y P C E L LO A EA K2 XB YB accepts.
  pose proof LO as (P0 & _ & PR). destruct (PR P x y EA) as [XP YP]. destruct (l_range C L P x y EA) as [[X0 _] [Y0 _]].
  assert (PW : 256 ^ Z.of_nat k <= 256 ^ Z.of_nat (k + 1)) by (apply Z.pow_le_mono_r; lia).
  assert (GEN : forall odd j x' y', (length odd <= 1)%nat -> (j <= 101)%nat -> 0 <= x' < 256 ^ Z.of_nat j -> 0 <= y' < 256 ^ Z.of_nat j ->
    x' mod p = x -> y' mod p = y -> accepts (i2d_octet (odd ++ le_bytes j x' ++ le_bytes j y'))).
  { intros odd j x' y' Od J X' Y' MX MY. unfold accepts. rewrite <- (app_nil_r (i2d_octet _)).
    pose proof (C42_decoder_checks_the_curve curves p n c a h (le_bytes j x') (le_bytes j y') odd [] E LO A) as D.
    destruct D as [D _].
    - rewrite !le_bytes_length. reflexivity.
    - exact Od.
    - apply small_128. rewrite !app_length, !le_bytes_length. lia.
    - apply D. rewrite !lebin_le by lia. rewrite MX, MY. exact EA. }
  assert (MX : x mod p = x) by (apply Z.mod_small; lia). assert (MY : y mod p = y) by (apply Z.mod_small; lia).
  split; [|split; [|split]].
  - apply (GEN [] k x y); auto; cbn; lia.
  - intros b. apply (GEN [b] k x y); auto; cbn; lia.
  - apply (GEN [] (k + 1)%nat x y); auto; cbn; lia.
  - apply (GEN [] k (x + p) y); auto; try (cbn; lia). rewrite <- MX at 2. replace (x + p) with (x + 1 * p) by lia. apply Z.mod_add. lia.
Qed.
(** Copying parameters to a private key gives it the public key of the new curve, and needs the same
    algorithm. *)
Theorem C42_parameters_copied :
  forall a from d, ec_laws (pk_curve from) -> 0 <= d < order (pk_curve from) ->
  (a <> A_other -> a = pk_alg from -> param_copy_gost_ec a (Some d) from = Some (pair_of a (pk_curve from) d)) /\
  (a <> pk_alg from -> param_copy_gost_ec a (Some d) from = None).
Proof.
  intros a from d L D. unfold param_copy_gost_ec, gost_ec_compute_public. cbn [k_priv].
  rewrite (pm_g (pk_curve from) L d ltac:(lia) (fits_order _ L d ltac:(lia)) None). destruct from as [fa C key]. cbn [pk_alg pk_curve] in *.
  split.
  - intros A ->. destruct fa; try reflexivity. congruence.
  - intros NE. destruct a, fa; try reflexivity; congruence.
Qed.

(** * The hypotheses are met *)
Definition toy_curves (n : curve_nid) : option group := match n with OtherNid => None | _ => Some (toy n true) end.
Lemma toy_curves_ok : curves_ok toy_curves.
Proof.
  split; [reflexivity|]. intros n C H. assert (C = toy n true) as -> by (destruct n; cbn in H; congruence).
  split; [reflexivity|apply toy_laws].
Qed.
Example C41_toy_roundtrip :
  priv_decode_gost toy_curves (mk_algor A2012_512 (Some (Tc512_C, None))) (le_bytes 64 7) = Dec_ok (pair_of A2012_512 (toy Tc512_C true) 7) /\
  priv_decode_gost toy_curves (mk_algor A2012_256 (Some (Tc256_B, None)))
    (le_bytes 32 ((7 * 2) mod 19) ++ concat (map (le_bytes 32) [5; 2])) = Dec_ok (pair_of A2012_256 (toy Tc256_B true) 7).
Proof.
  split.
  - destruct (C41_decode_of_encoded toy_curves Tc512_C (toy Tc512_C true) false A2012_512 7 None toy_curves_ok eq_refl ltac:(discriminate)
      ltac:(cbn; lia) ltac:(reflexivity)) as (al & buf & E & D).
    destruct (C41_encoded_form false A2012_512 (toy Tc512_C true) 7 None ltac:(discriminate) ltac:(discriminate) ltac:(split; [lia|reflexivity])) as [h [_ E']].
    pose proof (decode_raw toy_curves Tc512_C (toy Tc512_C true) A2012_512 None 7 [] toy_curves_ok eq_refl ltac:(discriminate)
      ltac:(split; [lia|reflexivity]) (Forall_nil _)) as R. cbn [map concat] in R. rewrite app_nil_r in R.
    change (key_bytes A2012_512) with 64%nat in R. rewrite R. apply set_priv; [apply toy_laws|discriminate|lia|reflexivity].
  - apply (C41_masked_key_recovered toy_curves Tc256_B (toy Tc256_B true) A2012_256 None 7 2 [5; 2] toy_curves_ok eq_refl);
      try discriminate; try reflexivity; try (cbn; lia).
    repeat constructor; lia.
Qed.
(** Points of the toy curve from coordinates, modulo 79. *)
Definition toy_lift (n : curve_nid) (x y : Z) : option (toy_pt n) :=
  let y' := y mod 79 in
  if (0 <? y') && (y' <? toy_n n) && (x mod 79 =? Z.min y' (toy_n n - y') - 1) then Some (mkp n y') else None.
Definition toy_curve (n : curve_nid) : curve := mk_curve (toy n true) (toy_lift n).
Lemma toy_lift_ok n : lift_ok 79 (toy_curve n).
Proof.
  pose proof (toy_n_pos n) as NP. assert (N79 : toy_n n < 79) by (destruct n; reflexivity).
  split; [lia|]. split.
  - intros x y P X Y. cbn [toy_curve lift cv]. cbn [toy affine]. unfold toy_lift, toy_affine. cbv zeta.
    pose proof (toy_range n P) as R. set (x' := x mod 79). set (y' := y mod 79).
    destruct (Z.ltb_spec 0 y'), (Z.ltb_spec y' (toy_n n)); cbn [andb];
      try (split; [discriminate|]; destruct (Z.eqb_spec (proj1_sig P) 0); intros Q; inversion Q; lia).
    destruct (Z.eqb_spec x' (Z.min y' (toy_n n - y') - 1)) as [EX|EX].
    + split.
      * intros Q. injection Q as <-. cbn [mkp proj1_sig]. rewrite Z.mod_small by lia. destruct (Z.eqb_spec y' 0); [lia|]. rewrite EX. reflexivity.
      * destruct (Z.eqb_spec (proj1_sig P) 0); [discriminate|]. intros Q. inversion Q as [[Q1 Q2]]. apply f_equal. transitivity (mkp n (proj1_sig P)); [rewrite Q2; reflexivity|apply toy_self].
    + split; [discriminate|]. destruct (Z.eqb_spec (proj1_sig P) 0); [discriminate|]. intros Q. inversion Q as [[Q1 Q2]]. rewrite Q2 in Q1. congruence.
  - intros P x y. cbn [toy_curve lift cv]. cbn [toy affine]. unfold toy_affine. pose proof (toy_range n P).
    destruct (Z.eqb_spec (proj1_sig P) 0); [discriminate|]. intros Q. inversion Q; subst. lia.
Qed.
Example C42_toy_roundtrip :
  let C := toy Tc512_C true in
  exists al buf, pub_encode_gost_ec (public_of A2012_512 C (mkp Tc512_C 44)) = Some (al, buf) /\
    pub_decode_gost_ec (fun n => Some (toy_curve n)) al buf = Some (public_of A2012_512 C (mkp Tc512_C 44)).
Proof.
  apply (C42_decode_of_encoded (fun n => Some (toy_curve n)) 79 Tc512_C (toy_curve Tc512_C) A2012_512 None (mkp Tc512_C 44));
    try discriminate; try reflexivity.
  - apply toy_laws.
  - apply toy_lift_ok.
  - apply Nat.leb_le. reflexivity.
Qed.
Print Assumptions C41_encoded_form.
Print Assumptions C41_decode_of_encoded.
Print Assumptions C41_masked_keys.
Print Assumptions C41_other_formats.
Print Assumptions C41_decoded_is_a_pair.
Print Assumptions C41_empty_key_overread_refuted.
Print Assumptions C41_range_unchecked_refuted.
Print Assumptions C42_decoder_checks_the_curve.
Print Assumptions C42_decode_of_encoded.
Print Assumptions C42_other_encodings_accepted_refuted.
Print Assumptions C42_parameters_copied.
