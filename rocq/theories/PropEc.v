(** Properties C37, C38, C39, C50: scalar multiplication, GOST R 34.10 signatures, their verification and
    their packed form. *)
From Coq Require Import ZArith List Bool Lia Znumtheory.
From Verif Require Import Bytes BytesProofs EcLadderModel EcSpec EcLadderProofs EcModel EcProofs ToyGroup.
Import ListNotations.
Local Open Scope Z_scope.

(** * C50: scalar multiplication *)
Theorem C50_generator_multiple :
  forall C, ec_laws C -> forall n Q, 0 <= n ->
    gost_ec_point_mul C (Some n) Q None = if scalar_fits (gname C) n then Some (smul n (gen C)) else None.
Proof.
  intros C L n Q H. destruct (scalar_fits (gname C) n) eqn:F.
  - apply pm_g; auto.
  - apply pm_g_big; auto. unfold fits. congruence.
Qed.
Print Assumptions C50_generator_multiple.

Theorem C50_peer_multiple :
  forall C, ec_laws C -> forall m Q, 0 <= m -> Q <> pzero C ->
    gost_ec_point_mul C None (Some Q) (Some m)
    = if scalar_fits (gname C) m then Some (smul (cofactor C * m) Q) else None.
Proof.
  intros C L m Q H N. destruct (scalar_fits (gname C) m) eqn:F.
  - apply pm_var; auto.
  - apply pm_var_big; auto. unfold fits. congruence.
Qed.
Print Assumptions C50_peer_multiple.

Theorem C50_double_multiple :
  forall C, ec_laws C -> forall n m Q, 0 <= n -> 0 <= m -> scalar_fits (gname C) n = true ->
    scalar_fits (gname C) m = true -> Q <> pzero C ->
    gost_ec_point_mul C (Some n) (Some Q) (Some m) = Some (padd C (smul n (gen C)) (smul m Q)).
Proof. intros C L n m Q Hn Hm Fn Fm N. apply pm_two; auto. Qed.
Print Assumptions C50_double_multiple.

(** Consequently neither the word size of the build nor the shape of the precomputed table shows. *)
Definition rebuilt (C : group) (w : bool) (t : nat -> nat -> pt C) : group :=
  mk_group (pt C) (padd C) (pneg C) (pzero C) (affine C) (gen C) (order C) (cofactor C) (fieldlen C) (gname C) w t.
Lemma nsum_rebuilt C w t n (P : pt C) : nsum (C := rebuilt C w t) n P = nsum (C := C) n P.
Proof. induction n as [|n IH]; [reflexivity|]. cbn [nsum]. rewrite IH. reflexivity. Qed.
Lemma smul_rebuilt C w t n (P : pt C) : smul (C := rebuilt C w t) n P = smul (C := C) n P.
Proof. unfold smul. rewrite !nsum_rebuilt. reflexivity. Qed.
Theorem C50_builds_agree :
  forall C t32 t64, ec_laws (rebuilt C false t32) -> ec_laws (rebuilt C true t64) ->
    forall n m (Q : pt C), 0 <= n -> 0 <= m -> scalar_fits (gname C) n = true ->
      scalar_fits (gname C) m = true -> Q <> pzero C ->
      gost_ec_point_mul (rebuilt C false t32) (Some n) None None
      = gost_ec_point_mul (rebuilt C true t64) (Some n) None None /\
      gost_ec_point_mul (rebuilt C false t32) None (Some Q) (Some m)
      = gost_ec_point_mul (rebuilt C true t64) None (Some Q) (Some m) /\
      gost_ec_point_mul (rebuilt C false t32) (Some n) (Some Q) (Some m)
      = gost_ec_point_mul (rebuilt C true t64) (Some n) (Some Q) (Some m).
Proof.
  intros C t32 t64 L1 L2 n m Q Hn Hm Fn Fm N. split; [|split].
  - rewrite (C50_generator_multiple _ L1), (C50_generator_multiple _ L2) by exact Hn.
    rewrite !smul_rebuilt. reflexivity.
  - rewrite (C50_peer_multiple _ L1), (C50_peer_multiple _ L2) by assumption.
    rewrite !smul_rebuilt. reflexivity.
  - rewrite (C50_double_multiple _ L1), (C50_double_multiple _ L2) by assumption.
    rewrite !smul_rebuilt. reflexivity.
Qed.
Print Assumptions C50_builds_agree.

(** The point at infinity is refused by the curve files, and taken where OpenSSL does the work. *)
Theorem C50_infinity :
  forall C, ec_laws C -> forall n m,
    match gname C with
    | Tc512_Test | OtherNid =>
        gost_ec_point_mul C None (Some (pzero C)) (Some m) = Some (pzero C)
    | _ => gost_ec_point_mul C None (Some (pzero C)) (Some m) = None /\
           gost_ec_point_mul C (Some n) (Some (pzero C)) (Some m) = None
    end.
Proof.
  intros C L n m. destruct (gname C) eqn:E;
    first [ apply pm_var_zero_lib; [exact L|rewrite E; reflexivity]
          | split; [apply pm_var_zero|apply pm_two_zero]; try exact L; rewrite E; discriminate ].
Qed.
Print Assumptions C50_infinity.

(** The hypotheses hold of the toy groups, and the ladders really run there. *)
Example C50_nontrivial :
  (forall c w, ec_laws (toy c w)) /\
  option_map (affine (toy Tc512_C false)) (gost_ec_point_mul (toy Tc512_C false) (Some 1234567) None None)
  = Some (affine (toy Tc512_C false) (mkp Tc512_C (4 * 1234567))) /\
  option_map (affine (toy CryptoPro_B true)) (gost_ec_point_mul (toy CryptoPro_B true) (Some 98765) (Some (mkp CryptoPro_B 3)) (Some 43210))
  = Some (affine (toy CryptoPro_B true) (mkp CryptoPro_B (98765 + 3 * 43210))).
Proof. split; [exact toy_laws|]. split; vm_compute; reflexivity. Qed.

(** * C37: signatures *)
(** BN_rand_range delivers numbers below the order. *)
Definition draws_ok (C : group) (draws : list Z) : Prop := Forall (fun k => 0 <= k < order C) draws.
Definition no_signature (C : group) (d alpha k : Z) : Prop :=
  0 < k /\ forall r s, ~ signature C d alpha k r s.

Lemma digest_e_spec C dgst : digest_e (order C) dgst = hash_number C (digest_number dgst).
Proof. reflexivity. Qed.
Lemma sign_step C d alpha k more : ec_laws C -> 0 < k < order C ->
  (exists r s, signature C d alpha k r s /\ sign_loop C d (hash_number C alpha) (k :: more) = Some (r, s)) \/
  (no_signature C d alpha k /\ sign_loop C d (hash_number C alpha) (k :: more) = sign_loop C d (hash_number C alpha) more).
Proof.
  intros L K. pose proof (order_pos C L) as OP. cbn [sign_loop].
  rewrite (pm_g C L) by (try (apply fits_order; [exact L|]); lia).
  assert (NZ : smul k (gen C) <> pzero C).
  { intros E. apply (gen_zero C L) in E. rewrite Z.mod_small in E; lia. }
  destruct (affine_some C L _ NZ) as (x & y & A). rewrite A.
  assert (S : (d * (x mod order C)) mod order C + (k * hash_number C alpha) mod order C
    = (d * (x mod order C)) mod order C + (k * hash_number C alpha) mod order C) by reflexivity.
  assert (E : ((d * (x mod order C)) mod order C + (k * hash_number C alpha) mod order C) mod order C
    = (x mod order C * d + k * hash_number C alpha) mod order C).
  { rewrite <- Z.add_mod by lia. f_equal. lia. }
  clear S. rewrite E. clear E.
  destruct (Z.eqb_spec (x mod order C) 0) as [Er|Er].
  - right. split; [|reflexivity]. split; [lia|]. intros r s (_ & (x' & y' & A' & R) & _ & Nr & _).
    rewrite A in A'. injection A' as <- <-. congruence.
  - destruct (Z.eqb_spec ((x mod order C * d + k * hash_number C alpha) mod order C) 0) as [Es|Es].
    + right. split; [|reflexivity]. split; [lia|]. intros r s (_ & (x' & y' & A' & R) & Hs & Nr & Ns).
      rewrite A in A'. injection A' as <- <-. subst r. congruence.
    + left. exists (x mod order C), ((x mod order C * d + k * hash_number C alpha) mod order C).
      split; [|reflexivity]. split; [lia|]. split; [exists x, y; auto|]. auto.
Qed.
Lemma signature_unique C d alpha k r s r' s' : signature C d alpha k r s -> signature C d alpha k r' s' -> r = r' /\ s = s'.
Proof.
  intros (_ & (x & y & A & R) & S & _) (_ & (x' & y' & A' & R') & S' & _). rewrite A in A'. injection A' as <- <-.
  subst r r' s s'. auto.
Qed.
Lemma sign_zero C d e more : ec_laws C -> sign_loop C d e (0 :: more) = None.
Proof.
  intros L. pose proof (order_pos C L). cbn [sign_loop].
  rewrite (pm_g C L) by (try (apply fits_order; [exact L|]); lia).
  rewrite smul_0, (affine_zero C L). reflexivity.
Qed.

(** The call returns (r, s) exactly if a drawn number k gives the standard's signature (r, s) and the
    numbers drawn before it give none. *)
Theorem C37_sign_is_gost_signature :
  forall C, ec_laws C -> forall dgst d pub draws r s, draws_ok C draws ->
    (gost_ec_sign C dgst (mk_key (Some d) pub) draws = Returns (Some (r, s)) <->
     (length dgst = 32 \/ length dgst = 64)%nat /\
     exists before k after, draws = before ++ k :: after /\
       Forall (no_signature C d (digest_number dgst)) before /\
       signature C d (digest_number dgst) k r s).
Proof.
  intros C L dgst d pub draws r s D. unfold gost_ec_sign, dlen_ok. cbn [k_priv].
  destruct (Nat.eqb_spec (length dgst) 32) as [E|E], (Nat.eqb_spec (length dgst) 64) as [E'|E']; cbn [orb negb];
    try (rewrite digest_e_spec; set (alpha := digest_number dgst);
      split;
      [ intros H; split; [auto|]; apply (f_equal (fun o => match o with Returns (Some a) => Some a | _ => None end)) in H
      | intros (_ & before & k & after & -> & B & S); f_equal ]).
  1, 3, 5: assert (H' : sign_loop C d (hash_number C alpha) draws = Some (r, s))
     by (destruct (sign_loop C d (hash_number C alpha) draws); [exact H|discriminate H]); clear H; rename H' into H;
     revert D H; induction draws as [|k more IH]; intros D H; [discriminate H|];
     apply Forall_cons_iff in D as [Dk Dm];
     (destruct (Z.eq_dec k 0) as [->|Nk]; [rewrite (sign_zero C d _ more L) in H; discriminate H|]);
     (destruct (sign_step C d alpha k more L ltac:(lia)) as [(r' & s' & Sg & Eq)|[Ns Eq]]; rewrite Eq in H;
     [ injection H as <- <-; exists [], k, more; auto
     | destruct (IH Dm H) as (before & k' & after & -> & B & S); exists (k :: before), k', after; auto ]).
  1, 2, 3: revert D; induction B as [|j before Nj B IH]; intros D; cbn [app] in *;
     apply Forall_cons_iff in D as [Dk Dm];
     [ destruct (sign_step C d alpha k after L) as [(r' & s' & Sg & ->)|[Ns Eq]];
       [ destruct S as [S _]; exact S
       | destruct (signature_unique _ _ _ _ _ _ _ _ S Sg) as [-> ->]; reflexivity
       | exfalso; exact (proj2 Ns r s S) ]
     | destruct (sign_step C d alpha j (before ++ k :: after) L) as [(r' & s' & Sg & _)|[_ ->]];
       [ destruct Nj; lia | exfalso; exact (proj2 Nj _ _ Sg) | apply IH, Dm ] ].
  split; [discriminate|]. intros [[F|F] _]; contradiction.
Qed.
Print Assumptions C37_sign_is_gost_signature.

(** * C38: verification *)
Lemma verify_unfold C dgst Q priv r s : ec_laws C -> (length dgst = 32 \/ length dgst = 64)%nat ->
  (Q <> pzero C \/ file_of (gname C) = None) -> 0 < r < order C -> 0 < s < order C ->
  exists v, (v * hash_number C (digest_number dgst)) mod order C = 1 /\ 0 <= v < order C /\
  gost_ec_verify C dgst (r, s) (mk_key priv (Some Q)) =
  match affine C (padd C (smul ((s * v) mod order C) (gen C)) (smul ((- (r * v)) mod order C) Q)) with
  | None => Returns 0
  | Some (X, _) => Returns (if X mod order C =? r then 1 else 0)
  end.
Proof.
  intros L D HQ Hr Hs. pose proof (order_pos C L) as OP.
  destruct (inverse_exists C L (digest_number dgst)) as (v & V1 & V2 & V3). exists v. split; [exact V3|]. split; [exact V2|].
  unfold gost_ec_verify. cbn [k_pub].
  assert (B : (s =? 0) || (r =? 0) || (s <? 0) || (r <? 0) || (order C <=? Z.abs s) || (order C <=? Z.abs r) = false).
  { rewrite !orb_false_iff, !Z.eqb_neq, !Z.ltb_ge, !Z.leb_gt. lia. }
  rewrite B. clear B.
  assert (B : dlen_ok dgst = true). { unfold dlen_ok. destruct D as [-> | ->]; reflexivity. }
  rewrite B, digest_e_spec, V1. cbn [negb].
  replace (((order C - r) * v) mod order C) with ((- (r * v)) mod order C).
  2:{ replace ((order C - r) * v) with (- (r * v) + v * order C) by lia. symmetry. apply Z_mod_plus_full. }
  pose proof (Z.mod_pos_bound (s * v) (order C) ltac:(lia)). pose proof (Z.mod_pos_bound (- (r * v)) (order C) ltac:(lia)).
  rewrite (pm_two C L); try (apply fits_order; [exact L|]); try lia; try exact HQ. reflexivity.
Qed.
Lemma verify_range C dgst key r s : ~ (0 < r < order C /\ 0 < s < order C) ->
  gost_ec_verify C dgst (r, s) key = Returns 0.
Proof.
  intros H. unfold gost_ec_verify. destruct (k_pub key); [|reflexivity].
  destruct ((s =? 0) || (r =? 0) || (s <? 0) || (r <? 0) || (order C <=? Z.abs s) || (order C <=? Z.abs r)) eqn:E; [reflexivity|].
  rewrite !orb_false_iff, !Z.eqb_neq, !Z.ltb_ge, !Z.leb_gt in E. lia.
Qed.
Lemma verify_iff C dgst Q priv r s : ec_laws C -> (length dgst = 32 \/ length dgst = 64)%nat ->
  (Q <> pzero C \/ file_of (gname C) = None) ->
  (gost_ec_verify C dgst (r, s) (mk_key priv (Some Q)) = Returns 1 <-> accepted C Q (digest_number dgst) r s) /\
  (gost_ec_verify C dgst (r, s) (mk_key priv (Some Q)) = Returns 0 \/
   gost_ec_verify C dgst (r, s) (mk_key priv (Some Q)) = Returns 1).
Proof.
  intros L D HQ. pose proof (order_pos C L) as OP.
  assert (R : (0 < r < order C /\ 0 < s < order C) \/ ~ (0 < r < order C /\ 0 < s < order C)) by lia.
  destruct R as [[Hr Hs]|N].
  2:{ rewrite verify_range by exact N. split; [|auto]. split; [discriminate|]. intros (A & B & _). exfalso. auto. }
  destruct (verify_unfold C dgst Q priv r s L D HQ Hr Hs) as (v & V & VB & ->). split.
  - unfold accepted. split.
    + intros H. split; [exact Hr|]. split; [exact Hs|]. exists v.
      destruct (affine C _) as [[x y]|] eqn:A; [|discriminate H]. exists x, y. split; [exact V|]. split; [reflexivity|].
      destruct (Z.eqb_spec (x mod order C) r); [assumption|discriminate H].
    + intros (_ & _ & w & x & y & W & A & X).
      assert (E : w mod order C = v) by (apply (inverse_unique C L (hash_number C (digest_number dgst))); auto).
      replace ((s * w) mod order C) with ((s * v) mod order C) in A by (rewrite <- E; apply Z.mul_mod_idemp_r; lia).
      replace ((- (r * w)) mod order C) with ((- (r * v)) mod order C) in A.
      * rewrite A, X, Z.eqb_refl. reflexivity.
      * rewrite <- !Z.mul_opp_l, <- E. apply Z.mul_mod_idemp_r. lia.
  - destruct (affine C _) as [[x y]|]; [|auto]. destruct (x mod order C =? r); auto.
Qed.

Theorem C38_verify_iff_accepted :
  forall C, ec_laws C -> forall dgst Q priv r s, (length dgst = 32 \/ length dgst = 64)%nat -> Q <> pzero C ->
    (gost_ec_verify C dgst (r, s) (mk_key priv (Some Q)) = Returns 1 <-> accepted C Q (digest_number dgst) r s) /\
    (~ accepted C Q (digest_number dgst) r s -> gost_ec_verify C dgst (r, s) (mk_key priv (Some Q)) = Returns 0).
Proof.
  intros C L dgst Q priv r s D N. destruct (verify_iff C dgst Q priv r s L D (or_introl N)) as [A B]. split; [exact A|].
  intros H. destruct B as [B|B]; [exact B|]. apply A in B. contradiction.
Qed.
Print Assumptions C38_verify_iff_accepted.

(** For the public key of [d] the accepted pairs are exactly those the signing procedure can produce. *)
Theorem C38_accepts_exactly_the_signatures :
  forall C, ec_laws C -> forall dgst d priv r s, (length dgst = 32 \/ length dgst = 64)%nat -> d mod order C <> 0 ->
    (gost_ec_verify C dgst (r, s) (mk_key priv (Some (smul d (gen C)))) = Returns 1 <->
     exists k, signature C d (digest_number dgst) k r s).
Proof.
  intros C L dgst d priv r s D N. rewrite <- (accepted_iff_signature C L).
  apply C38_verify_iff_accepted; auto. intros E. apply (gen_zero C L) in E. contradiction.
Qed.
Print Assumptions C38_accepts_exactly_the_signatures.

(** Parts outside 1 .. q-1, a missing public key, and (on the curves with a file of their own) a public key
    at infinity are refused whatever the rest. *)
Theorem C38_bad_parts_rejected :
  forall C dgst key r s, r <= 0 \/ order C <= r \/ s <= 0 \/ order C <= s ->
    gost_ec_verify C dgst (r, s) key = Returns 0.
Proof. intros C dgst key r s H. apply verify_range. lia. Qed.
Print Assumptions C38_bad_parts_rejected.

Theorem C38_bad_key_rejected :
  forall C, ec_laws C -> forall dgst priv sig, (length dgst = 32 \/ length dgst = 64)%nat ->
    gost_ec_verify C dgst sig (mk_key priv None) = Returns 0 /\
    (gname C <> Tc512_Test -> gname C <> OtherNid ->
     gost_ec_verify C dgst sig (mk_key priv (Some (pzero C))) = Returns 0).
Proof.
  intros C L dgst priv [r s] D. split; [reflexivity|]. intros N1 N2.
  assert (F : file_of (gname C) <> None) by (destruct (gname C); cbn [file_of]; congruence).
  unfold gost_ec_verify. cbn [k_pub].
  match goal with |- (if ?b then _ else _) = _ => destruct b end; [reflexivity|].
  assert (B : dlen_ok dgst = true). { unfold dlen_ok. destruct D as [-> | ->]; reflexivity. }
  rewrite B. cbn [negb]. destruct (mod_inverse _ _); [|reflexivity]. rewrite (pm_two_zero C L) by exact F. reflexivity.
Qed.
Print Assumptions C38_bad_key_rejected.

(** Where OpenSSL multiplies (the 512-bit test set), a public key at infinity lets everyone sign: no
    private key enters the accepted pair. *)
Theorem C38_infinity_key_refuted :
  forall C, ec_laws C -> gname C = Tc512_Test -> forall dgst priv k r s,
    (length dgst = 32 \/ length dgst = 64)%nat -> signature C 0 (digest_number dgst) k r s ->
    gost_ec_verify C dgst (r, s) (mk_key priv (Some (pzero C))) = Returns 1.
Proof.
  intros C L N dgst priv k r s D S. apply verify_iff; auto.
  - right. rewrite N. reflexivity.
  - rewrite <- (smul_0 C (gen C)). apply (accepted_iff_signature C L). exists k. exact S.
Qed.
Print Assumptions C38_infinity_key_refuted.

(** The digest counts modulo the order only. *)
Theorem C38_digest_modulo_order :
  forall C, ec_laws C -> forall dgst dgst' Q priv sig,
    (length dgst = 32 \/ length dgst = 64)%nat -> (length dgst' = 32 \/ length dgst' = 64)%nat ->
    digest_number dgst mod order C = digest_number dgst' mod order C ->
    gost_ec_verify C dgst sig (mk_key priv Q) = gost_ec_verify C dgst' sig (mk_key priv Q).
Proof.
  intros C L dgst dgst' Q priv [r s] D D' E. unfold gost_ec_verify. cbn [k_pub]. destruct Q as [Q|]; [|reflexivity].
  assert (B : dlen_ok dgst = true). { unfold dlen_ok. destruct D as [-> | ->]; reflexivity. }
  assert (B' : dlen_ok dgst' = true). { unfold dlen_ok. destruct D' as [-> | ->]; reflexivity. }
  rewrite B, B', !digest_e_spec. unfold hash_number. rewrite E. reflexivity.
Qed.
Print Assumptions C38_digest_modulo_order.

(** * C37 again: what is signed verifies *)
Theorem C37_sign_then_verify :
  forall C, ec_laws C -> forall dgst d draws r s, draws_ok C draws -> d mod order C <> 0 ->
    let key := mk_key (Some d) (Some (smul d (gen C))) in
    gost_ec_sign C dgst key draws = Returns (Some (r, s)) ->
    gost_ec_verify C dgst (r, s) key = Returns 1.
Proof.
  intros C L dgst d draws r s D N key H. apply (C37_sign_is_gost_signature C L) in H; [|exact D].
  destruct H as (Len & before & k & after & _ & _ & S). apply C38_accepts_exactly_the_signatures; auto. exists k. exact S.
Qed.
Print Assumptions C37_sign_then_verify.

Theorem C37_keygen :
  forall C, ec_laws C -> forall key draws, draws_ok C draws ->
    match gost_ec_keygen C key draws with
    | (1, mk_key (Some d) (Some Q)) =>
        0 < d < order C /\ In d draws /\ Q = smul d (gen C) /\ Q <> pzero C
    | (0, key') => key' = key /\ Forall (fun k => k = 0) draws
    | _ => False
    end.
Proof.
  intros C L key draws D. unfold gost_ec_keygen.
  assert (K : match keygen_draw draws with
              | Some d => 0 < d < order C /\ In d draws
              | None => Forall (fun k => k = 0) draws end).
  { induction D as [|k draws Hk D IH]; cbn [keygen_draw]; [constructor|].
    destruct (Z.eqb_spec k 0); [|split; [lia|left; reflexivity]].
    destruct (keygen_draw draws); [split; [apply IH|right; apply IH]|constructor; auto]. }
  destruct (keygen_draw draws) as [d|]; [|auto].
  destruct K as [K1 K2]. unfold gost_ec_compute_public. cbn [k_priv].
  rewrite (pm_g C L) by (try (apply fits_order; [exact L|]); lia).
  repeat split; try lia; auto. intros E. apply (gen_zero C L) in E. rewrite Z.mod_small in E; lia.
Qed.
Print Assumptions C37_keygen.

(** Defects: a digest of any other length ends the process, in both calls; the nonce 0, which
    BN_rand_range may deliver, makes signing fail instead of being drawn again. *)
Theorem C37_other_digest_length_refuted :
  forall C dgst d pub draws, length dgst <> 32%nat -> length dgst <> 64%nat ->
    gost_ec_sign C dgst (mk_key (Some d) pub) draws = Dies /\
    forall Q r s, 0 < r < order C -> 0 < s < order C ->
      gost_ec_verify C dgst (r, s) (mk_key (Some d) (Some Q)) = Dies.
Proof.
  intros C dgst d pub draws N1 N2.
  assert (B : dlen_ok dgst = false).
  { unfold dlen_ok. apply Nat.eqb_neq in N1, N2. rewrite N1, N2. reflexivity. }
  unfold gost_ec_sign, gost_ec_verify. rewrite B. split; [reflexivity|]. intros Q r s Hr Hs. cbn [k_pub negb].
  assert (E : (s =? 0) || (r =? 0) || (s <? 0) || (r <? 0) || (order C <=? Z.abs s) || (order C <=? Z.abs r) = false).
  { rewrite !orb_false_iff, !Z.eqb_neq, !Z.ltb_ge, !Z.leb_gt. lia. }
  rewrite E. reflexivity.
Qed.
Print Assumptions C37_other_digest_length_refuted.

Theorem C37_zero_nonce_refuted :
  forall C, ec_laws C -> forall dgst d pub k more r s, (length dgst = 32 \/ length dgst = 64)%nat ->
    signature C d (digest_number dgst) k r s ->
    gost_ec_sign C dgst (mk_key (Some d) pub) (k :: more) = Returns (Some (r, s)) /\
    gost_ec_sign C dgst (mk_key (Some d) pub) (0 :: k :: more) = Returns None.
Proof.
  intros C L dgst d pub k more r s D S. split.
  - unfold gost_ec_sign, dlen_ok. assert (B : (length dgst =? 32)%nat || (length dgst =? 64)%nat = true) by (destruct D as [-> | ->]; reflexivity).
    rewrite B. cbn [negb k_priv]. f_equal. rewrite digest_e_spec.
    destruct (sign_step C d (digest_number dgst) k more L) as [(r' & s' & Sg & ->)|[Ns _]].
    + destruct S as [S _]. exact S.
    + destruct (signature_unique _ _ _ _ _ _ _ _ S Sg) as [-> ->]. reflexivity.
    + exfalso. exact (proj2 Ns _ _ S).
  - unfold gost_ec_sign, dlen_ok. assert (B : (length dgst =? 32)%nat || (length dgst =? 64)%nat = true) by (destruct D as [-> | ->]; reflexivity).
    rewrite B. cbn [negb k_priv]. f_equal. apply sign_zero, L.
Qed.
Print Assumptions C37_zero_nonce_refuted.

(** A private key that is a multiple of the order signs, but its public key is infinity and its signatures
    are refused by the curves with a file of their own. *)
Theorem C37_key_multiple_of_order :
  forall C, ec_laws C -> forall dgst d draws sig, draws_ok C draws -> d mod order C = 0 ->
    gname C <> Tc512_Test -> gname C <> OtherNid ->
    let key := mk_key (Some d) (Some (smul d (gen C))) in
    gost_ec_sign C dgst key draws = Returns (Some sig) ->
    gost_ec_verify C dgst sig key = Returns 0.
Proof.
  intros C L dgst d draws [r s] D Z N1 N2 key H. apply (C37_sign_is_gost_signature C L) in H; [|exact D].
  destruct H as [Len _]. unfold key. apply (gen_zero C L) in Z. rewrite Z. apply C38_bad_key_rejected; auto.
Qed.
Print Assumptions C37_key_multiple_of_order.

(** A run: the first nonce gives r = 0 and is dropped, the second signs, the signature verifies and a
    changed digest is refused. *)
Definition toy_digest : list N := 200%N :: zeros 31.
Definition toy_key (c : curve_nid) (w : bool) (d : Z) : eckey (toy c w) :=
  mk_key (C := toy c w) (Some d) (Some (mkp c (d * toy_cof c))).
Example C37_nontrivial :
  ec_laws (toy CryptoPro_A true) /\ draws_ok (toy CryptoPro_A true) [1; 4] /\
  gost_ec_sign (toy CryptoPro_A true) toy_digest (toy_key CryptoPro_A true 7) [1; 4] = Returns (Some (3, 4)) /\
  gost_ec_verify (toy CryptoPro_A true) toy_digest (3, 4) (toy_key CryptoPro_A true 7) = Returns 1 /\
  gost_ec_verify (toy CryptoPro_A true) (201%N :: zeros 31) (3, 4) (toy_key CryptoPro_A true 7) = Returns 0 /\
  gost_ec_verify (toy Tc512_C false) toy_digest (3, 4) (toy_key Tc512_C false 7) = Returns 0.
Proof.
  split; [apply toy_laws|]. split; [repeat constructor; cbn; lia|].
  split; [vm_compute; reflexivity|]. split; [vm_compute; reflexivity|]. split; vm_compute; reflexivity.
Qed.
