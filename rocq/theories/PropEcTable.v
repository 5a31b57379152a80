(** C55, continued: the precomputed tables of the generated files (lut_cmb) hold the multiples of the generator
    that the comb needs, so the files compute multiples of points without any assumption about their data. *)
From Coq Require Import ZArith Znumtheory List Bool Lia.
From Verif Require Import EcFormulaSpec EcFormulaModel FieldZp EcLadderModel EcSpec EcProofs ParamsModel
  EcInvModel EcInvProofs EcConstModel EcConstProofs EcCoordModel EcCurveSpec EcTableModel EcTableMain PropEcCoord.
Import ListNotations.
Local Open Scope Z_scope.

(** C is the group of the curve of the parameter set [nid] of gost_params.c: its points are those of the curve over
    the field of p elements with the chord-and-tangent sum, its generator is the point written there, and it has
    the properties of EcSpec.ec_laws (a group, prime order, the cofactor). *)
Record parameter_group (nid : curve_nid) (Pp : prime (nid_prime nid)) (C : group) (w : pt C -> wpoint (zp (nid_prime nid) Pp)) : Prop := {
  pg_name : gname C = nid;
  pg_laws : ec_laws C;
  pg_points : curve_points C (nid_prime nid) Pp (nid_a nid) (nid_b nid) w;
  pg_gen : affine C (gen C) = Some (nid_x nid, nid_y nid) }.

(** Every entry of every table, in both halves of each of the eight files: entry k of column j is the point
    (2k+1) * 2^(5 * rows * j) * G, in affine coordinates (on the Edwards curves: in Edwards coordinates, with their
    product). *)
Theorem C55_tables : forall nid f Pp C w, parameter_group nid Pp C w -> file_of nid = Some f ->
  forall j k, (j < s_cols (file_shape (wide C) f))%nat -> (k < 16)%nat ->
  entry_ok (zp (nid_prime nid) Pp) (file_family f) (file_consts (nid_prime nid) Pp (wide C) f)
    (file_table (nid_prime nid) Pp (wide C) f j k)
    (w (smul ((2 * Z.of_nat k + 1) * 2 ^ (5 * Z.of_nat (s_rows (file_shape (wide C) f)) * Z.of_nat j)) (gen C))).
Proof. intros nid f Pp C w [GN L CP AG] FN. exact (tables_right nid f Pp C w GN FN L CP AG). Qed.

(** So the files, with all their data, are files for their curves ... *)
Theorem C55_curve_files : forall nid f Pp C w junk, parameter_group nid Pp C w -> file_of nid = Some f ->
  file_for_curve (nid_prime nid) Pp (nid_a nid) (nid_b nid) C w f (file_consts (nid_prime nid) Pp (wide C) f)
    (fe_inv (rmul (nid_prime nid)) f junk) (file_table (nid_prime nid) Pp (wide C) f).
Proof.
  intros nid f Pp C w junk H FN. pose proof H as [GN L CP AG].
  apply C55_parameter_files; [exact GN|exact FN|exact L|exact CP|].
  intros j k J K. rewrite <- GN in FN. rewrite (l_table C L f FN j k J K). rewrite GN in FN.
  exact (C55_tables nid f Pp C w H FN j k J K).
Qed.
(** ... and gost_ec_point_mul through them, on the coordinates of the points, gives the multiples: of the
    generator, of another point (times the cofactor), and the sum of both - the last outside order two. *)
Theorem C55_curve_multiples : forall nid f Pp C w junk junk', parameter_group nid Pp C w -> file_of nid = Some f ->
  let mul := coord_mul (nid_prime nid) Pp (nid_a nid) (nid_b nid) C f (file_consts (nid_prime nid) Pp (wide C) f)
    (fe_inv (rmul (nid_prime nid)) f junk) (file_table (nid_prime nid) Pp (wide C) f) junk' in
  forall n m Q, 0 <= n -> 0 <= m -> scalar_fits nid n = true -> scalar_fits nid m = true -> Q <> pzero C ->
  mul (Some n) None None = Some (affine C (smul n (gen C))) /\
  mul None (Some (affine C Q)) (Some m) = Some (affine C (smul (cofactor C * m) Q)) /\
  (~ of_order_two C Q -> ~ of_order_two C (padd C (smul n (gen C)) (smul m Q)) ->
   mul (Some n) (Some (affine C Q)) (Some m) = Some (affine C (padd C (smul n (gen C)) (smul m Q)))).
Proof.
  intros nid f Pp C w junk junk' H FN mul n m Q N M FNn FM NQ.
  pose proof (C55_curve_files nid f Pp C w junk H FN) as FC. pose proof H as [GN _ _ _]. subst nid.
  split; [|split].
  - unfold mul. rewrite (C55_generator_multiple _ _ _ _ _ _ _ _ _ _ FC) by exact N. rewrite FNn. reflexivity.
  - unfold mul. rewrite (proj1 (C55_peer_multiple _ _ _ _ _ _ _ _ _ _ FC _ _ _ M)) by exact NQ. rewrite FM. reflexivity.
  - intros O1 O2. unfold mul. rewrite (proj1 (C55_double_multiple _ _ _ _ _ _ _ _ _ _ FC _ _ _ _ N M)) by assumption. rewrite FNn, FM. reflexivity.
Qed.
(** Concrete: the first entry of the table of set A (64-bit) in numbers *)
Theorem C55_table_example : table_limbs true F_A (nth 0 (nth 0 (nth 0 (lut_words true F_A) []) []) []) = [1; 0; 0; 0; 0] /\
  nid_x CryptoPro_A = 1 /\ table_limbs true F_A (nth 0 (nth 1 (nth 18 (lut_words true F_A) []) []) []) <> [1; 0; 0; 0; 0].
Proof. split; [vm_compute; reflexivity|split; [vm_compute; reflexivity|vm_compute; discriminate]]. Qed.
