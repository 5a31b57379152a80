(** Model of the scalar multiplications of the generated files ecp_id_*.c and of their dispatcher
    gost_ec_point_mul (gost_ec_sign.c:498-593).

    Abstraction: points are elements of an abstract group; [point_double], [point_add_proj],
    [point_add_mixed] and the negation of a coordinate (Y on the Weierstrass curves, X and T on the
    Edwards ones) are the group operations.  That the field formulas compute them is the subject of
    EcFormulaModel.v; the limb arithmetic of the fiat functions is not modelled.  The recodings, the table
    look-ups, the loops, the sign handling and the range checks are modelled as written.
    Line numbers without a file name are those of ecp_id_GostR3410_2001_CryptoPro_A_ParamSet.c
    (the 64-bit half); the other seven files and the 32-bit halves differ in the constants of
    [shape] only, and in the Edwards branch where said. *)
From Coq Require Import ZArith List Bool Lia.
From Verif Require Import Bytes.
Import ListNotations.
Local Open Scope Z_scope.

(** The parameter sets known to gost_params.c, and any other object identifier. *)
Inductive curve_nid :=
  | TestParamSet | CryptoPro_A | CryptoPro_B | CryptoPro_C | CryptoPro_XchA | CryptoPro_XchB
  | Tc256_A | Tc256_B | Tc256_C | Tc256_D
  | Tc512_Test | Tc512_A | Tc512_B | Tc512_C | OtherNid.

(** Constants of one generated file: bytes of a scalar, regular digits, rows and columns of the
    comb ([for (i = rows-1; ...)], [for (j = 0; j < cols; ...)]), and whether the file works on the
    Edwards form (and so clears the cofactor 4 in [var_smul_rwnaf]). *)
Record shape := mk_shape { s_nb : nat; s_nd : nat; s_rows : nat; s_cols : nat; s_ed : bool }.

(** The files: ecp_id_GostR3410_2001_CryptoPro_A_ParamSet.c:3501-3523, ..CryptoPro_B..:4146-4166,
    ..CryptoPro_C..:4804-4824, ..TestParamSet.c:4077-4097, ecp_id_tc26_gost_3410_2012_256_paramSetA.c:3693-3714,
    ..512_paramSetA.c:4532-4552 and 12566-12586, ..512_paramSetB.c:6744-6764, ..512_paramSetC.c:4539-4560
    and the 32-bit half.  [w64]: the build has a 128-bit integer type. *)
Inductive ecp_file := F_A | F_B | F_C | F_Test | F_256A | F_512A | F_512B | F_512C.
Definition file_shape (w64 : bool) (f : ecp_file) : shape :=
  match f with
  | F_A => mk_shape 32 52 3 19 false
  | F_B | F_C | F_Test => mk_shape 32 52 2 27 false
  | F_256A => mk_shape 32 52 4 14 true
  | F_512A => if w64 then mk_shape 64 103 10 12 false else mk_shape 64 103 11 11 false
  | F_512B => mk_shape 64 103 8 14 false
  | F_512C => if w64 then mk_shape 64 103 15 8 true else mk_shape 64 103 18 7 true
  end.

(** The switch on EC_GROUP_get_curve_name, gost_ec_sign.c:508-533 (and again 537-561, 566-590);
    None is the default case, OpenSSL's EC_POINT_mul. *)
Definition file_of (n : curve_nid) : option ecp_file :=
  match n with
  | CryptoPro_A | CryptoPro_XchA | Tc256_B => Some F_A
  | CryptoPro_B | Tc256_C => Some F_B
  | CryptoPro_C | CryptoPro_XchB | Tc256_D => Some F_C
  | TestParamSet => Some F_Test
  | Tc256_A => Some F_256A
  | Tc512_A => Some F_512A
  | Tc512_B => Some F_512B
  | Tc512_C => Some F_512C
  | Tc512_Test | OtherNid => None
  end.

(** An EC_GROUP: the points, the group operation, the affine coordinates (None: infinity), the
    generator, its order, the cofactor, the length of the field in bytes, the curve name, the
    build's word size and the precomputed table [lut_cmb] of the file. *)
Record group := mk_group {
  pt : Type;
  padd : pt -> pt -> pt;
  pneg : pt -> pt;
  pzero : pt;
  affine : pt -> option (Z * Z);
  gen : pt;
  order : Z;
  cofactor : Z;
  fieldlen : nat;
  gname : curve_nid;
  wide : bool;
  lut_cmb : nat -> nat -> pt }.

(** int8_t conversion. *)
Definition i8 (z : Z) : Z := (z + 128) mod 256 - 128.
Definition RADIX : nat := 5.
Definition DRADIX : Z := 32.
Definition DRADIX_WNAF : Z := 64.

(** [scalar_get_bit], 3297-3306 ([idx] is never negative). *)
Definition scalar_get_bit (nb : nat) (inp : list N) (idx : nat) : Z :=
  let widx := (idx / 8)%nat in
  let rshift := (idx mod 8)%nat in
  if (nb <=? widx)%nat then 0
  else Z.land (Z.shiftr (Z.of_N (nth widx inp 0%N)) (Z.of_nat rshift)) 1.

(** [scalar_rwnaf], 3316-3332: one turn of the loop (digit, next window), then the loop. *)
Definition rwnaf_step (nb : nat) (inp : list N) (i : nat) (window : Z) : Z * Z :=
  let d := i8 (Z.land window (DRADIX_WNAF - 1) - DRADIX) in
  let w := i8 (Z.shiftr (window - d) 5) in
  let w := i8 (w + Z.shiftl (scalar_get_bit nb inp ((i + 1) * RADIX + 1)) 1) in
  let w := i8 (w + Z.shiftl (scalar_get_bit nb inp ((i + 1) * RADIX + 2)) 2) in
  let w := i8 (w + Z.shiftl (scalar_get_bit nb inp ((i + 1) * RADIX + 3)) 3) in
  let w := i8 (w + Z.shiftl (scalar_get_bit nb inp ((i + 1) * RADIX + 4)) 4) in
  let w := i8 (w + Z.shiftl (scalar_get_bit nb inp ((i + 1) * RADIX + 5)) 5) in
  (d, w).
Fixpoint rwnaf_loop (nb : nat) (inp : list N) (n i : nat) (window : Z) : list Z :=
  match n with
  | O => [window]
  | S n' => let '(d, w) := rwnaf_step nb inp i window in d :: rwnaf_loop nb inp n' (S i) w
  end.
Definition scalar_rwnaf (s : shape) (inp : list N) : list Z :=
  rwnaf_loop (s_nb s) inp (s_nd s - 1) 0
    (i8 (Z.lor (Z.land (Z.of_N (nth 0 inp 0%N)) (DRADIX_WNAF - 1)) 1)).

(** [scalar_wnaf], 3338-3351. *)
Definition wnaf_step (nb : nat) (inp : list N) (i : nat) (window : Z) : Z * Z :=
  let d :=
    if Z.land window 1 =? 0 then 0
    else
      let d := Z.land window (DRADIX_WNAF - 1) in
      if Z.land d DRADIX =? 0 then d else i8 (d - DRADIX_WNAF) in
  let w := i8 (Z.shiftr (window - d) 1) in
  (d, i8 (w + Z.shiftl (scalar_get_bit nb inp (i + 1 + RADIX)) 5)).
Fixpoint wnaf_loop (nb : nat) (inp : list N) (n i : nat) (window : Z) : list Z :=
  match n with
  | O => []
  | S n' => let '(d, w) := wnaf_step nb inp i window in d :: wnaf_loop nb inp n' (S i) w
  end.
Definition scalar_wnaf (s : shape) (inp : list N) : list Z :=
  wnaf_loop (s_nb s) inp (8 * s_nb s + 1) 0 (Z.land (Z.of_N (nth 0 inp 0%N)) (DRADIX_WNAF - 1)).

Section Ladders.
Variable C : group.
Notation P_ := (pt C).

Fixpoint set_nth (l : list P_) (i : nat) (v : P_) : list P_ :=
  match l, i with
  | [], _ => []
  | _ :: t, O => v :: t
  | h :: t, S i' => h :: set_nth t i' v
  end.
Definition pdouble (P : P_) : P_ := padd C P P.

(** [precomp_wnaf], 3284-3294: sixteen entries; entry 15 holds 2P during the loop. *)
Definition precomp_wnaf (P : P_) : list P_ :=
  let t := set_nth (repeat (pzero C) 16) 0 P in
  let t := set_nth t 15 (pdouble (nth 0 t (pzero C))) in
  fold_left (fun t i => set_nth t i (padd C (nth 15 t (pzero C)) (nth (i - 1) t (pzero C))))
            (seq 1 15) t.

(** The constant-time look-up, 3442-3450, 3460-3468, 3530-3536: the entry whose index equals [d]
    replaces the old value of the accumulator. *)
Definition lookup (tbl : nat -> P_) (d : Z) (old : P_) : P_ :=
  fold_left (fun acc j =>
      let diff := Z.land (1 - Z.shiftr (- Z.lxor d (Z.of_nat j)) 31) 1 in
      if diff =? 0 then acc else tbl j)
    (seq 0 16) old.

(** Sign and magnitude of a digit, 3455-3459: is_neg, and the table index. *)
Definition digit_neg (d : Z) : Z := Z.land (Z.shiftr d 31) 1.
Definition digit_idx (d : Z) : Z :=
  let n := digit_neg d in Z.shiftr (Z.lxor d (- n) + n - 1) 1.

(** [var_smul_rwnaf], 3424-3495: the loop over the digits from the highest but one downwards
    carries the accumulator and the last table entry read. *)
Definition rwnaf_turn (pre : list P_) (st : P_ * P_) (d : Z) : P_ * P_ :=
  let '(Q, l) := st in
  let Q := Nat.iter RADIX pdouble Q in
  let l := lookup (fun j => nth j pre (pzero C)) (digit_idx d) l in
  let l := if digit_neg d =? 0 then l else pneg C l in
  (padd C Q l, l).
Definition var_smul_rwnaf (s : shape) (scalar : list N) (P : P_) : P_ :=
  let pre := precomp_wnaf P in
  let rnaf := scalar_rwnaf s scalar in
  let top := nth (s_nd s - 1) rnaf 0 in
  let Q := lookup (fun j => nth j pre (pzero C)) (Z.shiftr (top - 1) 1) (pzero C) in
  let '(Q, _) := fold_left (rwnaf_turn pre) (rev (firstn (s_nd s - 1) rnaf)) (Q, pzero C) in
  let l := padd C (pneg C (nth 0 pre (pzero C))) Q in
  let Q := if N.eqb (N.land (nth 0 scalar 0%N) 1) 0 then l else Q in
  (* ecp_id_tc26_gost_3410_2012_256_paramSetA.c:3677-3678, 512_paramSetC.c:4523-4524 *)
  if s_ed s then pdouble (pdouble Q) else Q.

(** [fixed_smul_cmb], 3501-3564. *)
Definition cmb_col (s : shape) (rnaf : list Z) (i : nat) (st : P_ * P_) (j : nat) : P_ * P_ :=
  let '(Q, l) := st in
  if (s_nd s - 1 <? j * s_rows s + i)%nat then (Q, l)
  else
    let d := nth (j * s_rows s + i) rnaf 0 in
    let l := lookup (lut_cmb C j) (digit_idx d) l in
    let l := if digit_neg d =? 0 then l else pneg C l in
    (padd C Q l, l).
Definition cmb_row (s : shape) (rnaf : list Z) (st : P_ * P_) (i : nat) : P_ * P_ :=
  let '(Q, l) := st in
  let Q := if (i =? s_rows s - 1)%nat then Q else Nat.iter RADIX pdouble Q in
  fold_left (cmb_col s rnaf i) (seq 0 (s_cols s)) (Q, l).
Definition fixed_smul_cmb (s : shape) (scalar : list N) : P_ :=
  let rnaf := scalar_rwnaf s scalar in
  let '(Q, _) := fold_left (cmb_row s rnaf) (rev (seq 0 (s_rows s))) (pzero C, pzero C) in
  let R := padd C Q (pneg C (lut_cmb C 0 0)) in
  if N.eqb (N.land (nth 0 scalar 0%N) 1) 0 then R else Q.

(** [var_smul_wnaf_two], 3357-3419.  State: accumulator, is_inf, flipped.  While is_inf the
    accumulator holds zeroed coordinates (not a point; [pzero] here), which are overwritten. *)
Definition two_add (tbl : nat -> P_) (st : P_ * bool * bool) (d : Z) : P_ * bool * bool :=
  let '(Q, is_inf, flipped) := st in
  if d =? 0 then (Q, is_inf, flipped)
  else
    let is_neg := d <? 0 in
    let '(Q, flipped) := if xorb is_neg flipped then (pneg C Q, negb flipped) else (Q, flipped) in
    let idx := if is_neg then Z.shiftr (- d - 1) 1 else Z.shiftr (d - 1) 1 in
    let e := tbl (Z.to_nat idx) in
    if is_inf then (e, false, flipped) else (padd C Q e, is_inf, flipped).
Definition two_turn (pre : list P_) (st : P_ * bool * bool) (ab : Z * Z) : P_ * bool * bool :=
  let '(Q, is_inf, flipped) := st in
  let Q := if is_inf then Q else pdouble Q in
  let st := two_add (fun k => nth k pre (pzero C)) (Q, is_inf, flipped) (snd ab) in
  two_add (lut_cmb C 0) st (fst ab).
Definition var_smul_wnaf_two (s : shape) (a b : list N) (P : P_) : P_ :=
  let pre := precomp_wnaf P in
  let anaf := scalar_wnaf s a in
  let bnaf := scalar_wnaf s b in
  let '(Q, is_inf, flipped) :=
    fold_left (two_turn pre) (rev (combine anaf bnaf)) (pzero C, true, false) in
  let Q := if is_inf then pzero C else Q in
  if flipped then pneg C Q else Q.

(** BN_bn2lebinpad (OpenSSL): fails if the number does not fit; the sign is not looked at. *)
Definition bn2lebinpad (len : nat) (n : Z) : option (list N) :=
  if Z.abs n <? 256 ^ Z.of_nat len then Some (n2le len (Z.abs_N n)) else None.

(** The wrappers point_mul_two_id_* (3632-3669), point_mul_id_* (3674-3712), point_mul_g_id_*
    (3717-3753): fail if the point is at infinity (no affine coordinates) or a scalar is too long.
    The coordinates travel as bytes; the point itself does here. *)
Definition c_mul_two (s : shape) (n : Z) (q : P_) (m : Z) : option P_ :=
  match affine C q, bn2lebinpad (s_nb s) n, bn2lebinpad (s_nb s) m with
  | Some _, Some bn, Some bm => Some (var_smul_wnaf_two s bn bm q)
  | _, _, _ => None
  end.
Definition c_mul (s : shape) (q : P_) (m : Z) : option P_ :=
  match affine C q, bn2lebinpad (s_nb s) m with
  | Some _, Some bm => Some (var_smul_rwnaf s bm q)
  | _, _ => None
  end.
Definition c_mul_g (s : shape) (n : Z) : option P_ :=
  match bn2lebinpad (s_nb s) n with
  | Some bn => Some (fixed_smul_cmb s bn)
  | None => None
  end.

(** OpenSSL's EC_POINT_mul, reached for a curve without a generated file: [n] times the generator
    plus [m] times [q].  Library model, by double and add. *)
Fixpoint pos_mul (p : positive) (P : P_) : P_ :=
  match p with
  | xH => P
  | xO p' => pdouble (pos_mul p' P)
  | xI p' => padd C P (pdouble (pos_mul p' P))
  end.
Definition lib_mul (n : Z) (P : P_) : P_ :=
  match n with Z0 => pzero C | Zpos p => pos_mul p P | Zneg p => pneg C (pos_mul p P) end.

(** [gost_ec_point_mul], gost_ec_sign.c:498-593.  NULL arguments are None. *)
Definition gost_ec_point_mul (n : option Z) (q : option P_) (m : option Z) : option P_ :=
  let f := option_map (file_shape (wide C)) (file_of (gname C)) in
  match n, m with
  | Some n, Some m =>
    match q with
    | None => None
    | Some q =>
      match f with
      | Some s => c_mul_two s n q m
      | None => Some (padd C (lib_mul n (gen C)) (lib_mul m q))
      end
    end
  | Some n, None =>
    match f with Some s => c_mul_g s n | None => Some (lib_mul n (gen C)) end
  | None, Some m =>
    match q with
    | None => None
    | Some q => match f with Some s => c_mul s q m | None => Some (lib_mul m q) end
    end
  | None, None => None
  end.
End Ladders.
