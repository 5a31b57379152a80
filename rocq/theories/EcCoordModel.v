(** Model of the scalar multiplications of the generated files ecp_id_*.c on coordinates: the same loops as in
    EcLadderModel.v, but on projective coordinates over a field, with the point formulas of EcFormulaModel.v, the
    conversion to affine coordinates by the inversion of EcInvModel.v, and the wrappers that read and write
    EC_POINTs, including the reading of (0, 0) as infinity.

    Line numbers: W is ecp_id_GostR3410_2001_CryptoPro_A_ParamSet.c, E is
    ecp_id_tc26_gost_3410_2012_256_paramSetA.c (64-bit halves); the other files are copies of one of the two, up to
    the constants of [file_shape], the field, the curve constants and the table.
    Abstraction: an fe_t is a field element (see EcFormulaModel.v); a pt_prj_t without T carries one here that is
    never read.  [inv], [tab] and [one] are the file's inversion, lut_cmb and const_one. *)
From Coq Require Import ZArith NArith List Bool.
From Verif Require Import Bytes EcFormulaSpec EcFormulaModel EcLadderModel.
Import ListNotations.
Local Open Scope Z_scope.

Definition file_family (f : ecp_file) : family :=
  match f with F_A | F_B | F_C | F_512A | F_512B => Minus3 | F_Test => AnyA | F_256A | F_512C => Edwards end.

Section Coordinates.
Variable K : field.
Variable fam : family.
Variable c : consts K.
Variable one : F K.
Variable inv : F K -> F K.
Variable tab : nat -> nat -> aff K.
Variable junk : mem K.
Notation O_ := (f0 K).
Notation dbl := (point_double K fam true c junk).

(** The negation of a projective point: fiat_*_opp of Y (W 3376), of X and T (E 3543-3544). *)
Definition neg_prj (q : prj K) : prj K :=
  match fam with
  | Edwards => mk_prj K (fopp K (pX K q)) (pY K q) (fopp K (pT K q)) (pZ K q)
  | _ => mk_prj K (pX K q) (fopp K (pY K q)) (pT K q) (pZ K q)
  end.
Definition neg_aff (q : aff K) : aff K :=
  match fam with
  | Edwards => mk_aff K (fopp K (aX K q)) (aY K q) (fopp K (aT K q))
  | _ => mk_aff K (aX K q) (fopp K (aY K q)) (aT K q)
  end.
(** [= {0}] *)
Definition zero_prj : prj K := mk_prj K O_ O_ O_ O_.
Definition zero_aff : aff K := mk_aff K O_ O_ O_.
(** "initialize accumulator to inf", W 3405-3408, E 3577-3581 *)
Definition inf_prj : prj K :=
  match fam with Edwards => mk_prj K O_ one O_ one | _ => mk_prj K O_ one O_ O_ end.
(** A table entry copied to the accumulator, W 3394-3396, E 3564-3567 *)
Definition prj_of_aff (e : aff K) : prj K := mk_prj K (aX K e) (aY K e) (aT K e) one.

Fixpoint set_entry (l : list (prj K)) (i : nat) (v : prj K) : list (prj K) :=
  match l, i with
  | [], _ => []
  | _ :: t, O => v :: t
  | h :: t, S i' => h :: set_entry t i' v
  end.
Definition junk_prj : prj K := mk_prj K (junk RX) (junk RY) (junk RT) (junk RZ).
Definition entry_at (t : list (prj K)) (i : nat) : prj K := nth i t junk_prj.

(** [precomp_wnaf], W 3284-3294, E 3452-3461.  The sixteenth entry holds 2P during the loop and is the result
    and the first operand of the last addition. *)
Definition precomp_first (P : aff K) : prj K :=
  match fam with Edwards => point_legacy2edwards K c junk P | _ => prj_of_aff P end.
Definition coord_precomp (P : aff K) : list (prj K) :=
  let t := set_entry (repeat junk_prj 16) 0 (precomp_first P) in
  let t := set_entry t 15 (point_double K fam false c junk (entry_at t 0)) in
  fold_left (fun t i =>
      set_entry t i (point_add_proj K fam (Nat.eqb i 15) c junk (entry_at t 15) (entry_at t (i - 1))))
    (seq 1 15) t.

(** The constant-time look-up by selectznz of every coordinate, W 3443-3450, 3460-3468, 3530-3536. *)
Definition select {A} (tbl : nat -> A) (d : Z) (old : A) : A :=
  fold_left (fun acc j =>
      let diff := Z.land (1 - Z.shiftr (- Z.lxor d (Z.of_nat j)) 31) 1 in
      if diff =? 0 then acc else tbl j)
    (seq 0 16) old.

(** "convert to affine", W 3415-3418, E 3590-3595 *)
Definition to_affine (q : prj K) : F K * F K :=
  let q := match fam with Edwards => point_edwards2legacy K true c junk q | _ => q end in
  let z := inv (pZ K q) in
  (fmul K (pX K q) z, fmul K (pY K q) z).

(** [var_smul_rwnaf], W 3424-3495, E 3601-3687.  [out], used for the negated coordinate, may be [P] itself,
    which has been read by then. *)
Definition coord_rwnaf_turn (pre : list (prj K)) (st : prj K * prj K) (d : Z) : prj K * prj K :=
  let '(Q, l) := st in
  let Q := Nat.iter RADIX dbl Q in
  let l := select (entry_at pre) (digit_idx d) l in
  let l := if digit_neg d =? 0 then l else neg_prj l in
  (point_add_proj K fam true c junk Q l, l).
Definition coord_rwnaf (s : shape) (scalar : list N) (P : aff K) : prj K :=
  let pre := coord_precomp P in
  let rnaf := scalar_rwnaf s scalar in
  let top := nth (s_nd s - 1) rnaf 0 in
  let Q := select (entry_at pre) (Z.shiftr (top - 1) 1) zero_prj in
  let '(Q, _) := fold_left (coord_rwnaf_turn pre) (rev (firstn (s_nd s - 1) rnaf)) (Q, zero_prj) in
  let l := point_add_proj K fam true c junk (neg_prj (entry_at pre 0)) Q in
  let Q := if N.eqb (N.land (nth 0 scalar 0%N) 1) 0 then l else Q in
  match fam with Edwards => dbl (dbl Q) | _ => Q end.

(** [fixed_smul_cmb], W 3501-3564, E 3693-3762 *)
Definition coord_cmb_col (s : shape) (rnaf : list Z) (i : nat) (st : prj K * aff K) (j : nat) : prj K * aff K :=
  let '(Q, l) := st in
  if (s_nd s - 1 <? j * s_rows s + i)%nat then (Q, l)
  else
    let d := nth (j * s_rows s + i) rnaf 0 in
    let l := select (tab j) (digit_idx d) l in
    let l := if digit_neg d =? 0 then l else neg_aff l in
    (point_add_mixed K fam true c junk Q l, l).
Definition coord_cmb_row (s : shape) (rnaf : list Z) (st : prj K * aff K) (i : nat) : prj K * aff K :=
  let '(Q, l) := st in
  let Q := if (i =? s_rows s - 1)%nat then Q else Nat.iter RADIX dbl Q in
  fold_left (coord_cmb_col s rnaf i) (seq 0 (s_cols s)) (Q, l).
Definition coord_cmb (s : shape) (scalar : list N) : prj K :=
  let rnaf := scalar_rwnaf s scalar in
  let '(Q, _) := fold_left (coord_cmb_row s rnaf) (rev (seq 0 (s_rows s))) (inf_prj, zero_aff) in
  let R := point_add_mixed K fam false c junk Q (neg_aff (tab 0 0)) in
  if N.eqb (N.land (nth 0 scalar 0%N) 1) 0 then R else Q.

(** [var_smul_wnaf_two], W 3357-3419, E 3526-3596: state accumulator, is_inf, flipped. *)
Definition coord_two_add {A} (tbl : nat -> A) (load : A -> prj K) (add : prj K -> A -> prj K)
    (st : prj K * bool * bool) (d : Z) : prj K * bool * bool :=
  let '(Q, is_inf, flipped) := st in
  if d =? 0 then (Q, is_inf, flipped)
  else
    let is_neg := d <? 0 in
    let '(Q, flipped) := if xorb is_neg flipped then (neg_prj Q, negb flipped) else (Q, flipped) in
    let idx := if is_neg then Z.shiftr (- d - 1) 1 else Z.shiftr (d - 1) 1 in
    let e := tbl (Z.to_nat idx) in
    if is_inf then (load e, false, flipped) else (add Q e, is_inf, flipped).
Definition coord_two_turn (pre : list (prj K)) (st : prj K * bool * bool) (ab : Z * Z) : prj K * bool * bool :=
  let '(Q, is_inf, flipped) := st in
  let Q := if is_inf then Q else dbl Q in
  let st := coord_two_add (entry_at pre) (fun e => e) (point_add_proj K fam true c junk) (Q, is_inf, flipped) (snd ab) in
  coord_two_add (tab 0) prj_of_aff (point_add_mixed K fam true c junk) st (fst ab).
Definition coord_two (s : shape) (a b : list N) (P : aff K) : prj K :=
  let pre := coord_precomp P in
  let anaf := scalar_wnaf s a in
  let bnaf := scalar_wnaf s b in
  let '(Q, is_inf, flipped) :=
    fold_left (coord_two_turn pre) (rev (combine anaf bnaf)) (zero_prj, true, false) in
  let Q := if is_inf then inf_prj else Q in
  if flipped then neg_prj Q else Q.
End Coordinates.

(** ** The wrappers
    An EC_POINT is its affine coordinates, None for infinity; the outer None is the return value 0. *)
Section Wrappers.
Variable K : field.
Variable ofZ : Z -> F K.       (* fiat_*_from_bytes of the little-endian bytes of a number *)
Variable toZ : F K -> Z.       (* the number whose bytes fiat_*_to_bytes writes *)
Variable on_curve : Z -> Z -> bool.
Variable fam : family.
Variable c : consts K.
Variable one : F K.
Variable inv : F K -> F K.
Variable tab : nat -> nat -> aff K.
Variable junk : mem K.
Variable s : shape.

(** "check for infinity", W 3654-3663: EC_POINT_set_affine_coordinates refuses a point off the curve *)
Definition set_point (xy : F K * F K) : option (option (Z * Z)) :=
  let x := toZ (fst xy) in let y := toZ (snd xy) in
  if (x =? 0) && (y =? 0) then Some None
  else if on_curve x y then Some (Some (x, y)) else None.
(** The coordinates of the argument: EC_POINT_get_affine_coordinates fails at infinity; the T of pt_aff_t is not set *)
Definition get_point (q : option (Z * Z)) : option (aff K) :=
  match q with
  | None => None
  | Some (x, y) =>
    match bn2lebinpad (s_nb s) x, bn2lebinpad (s_nb s) y with
    | Some bx, Some by_ => Some (mk_aff K (ofZ (Z.of_N (le2n bx))) (ofZ (Z.of_N (le2n by_))) (junk T2))
    | _, _ => None
    end
  end.
(** point_mul_two_id_* with point_mul_two, W 3572-3586 and 3632-3669 *)
Definition ec_mul_two (n : Z) (q : option (Z * Z)) (m : Z) : option (option (Z * Z)) :=
  match get_point q, bn2lebinpad (s_nb s) n, bn2lebinpad (s_nb s) m with
  | Some P, Some bn, Some bm =>
    set_point (to_affine K fam c inv junk (coord_two K fam c one tab junk s bn bm P))
  | _, _, _ => None
  end.
(** point_mul_id_* with point_mul, W 3608-3623 and 3674-3712 *)
Definition ec_mul (q : option (Z * Z)) (m : Z) : option (option (Z * Z)) :=
  match get_point q, bn2lebinpad (s_nb s) m with
  | Some P, Some bm => set_point (to_affine K fam c inv junk (coord_rwnaf K fam c one junk s bm P))
  | _, _ => None
  end.
(** point_mul_g_id_* with point_mul_g, W 3592-3602 and 3717-3753 *)
Definition ec_mul_g (n : Z) : option (option (Z * Z)) :=
  match bn2lebinpad (s_nb s) n with
  | Some bn => set_point (to_affine K fam c inv junk (coord_cmb K fam c one tab junk s bn))
  | None => None
  end.
(** gost_ec_point_mul (gost_ec_sign.c:498-593) for a curve with a generated file *)
Definition ec_point_mul (n : option Z) (q : option (option (Z * Z))) (m : option Z) : option (option (Z * Z)) :=
  match n, m with
  | Some n, Some m => match q with None => None | Some q => ec_mul_two n q m end
  | Some n, None => ec_mul_g n
  | None, Some m => match q with None => None | Some q => ec_mul q m end
  | None, None => None
  end.
End Wrappers.
