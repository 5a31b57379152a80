(** The precomputed tables of the generated files as coordinates of points: pt_aff_t lut_cmb[][16] of
    ecp_id_*.c (the arrays are in EcLut*.v, with their lines). *)
From Coq Require Import ZArith Znumtheory List Bool Uint63.
From Verif Require Import EcFormulaSpec EcFormulaModel FieldZp EcLadderModel ParamsModel EcConstModel EcConstProofs.
From Verif Require Import EcLutA EcLutB EcLutC EcLutTest EcLut256A EcLut512A EcLut512B EcLut512C.
Import ListNotations.
Local Open Scope Z_scope.

(** The array in the half of the file for the word size *)
Definition lut_words (w64 : bool) (f : ecp_file) : list (list (list (list int))) :=
  match f, w64 with
  | F_A, true => lut_A_64 | F_A, false => lut_A_32
  | F_B, true => lut_B_64 | F_B, false => lut_B_32
  | F_C, true => lut_C_64 | F_C, false => lut_C_32
  | F_Test, true => lut_Test_64 | F_Test, false => lut_Test_32
  | F_256A, true => lut_256A_64 | F_256A, false => lut_256A_32
  | F_512A, true => lut_512A_64 | F_512A, false => lut_512A_32
  | F_512B, true => lut_512B_64 | F_512B, false => lut_512B_32
  | F_512C, true => lut_512C_64 | F_512C, false => lut_512C_32
  end.
(** The limbs of a coordinate: 64-bit limbs are given in two halves. *)
Fixpoint join (l : list Z) : list Z := match l with lo :: hi :: l' => (lo + 2 ^ 32 * hi) :: join l' | _ => [] end.
Definition halved (w64 : bool) (f : ecp_file) : bool := match f with F_B | F_C | F_Test | F_512B => w64 | _ => false end.
Definition table_limbs (w64 : bool) (f : ecp_file) (l : list int) : list Z :=
  if halved w64 f then join (map to_Z l) else map to_Z l.
Definition table_elt (p : Z) (Pp : prime p) (w64 : bool) (f : ecp_file) (l : list int) : F (zp p Pp) :=
  limbs_elt p Pp w64 f (table_limbs w64 f l).
(** lut_cmb[j][k]: X, Y and, for the Edwards curves, T *)
Definition file_table (p : Z) (Pp : prime p) (w64 : bool) (f : ecp_file) (j k : nat) : aff (zp p Pp) :=
  let e := nth k (nth j (lut_words w64 f) []) [] in
  mk_aff (zp p Pp) (table_elt p Pp w64 f (nth 0 e [])) (table_elt p Pp w64 f (nth 1 e [])) (table_elt p Pp w64 f (nth 2 e [])).

(** The generator of a parameter set, gost_params.c *)
Definition nid_x (nid : curve_nid) : Z := match gost_nid2params nid with Some e => hex2bn (ep_x e) 0 | None => 0 end.
Definition nid_y (nid : curve_nid) : Z := match gost_nid2params nid with Some e => hex2bn (ep_y e) 0 | None => 0 end.
