(** The checks of the tables of file 512A (EcTableCheck.v), with the witnesses of EcWit512A.v. *)
From Coq Require Import ZArith List Bool Uint63.
From Verif Require Import IntPoly EcLadderModel EcTableCheck EcTableModel EcTableProofs EcWit512A EcWit512An.
Import ListNotations.

Definition al_512A : list int := [0x3fffdc4;0x3ffffff;0x3ffffff;0x3ffffff;0x3ffffff;0x3ffffff;0x3ffffff;0x3ffffff;0x3ffffff;0x3ffffff;0x3ffffff;0x3ffffff;0x3ffffff;0x3ffffff;0x3ffffff;0x3ffffff;0x3ffffff;0x3ffffff;0x3ffffff;0x3ffff]%uint63.
Lemma table_512A_64 : cols ipt wit (w_add_ok (fdat F_512A)) (w_dbl_ok (fdat F_512A) al_512A) 10 (wtab true F_512A) wit_512A_64 = true.
Proof. vm_cast_no_check (@eq_refl bool true). Qed.
Lemma table_512A_32 : cols ipt wit (w_add_ok (fdat F_512A)) (w_dbl_ok (fdat F_512A) al_512A) 11 (wtab false F_512A) wit_512A_32 = true.
Proof. vm_cast_no_check (@eq_refl bool true). Qed.
Lemma lens_512A_64 : lens true F_512A = true.
Proof. vm_cast_no_check (@eq_refl bool true). Qed.
Lemma lens_512A_32 : lens false F_512A = true.
Proof. vm_cast_no_check (@eq_refl bool true). Qed.
