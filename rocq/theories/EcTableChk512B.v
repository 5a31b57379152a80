(** The checks of the tables of file 512B (EcTableCheck.v), with the witnesses of EcWit512B.v. *)
From Coq Require Import ZArith List Bool Uint63.
From Verif Require Import IntPoly EcLadderModel EcTableCheck EcTableModel EcTableProofs EcWit512B.
Import ListNotations.

Definition al_512B : list int := [0x29a;0x0;0x0;0x0;0x0;0x0;0x0;0x0;0x0;0x0;0x0;0x0;0x0;0x0;0x0;0x0;0x0;0x0;0x0;0x0]%uint63.
Lemma table_512B_64 : cols ipt wit (w_add_ok (fdat F_512B)) (w_dbl_ok (fdat F_512B) al_512B) 8 (wtab true F_512B) wit_512B_64 = true.
Proof. vm_cast_no_check (@eq_refl bool true). Qed.
Lemma table_512B_32 : cols ipt wit (w_add_ok (fdat F_512B)) (w_dbl_ok (fdat F_512B) al_512B) 8 (wtab false F_512B) wit_512B_64 = true.
Proof. vm_cast_no_check (@eq_refl bool true). Qed.
Lemma lens_512B_64 : lens true F_512B = true.
Proof. vm_cast_no_check (@eq_refl bool true). Qed.
Lemma lens_512B_32 : lens false F_512B = true.
Proof. vm_cast_no_check (@eq_refl bool true). Qed.
