(** The checks of the tables of file B (EcTableCheck.v), with the witnesses of EcWitB.v. *)
From Coq Require Import ZArith List Bool Uint63.
From Verif Require Import IntPoly EcLadderModel EcTableCheck EcTableModel EcTableProofs EcWitB.
Import ListNotations.

Definition al_B : list int := [0x4b96;0x0;0x0;0x0;0x0;0x0;0x0;0x0;0x0;0x0]%uint63.
Lemma table_B_64 : cols ipt wit (w_add_ok (fdat F_B)) (w_dbl_ok (fdat F_B) al_B) 2 (wtab true F_B) wit_B_64 = true.
Proof. vm_cast_no_check (@eq_refl bool true). Qed.
Lemma table_B_32 : cols ipt wit (w_add_ok (fdat F_B)) (w_dbl_ok (fdat F_B) al_B) 2 (wtab false F_B) wit_B_64 = true.
Proof. vm_cast_no_check (@eq_refl bool true). Qed.
Lemma lens_B_64 : lens true F_B = true.
Proof. vm_cast_no_check (@eq_refl bool true). Qed.
Lemma lens_B_32 : lens false F_B = true.
Proof. vm_cast_no_check (@eq_refl bool true). Qed.
