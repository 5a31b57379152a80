(** The checks of the tables of file A (EcTableCheck.v), with the witnesses of EcWitA.v. *)
From Coq Require Import ZArith List Bool Uint63.
From Verif Require Import IntPoly EcLadderModel EcTableCheck EcTableModel EcTableProofs EcWitA.
Import ListNotations.

Definition al_A : list int := [0x3fffd94;0x3ffffff;0x3ffffff;0x3ffffff;0x3ffffff;0x3ffffff;0x3ffffff;0x3ffffff;0x3ffffff;0x3fffff]%uint63.
Lemma table_A_64 : cols ipt wit (w_add_ok (fdat F_A)) (w_dbl_ok (fdat F_A) al_A) 3 (wtab true F_A) wit_A_64 = true.
Proof. vm_cast_no_check (@eq_refl bool true). Qed.
Lemma table_A_32 : cols ipt wit (w_add_ok (fdat F_A)) (w_dbl_ok (fdat F_A) al_A) 3 (wtab false F_A) wit_A_64 = true.
Proof. vm_cast_no_check (@eq_refl bool true). Qed.
Lemma lens_A_64 : lens true F_A = true.
Proof. vm_cast_no_check (@eq_refl bool true). Qed.
Lemma lens_A_32 : lens false F_A = true.
Proof. vm_cast_no_check (@eq_refl bool true). Qed.
