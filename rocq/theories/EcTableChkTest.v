(** The checks of the tables of file Test (EcTableCheck.v), with the witnesses of EcWitTest.v. *)
From Coq Require Import ZArith List Bool Uint63.
From Verif Require Import IntPoly EcLadderModel EcTableCheck EcTableModel EcTableProofs EcWitTest.
Import ListNotations.

Definition al_Test : list int := [0x3ffc983;0x3ffffff;0x3ffffff;0x3ffffff;0x3ffffff;0x3ffffff;0x3ffffff;0x3ffffff;0x3ffffff;0x1fffff]%uint63.
Lemma table_Test_64 : cols ipt wit (w_add_ok (fdat F_Test)) (w_dbl_ok (fdat F_Test) al_Test) 2 (wtab true F_Test) wit_Test_64 = true.
Proof. vm_cast_no_check (@eq_refl bool true). Qed.
Lemma table_Test_32 : cols ipt wit (w_add_ok (fdat F_Test)) (w_dbl_ok (fdat F_Test) al_Test) 2 (wtab false F_Test) wit_Test_64 = true.
Proof. vm_cast_no_check (@eq_refl bool true). Qed.
Lemma lens_Test_64 : lens true F_Test = true.
Proof. vm_cast_no_check (@eq_refl bool true). Qed.
Lemma lens_Test_32 : lens false F_Test = true.
Proof. vm_cast_no_check (@eq_refl bool true). Qed.
