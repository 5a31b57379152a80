(** The checks of the tables of file C (EcTableCheck.v), with the witnesses of EcWitC.v. *)
From Coq Require Import ZArith List Bool Uint63.
From Verif Require Import IntPoly EcLadderModel EcTableCheck EcTableModel EcTableProofs EcWitC.
Import ListNotations.

Definition al_C : list int := [0x2e34c07;0x335a742;0x19215ff;0x2816b46;0x20d9628;0x2123ad5;0x19e9d81;0x214995e;0x1dcc49b;0x28738]%uint63.
Lemma table_C_64 : cols ipt wit (w_add_ok (fdat F_C)) (w_dbl_ok (fdat F_C) al_C) 2 (wtab true F_C) wit_C_64 = true.
Proof. vm_cast_no_check (@eq_refl bool true). Qed.
Lemma table_C_32 : cols ipt wit (w_add_ok (fdat F_C)) (w_dbl_ok (fdat F_C) al_C) 2 (wtab false F_C) wit_C_64 = true.
Proof. vm_cast_no_check (@eq_refl bool true). Qed.
Lemma lens_C_64 : lens true F_C = true.
Proof. vm_cast_no_check (@eq_refl bool true). Qed.
Lemma lens_C_32 : lens false F_C = true.
Proof. vm_cast_no_check (@eq_refl bool true). Qed.
