(** The checks of the tables of file 256A (EcTableCheck.v), with the witnesses of EcWit256A.v. *)
From Coq Require Import ZArith List Bool Uint63.
From Verif Require Import IntPoly EcLadderModel EcTableCheck EcTableModel EcTableProofs EcWit256A.
Import ListNotations.

Definition dl_256A : list int := [0x1c7bffb;0xb0cb5b;0x1af7e52;0xa25c02;0x32b9df6;0x2b54604;0xbc39cf;0x3ea055e;0x2b7c183;0x1817d]%uint63.
Definition ol_256A : list int := [0x1;0x0;0x0;0x0;0x0;0x0;0x0;0x0;0x0;0x0]%uint63.
Lemma table_256A_64 : cols ept wit (e_add_ok (fdat F_256A) dl_256A ol_256A) (fun P S w => e_add_ok (fdat F_256A) dl_256A ol_256A P P S w) 4 (etab true F_256A) wit_256A_64 = true.
Proof. vm_cast_no_check (@eq_refl bool true). Qed.
Lemma table_256A_32 : cols ept wit (e_add_ok (fdat F_256A) dl_256A ol_256A) (fun P S w => e_add_ok (fdat F_256A) dl_256A ol_256A P P S w) 4 (etab false F_256A) wit_256A_64 = true.
Proof. vm_cast_no_check (@eq_refl bool true). Qed.
Lemma lens_256A_64 : lens true F_256A = true.
Proof. vm_cast_no_check (@eq_refl bool true). Qed.
Lemma lens_256A_32 : lens false F_256A = true.
Proof. vm_cast_no_check (@eq_refl bool true). Qed.
