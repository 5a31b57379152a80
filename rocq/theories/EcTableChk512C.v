(** The checks of the tables of file 512C (EcTableCheck.v), with the witnesses of EcWit512C.v. *)
From Coq Require Import ZArith List Bool Uint63.
From Verif Require Import IntPoly EcLadderModel EcTableCheck EcTableModel EcTableProofs EcWit512C EcWit512Cn.
Import ListNotations.

Definition dl_512C : list int := [0x3ee7550;0xb6ecc;0x22b4ca3;0x30af0a8;0x291a0cf;0x1e78da7;0x22ce43e;0x1acc13;0x20a515c;0x329ace7;0x1050439;0xa28188;0x231ebde;0x3550663;0xdab402;0x37d6ff9;0x3a5cf3c;0x36367c4;0x1d8c017;0x2793d]%uint63.
Definition ol_512C : list int := [0x1;0x0;0x0;0x0;0x0;0x0;0x0;0x0;0x0;0x0;0x0;0x0;0x0;0x0;0x0;0x0;0x0;0x0;0x0;0x0]%uint63.
Lemma table_512C_64 : cols ept wit (e_add_ok (fdat F_512C) dl_512C ol_512C) (fun P S w => e_add_ok (fdat F_512C) dl_512C ol_512C P P S w) 15 (etab true F_512C) wit_512C_64 = true.
Proof. vm_cast_no_check (@eq_refl bool true). Qed.
Lemma table_512C_32 : cols ept wit (e_add_ok (fdat F_512C) dl_512C ol_512C) (fun P S w => e_add_ok (fdat F_512C) dl_512C ol_512C P P S w) 18 (etab false F_512C) wit_512C_32 = true.
Proof. vm_cast_no_check (@eq_refl bool true). Qed.
Lemma lens_512C_64 : lens true F_512C = true.
Proof. vm_cast_no_check (@eq_refl bool true). Qed.
Lemma lens_512C_32 : lens false F_512C = true.
Proof. vm_cast_no_check (@eq_refl bool true). Qed.
