(** Model of the field inversions of the generated files ecp_id_*.c, functions fiat_*_inv: a fixed sequence of
    squarings and multiplications (extracted from the sources; the 64-bit and 32-bit halves have the same one).
    A call inside [for (i = 0; i < n; i++)] carries the count n, any other the count 1.
    As in EcFormulaModel.v, an fe_t is the field element it stands for. *)
From Coq Require Import NArith List Bool.
From Verif Require Import EcLadderModel.
Import ListNotations.

Inductive ireg := IAcc | IT (n : N) | IOut.
Definition ireg_eqb (a b : ireg) : bool :=
  match a, b with IAcc, IAcc | IOut, IOut => true | IT n, IT m => N.eqb n m | _, _ => false end.
Inductive iinstr := ISq (d a : ireg) | IMul (d a b : ireg).

(** ecp_id_GostR3410_2001_CryptoPro_A_ParamSet.c:1125-1180 and 5456-5511 *)
Definition chain_A : list (nat * iinstr) := [
    (1, ISq IAcc (IT 1)); (1, IMul (IT 2) IAcc (IT 1)); (1, ISq IAcc (IT 2)); (1, ISq IAcc IAcc);
    (1, IMul (IT 4) IAcc (IT 2)); (1, ISq IAcc (IT 4)); (3, ISq IAcc IAcc); (1, IMul (IT 8) IAcc (IT 4));
    (1, ISq IAcc (IT 8)); (7, ISq IAcc IAcc); (1, IMul (IT 16) IAcc (IT 8)); (1, ISq IAcc (IT 16));
    (15, ISq IAcc IAcc); (1, IMul (IT 32) IAcc (IT 16)); (1, ISq IAcc (IT 32)); (31, ISq IAcc IAcc);
    (1, IMul (IT 64) IAcc (IT 32)); (1, ISq IAcc (IT 64)); (15, ISq IAcc IAcc);
    (1, IMul (IT 80) IAcc (IT 16)); (1, ISq IAcc (IT 80)); (1, ISq IAcc IAcc); (1, IMul (IT 82) IAcc (IT 2));
    (1, ISq IAcc (IT 82)); (81, ISq IAcc IAcc); (1, IMul (IT 164) IAcc (IT 82)); (1, ISq IAcc (IT 164));
    (81, ISq IAcc IAcc); (1, IMul (IT 246) IAcc (IT 82)); (1, ISq IAcc (IT 246)); (2, ISq IAcc IAcc);
    (1, IMul IAcc IAcc (IT 2)); (3, ISq IAcc IAcc); (1, IMul IAcc IAcc (IT 1)); (2, ISq IAcc IAcc);
    (1, IMul IAcc IAcc (IT 1)); (2, ISq IAcc IAcc); (1, IMul IOut IAcc (IT 1)) ].
(** ecp_id_GostR3410_2001_CryptoPro_B_ParamSet.c:1900-1919 and 8548-8567 *)
Definition chain_B : list (nat * iinstr) := [
    (1, ISq IAcc (IT 1)); (1, IMul (IT 25) (IT 1) IAcc); (9, IMul (IT 25) (IT 25) IAcc);
    (1, IMul (IT 23) (IT 25) IAcc); (1, IMul (IT 25) (IT 23) IAcc); (1, ISq IAcc (IT 1));
    (247, ISq IAcc IAcc); (1, IMul IAcc IAcc (IT 25)); (7, ISq IAcc IAcc); (1, IMul IOut IAcc (IT 23)) ].
(** ecp_id_GostR3410_2001_CryptoPro_C_ParamSet.c:2424-2577 and 11967-12120 *)
Definition chain_C : list (nat * iinstr) := [
    (1, ISq IAcc (IT 1)); (1, IMul (IT 3) (IT 1) IAcc); (1, IMul (IT 5) (IT 3) IAcc);
    (1, IMul (IT 7) (IT 5) IAcc); (1, IMul (IT 9) (IT 7) IAcc); (1, IMul (IT 11) (IT 9) IAcc);
    (1, IMul (IT 13) (IT 11) IAcc); (1, IMul (IT 15) (IT 13) IAcc); (1, IMul (IT 17) (IT 15) IAcc);
    (1, IMul (IT 19) (IT 17) IAcc); (1, IMul (IT 21) (IT 19) IAcc); (1, IMul (IT 23) (IT 21) IAcc);
    (1, IMul (IT 25) (IT 23) IAcc); (1, IMul (IT 27) (IT 25) IAcc); (1, IMul (IT 29) (IT 27) IAcc);
    (1, IMul (IT 31) (IT 29) IAcc); (1, ISq IAcc (IT 9)); (4, ISq IAcc IAcc); (1, IMul IAcc IAcc (IT 23));
    (5, ISq IAcc IAcc); (1, IMul IAcc IAcc (IT 7)); (5, ISq IAcc IAcc); (1, IMul IAcc IAcc (IT 27));
    (7, ISq IAcc IAcc); (1, IMul IAcc IAcc (IT 1)); (5, ISq IAcc IAcc); (1, IMul IAcc IAcc (IT 15));
    (5, ISq IAcc IAcc); (1, IMul IAcc IAcc (IT 21)); (5, ISq IAcc IAcc); (1, IMul IAcc IAcc (IT 21));
    (8, ISq IAcc IAcc); (1, IMul IAcc IAcc (IT 11)); (7, ISq IAcc IAcc); (1, IMul IAcc IAcc (IT 1));
    (6, ISq IAcc IAcc); (1, IMul IAcc IAcc (IT 1)); (5, ISq IAcc IAcc); (1, IMul IAcc IAcc (IT 29));
    (5, ISq IAcc IAcc); (1, IMul IAcc IAcc (IT 11)); (7, ISq IAcc IAcc); (1, IMul IAcc IAcc (IT 15));
    (6, ISq IAcc IAcc); (1, IMul IAcc IAcc (IT 25)); (5, ISq IAcc IAcc); (1, IMul IAcc IAcc (IT 1));
    (5, ISq IAcc IAcc); (1, IMul IAcc IAcc (IT 15)); (6, ISq IAcc IAcc); (1, IMul IAcc IAcc (IT 13));
    (5, ISq IAcc IAcc); (1, IMul IAcc IAcc (IT 13)); (6, ISq IAcc IAcc); (1, IMul IAcc IAcc (IT 1));
    (5, ISq IAcc IAcc); (1, IMul IAcc IAcc (IT 25)); (8, ISq IAcc IAcc); (1, IMul IAcc IAcc (IT 21));
    (5, ISq IAcc IAcc); (1, IMul IAcc IAcc (IT 11)); (7, ISq IAcc IAcc); (1, IMul IAcc IAcc (IT 31));
    (5, ISq IAcc IAcc); (1, IMul IAcc IAcc (IT 1)); (5, ISq IAcc IAcc); (1, IMul IAcc IAcc (IT 3));
    (6, ISq IAcc IAcc); (1, IMul IAcc IAcc (IT 29)); (6, ISq IAcc IAcc); (1, IMul IAcc IAcc (IT 3));
    (6, ISq IAcc IAcc); (1, IMul IAcc IAcc (IT 15)); (7, ISq IAcc IAcc); (1, IMul IAcc IAcc (IT 9));
    (8, ISq IAcc IAcc); (1, IMul IAcc IAcc (IT 5)); (6, ISq IAcc IAcc); (1, IMul IAcc IAcc (IT 7));
    (6, ISq IAcc IAcc); (1, IMul IAcc IAcc (IT 19)); (5, ISq IAcc IAcc); (1, IMul IAcc IAcc (IT 15));
    (7, ISq IAcc IAcc); (1, IMul IAcc IAcc (IT 25)); (5, ISq IAcc IAcc); (1, IMul IAcc IAcc (IT 17));
    (5, ISq IAcc IAcc); (1, IMul IAcc IAcc (IT 29)); (5, ISq IAcc IAcc); (1, IMul IAcc IAcc (IT 29));
    (5, ISq IAcc IAcc); (1, IMul IAcc IAcc (IT 25)); (7, ISq IAcc IAcc); (1, IMul IAcc IAcc (IT 1));
    (7, ISq IAcc IAcc); (1, IMul IAcc IAcc (IT 11)); (6, ISq IAcc IAcc); (1, IMul IAcc IAcc (IT 23));
    (5, ISq IAcc IAcc); (1, IMul IAcc IAcc (IT 11)); (7, ISq IAcc IAcc); (1, IMul IOut IAcc (IT 25)) ].
(** ecp_id_GostR3410_2001_TestParamSet.c:1835-1855 and 8296-8316 *)
Definition chain_Test : list (nat * iinstr) := [
    (1, ISq IAcc (IT 1)); (1, IMul (IT 15) (IT 1) IAcc); (6, IMul (IT 15) (IT 15) IAcc); (1, ISq IAcc (IT 1));
    (244, ISq IAcc IAcc); (1, IMul IAcc IAcc (IT 1)); (5, ISq IAcc IAcc); (1, IMul IAcc IAcc (IT 1));
    (5, ISq IAcc IAcc); (1, IMul IOut IAcc (IT 15)) ].
(** ecp_id_tc26_gost_3410_2012_256_paramSetA.c:1124-1179 and 5658-5713 *)
Definition chain_256A : list (nat * iinstr) := [
    (1, ISq IAcc (IT 1)); (1, IMul (IT 2) IAcc (IT 1)); (1, ISq IAcc (IT 2)); (1, ISq IAcc IAcc);
    (1, IMul (IT 4) IAcc (IT 2)); (1, ISq IAcc (IT 4)); (3, ISq IAcc IAcc); (1, IMul (IT 8) IAcc (IT 4));
    (1, ISq IAcc (IT 8)); (7, ISq IAcc IAcc); (1, IMul (IT 16) IAcc (IT 8)); (1, ISq IAcc (IT 16));
    (15, ISq IAcc IAcc); (1, IMul (IT 32) IAcc (IT 16)); (1, ISq IAcc (IT 32)); (31, ISq IAcc IAcc);
    (1, IMul (IT 64) IAcc (IT 32)); (1, ISq IAcc (IT 64)); (15, ISq IAcc IAcc);
    (1, IMul (IT 80) IAcc (IT 16)); (1, ISq IAcc (IT 80)); (1, ISq IAcc IAcc); (1, IMul (IT 82) IAcc (IT 2));
    (1, ISq IAcc (IT 82)); (81, ISq IAcc IAcc); (1, IMul (IT 164) IAcc (IT 82)); (1, ISq IAcc (IT 164));
    (81, ISq IAcc IAcc); (1, IMul (IT 246) IAcc (IT 82)); (1, ISq IAcc (IT 246)); (2, ISq IAcc IAcc);
    (1, IMul IAcc IAcc (IT 2)); (3, ISq IAcc IAcc); (1, IMul IAcc IAcc (IT 1)); (2, ISq IAcc IAcc);
    (1, IMul IAcc IAcc (IT 1)); (2, ISq IAcc IAcc); (1, IMul IOut IAcc (IT 1)) ].
(** ecp_id_tc26_gost_3410_2012_512_paramSetA.c:2064-2123 and 9198-9257 *)
Definition chain_512A : list (nat * iinstr) := [
    (1, ISq IAcc (IT 1)); (1, IMul (IT 2) IAcc (IT 1)); (1, ISq IAcc (IT 2)); (1, IMul (IT 3) IAcc (IT 1));
    (1, ISq IAcc (IT 3)); (2, ISq IAcc IAcc); (1, IMul (IT 6) IAcc (IT 3)); (1, ISq IAcc (IT 6));
    (5, ISq IAcc IAcc); (1, IMul (IT 12) IAcc (IT 6)); (1, ISq IAcc (IT 12)); (11, ISq IAcc IAcc);
    (1, IMul (IT 24) IAcc (IT 12)); (1, ISq IAcc (IT 24)); (23, ISq IAcc IAcc);
    (1, IMul (IT 48) IAcc (IT 24)); (1, ISq IAcc (IT 48)); (47, ISq IAcc IAcc);
    (1, IMul (IT 96) IAcc (IT 48)); (1, ISq IAcc (IT 96)); (5, ISq IAcc IAcc); (1, IMul (IT 102) IAcc (IT 6));
    (1, ISq IAcc (IT 102)); (95, ISq IAcc IAcc); (1, IMul (IT 198) IAcc (IT 96)); (1, ISq IAcc (IT 198));
    (1, ISq IAcc IAcc); (1, IMul (IT 200) IAcc (IT 2)); (1, ISq IAcc (IT 200)); (199, ISq IAcc IAcc);
    (1, IMul (IT 400) IAcc (IT 200)); (1, ISq IAcc (IT 400)); (101, ISq IAcc IAcc);
    (1, IMul (IT 502) IAcc (IT 102)); (1, ISq IAcc (IT 502)); (3, ISq IAcc IAcc); (1, IMul IAcc IAcc (IT 3));
    (4, ISq IAcc IAcc); (1, IMul IAcc IAcc (IT 1)); (2, ISq IAcc IAcc); (1, IMul IOut IAcc (IT 1)) ].
(** ecp_id_tc26_gost_3410_2012_512_paramSetB.c:4457-4475 and 19041-19059 *)
Definition chain_512B : list (nat * iinstr) := [
    (1, ISq IAcc (IT 1)); (1, IMul (IT 3) (IT 1) IAcc); (1, IMul (IT 13) (IT 3) IAcc);
    (4, IMul (IT 13) (IT 13) IAcc); (1, ISq IAcc (IT 1)); (505, ISq IAcc IAcc); (1, IMul IAcc IAcc (IT 3));
    (5, ISq IAcc IAcc); (1, IMul IOut IAcc (IT 13)) ].
(** ecp_id_tc26_gost_3410_2012_512_paramSetC.c:2066-2125 and 9218-9277 *)
Definition chain_512C : list (nat * iinstr) := [
    (1, ISq IAcc (IT 1)); (1, IMul (IT 2) IAcc (IT 1)); (1, ISq IAcc (IT 2)); (1, IMul (IT 3) IAcc (IT 1));
    (1, ISq IAcc (IT 3)); (2, ISq IAcc IAcc); (1, IMul (IT 6) IAcc (IT 3)); (1, ISq IAcc (IT 6));
    (5, ISq IAcc IAcc); (1, IMul (IT 12) IAcc (IT 6)); (1, ISq IAcc (IT 12)); (11, ISq IAcc IAcc);
    (1, IMul (IT 24) IAcc (IT 12)); (1, ISq IAcc (IT 24)); (23, ISq IAcc IAcc);
    (1, IMul (IT 48) IAcc (IT 24)); (1, ISq IAcc (IT 48)); (47, ISq IAcc IAcc);
    (1, IMul (IT 96) IAcc (IT 48)); (1, ISq IAcc (IT 96)); (5, ISq IAcc IAcc); (1, IMul (IT 102) IAcc (IT 6));
    (1, ISq IAcc (IT 102)); (95, ISq IAcc IAcc); (1, IMul (IT 198) IAcc (IT 96)); (1, ISq IAcc (IT 198));
    (1, ISq IAcc IAcc); (1, IMul (IT 200) IAcc (IT 2)); (1, ISq IAcc (IT 200)); (199, ISq IAcc IAcc);
    (1, IMul (IT 400) IAcc (IT 200)); (1, ISq IAcc (IT 400)); (101, ISq IAcc IAcc);
    (1, IMul (IT 502) IAcc (IT 102)); (1, ISq IAcc (IT 502)); (3, ISq IAcc IAcc); (1, IMul IAcc IAcc (IT 3));
    (4, ISq IAcc IAcc); (1, IMul IAcc IAcc (IT 1)); (2, ISq IAcc IAcc); (1, IMul IOut IAcc (IT 1)) ].

Definition chain (f : ecp_file) : list (nat * iinstr) :=
  match f with
  | F_A => chain_A | F_B => chain_B | F_C => chain_C | F_Test => chain_Test | F_256A => chain_256A
  | F_512A => chain_512A | F_512B => chain_512B | F_512C => chain_512C
  end.

(** Running a chain over any values with a multiplication. *)
Section Run.
Context {A : Type}.
Variable mul : A -> A -> A.
Definition imem := ireg -> A.
Definition iset (m : imem) (d : ireg) (v : A) : imem := fun r => if ireg_eqb d r then v else m r.
Definition istep (m : imem) (i : iinstr) : imem :=
  match i with
  | ISq d a => iset m d (mul (m a) (m a))
  | IMul d a b => iset m d (mul (m a) (m b))
  end.
Fixpoint irep (n : nat) (m : imem) (i : iinstr) : imem :=
  match n with O => m | S n' => irep n' (istep m i) i end.
Definition irun (c : list (nat * iinstr)) (m : imem) : imem :=
  fold_left (fun m ni => irep (fst ni) m (snd ni)) c m.
End Run.

(** fiat_*_inv(output, t1): [junk] is what the temporaries hold on entry. *)
Definition fe_inv {A} (mul : A -> A -> A) (f : ecp_file) (junk : ireg -> A) (x : A) : A :=
  irun mul (chain f) (iset junk (IT 1) x) IOut.
