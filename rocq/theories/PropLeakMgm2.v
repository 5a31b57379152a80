(** Property C62 continued: the transcriptions of the field multiplications compute what the model of MGM computes. *)
From Coq Require Import String List ZArith NArith Bool Lia.
From Verif Require Import Bytes BytesProofs BlockLoop EcLadderModel MgmModel LeakModel LeakProofs LeakRefine LeakRefine3 LeakMgm PropLeak PropLeakMgm.
Import ListNotations.
Local Open Scope list_scope.
Local Open Scope Z_scope.

(** A projection by equality and not by conversion, which would run the loops. *)
Lemma snd_pair {A B} (p : A * B) x y : p = (x, y) -> snd p = y. Proof. intros ->. reflexivity. Qed.
Lemma z_shr1 t : Z.of_N (N.shiftr t 1) = Z.shiftr (Z.of_N t) 1. Proof. destruct t as [|[p|p|]]; reflexivity. Qed.
Lemma z_bit0 t : N.testbit t 0 = Z.odd (Z.of_N t). Proof. destruct t as [|[p|p|]]; reflexivity. Qed.
Lemma z_lxor a b : Z.of_N (N.lxor a b) = Z.lxor (Z.of_N a) (Z.of_N b). Proof. destruct a, b; reflexivity. Qed.
Lemma z_land a b : Z.of_N (N.land a b) = Z.land (Z.of_N a) (Z.of_N b). Proof. destruct a, b; reflexivity. Qed.
Lemma z_shl1 x : Z.of_N (w64 (N.shiftl x 1)) = (2 * Z.of_N x) mod 2 ^ 64.
Proof. unfold w64. rewrite z_land. rewrite <- shl1. f_equal. destruct x; reflexivity. Qed.
Lemma z_shr63 x : Z.of_N (N.shiftr x 63) = Z.shiftr (Z.of_N x) 63.
Proof. rewrite N.shiftr_div_pow2, Z.shiftr_div_pow2 by lia. rewrite N2Z.inj_div, N2Z.inj_pow. reflexivity. Qed.
Lemma z_top x : 0 <= Z.of_N x < 2 ^ 64 -> negb (N.land x 0x8000000000000000 =? 0)%N = Z.testbit (Z.of_N x) 63.
Proof.
  intros H. pose proof (land_top 64 (Z.of_N x) eq_refl H) as T. change (64 - 1) with 63 in T. change (2 ^ 63) with (Z.of_N 0x8000000000000000) in T. rewrite <- z_land in T.
  destruct (Z.testbit (Z.of_N x) 63); [apply N2Z.inj in T; rewrite T; reflexivity|]. replace (N.land x 0x8000000000000000) with 0%N by lia. reflexivity.
Qed.
Lemma ld64_range le b : bytes b -> List.length b = 8%nat -> 0 <= Z.of_N (ld64 le b) < 2 ^ 64.
Proof.
  intros B L. split; [lia|]. assert (H : (ld64 le b < 256 ^ 8)%N).
  { unfold ld64, bswap64. destruct le.
    - unfold be2n. pose proof (le2n_lt (rev (n2le 8 (le2n b)))) as H. rewrite rev_length, n2le_length in H. apply H. apply Forall_rev. apply n2le_bytes.
    - unfold be2n. pose proof (le2n_lt (rev b)) as H. rewrite rev_length, L in H. apply H. apply Forall_rev. exact B. }
  change (2 ^ 64) with (Z.of_N (256 ^ 8)). lia.
Qed.

Lemma loop64 C l : forall (st : store C) t x r, range64 C st -> vars st "t"%string = Z.of_N t -> vars st "X0"%string = Z.of_N x -> vars st "Z0"%string = Z.of_N r ->
  let st' := snd (turns C "i" gf64_body l st) in let '(t', x', r') := Nat.iter (List.length l) gf64_step (t, x, r) in
  vars st' "t"%string = Z.of_N t' /\ vars st' "X0"%string = Z.of_N x' /\ vars st' "Z0"%string = Z.of_N r' /\ range64 C st'.
Proof.
  induction l as [|v l IH]; intros st t x r R Et Ex Er; cbv zeta; [cbn; auto|].
  change (snd (turns C "i" gf64_body (v :: l) st)) with (snd (turns C "i" gf64_body l (snd (exec C gf64_body (set_var C st "i" v))))).
  pose proof (body64 C st v R) as G. cbv zeta in G. set (s1 := snd (exec C gf64_body (set_var C st "i" v))) in *. clearbody s1. destruct G as (_ & G2 & G3 & G4 & _ & G6).
  cbn [List.length]. rewrite <- iter_in.
  unfold range64 in R. rewrite Ex in R, G2, G4. rewrite Et in G3, G4. rewrite Er in G4.
  assert (S : gf64_step (t, x, r) = (N.shiftr t 1, (if Z.testbit (Z.of_N x) 63 then N.lxor (w64 (N.shiftl x 1)) 0x1b else w64 (N.shiftl x 1)), (if Z.odd (Z.of_N t) then N.lxor r x else r))).
  { unfold gf64_step. rewrite z_top by exact R. rewrite z_bit0. reflexivity. }
  rewrite S. clear S. apply (IH s1 _ _ _ G6).
  - rewrite G3, z_shr1. reflexivity.
  - rewrite G2. unfold xtime. change (64 - 1) with 63. rewrite <- z_shl1. destruct (Z.testbit (Z.of_N x) 63); [rewrite z_lxor; reflexivity|rewrite Z.lxor_0_r; reflexivity].
  - rewrite G4. destruct (Z.odd (Z.of_N t)); [rewrite z_lxor; reflexivity|reflexivity].
Qed.
Lemma end64_result C (st : store C) t x r : vars st "t"%string = Z.of_N t -> vars st "X0"%string = Z.of_N x -> vars st "Z0"%string = Z.of_N r ->
  arrs (snd (exec C end64 st)) "result"%string 0 = Z.of_N (if N.testbit t 0 then N.lxor r x else r).
Proof.
  intros Et Ex Er. unfold end64. rewrite z_bit0, <- Et. cbn [exec eval bin]. rewrite land1.
  destruct (Z.odd (vars st "t"%string)); cbn [Z.b2z Z.eqb exec eval bin snd fst vars arrs set_var set_arr String.eqb Ascii.eqb Bool.eqb andb]; [rewrite z_lxor, Ex, Er; reflexivity|exact Er].
Qed.
Lemma core64 C le n l (st : store C) t x r : List.length l = n -> range64 C st -> vars st "t"%string = Z.of_N t -> vars st "X0"%string = Z.of_N x -> vars st "Z0"%string = Z.of_N r ->
  exists w, arrs (snd (exec C end64 (snd (turns C "i" gf64_body l st)))) "result"%string 0 = Z.of_N w /\
    (let '(t, X0, R0) := Nat.iter n gf64_step (t, x, r) in let R0 := if N.testbit t 0 then N.lxor R0 X0 else R0 in st64 le R0) = st64 le w.
Proof.
  intros N R Et Ex Er. pose proof (loop64 C l st t x r R Et Ex Er) as L. cbv zeta in L. rewrite N in L.
  set (u := snd (turns C "i" gf64_body l st)) in *. clearbody u.
  destruct (Nat.iter n gf64_step (t, x, r)) as [[t' x'] r']. destruct L as (L1 & L2 & L3 & _).
  exists (if N.testbit t' 0 then N.lxor r' x' else r'). split; [exact (end64_result C u t' x' r' L1 L2 L3)|reflexivity].
Qed.
(** Operands of eight bytes, in either byte order of the machine. *)
Theorem C62_magma_mgm_multiplication_computes :
  forall C le a b, bytes a -> bytes b -> List.length a = 8%nat -> List.length b = 8%nat -> exists w,
    arrs (snd (exec C gf64_prog (mul_store C [Z.of_N (ld64 le a)] [Z.of_N (ld64 le b)]))) "result"%string 0 = Z.of_N w /\ gf64_mul le a b = st64 le w.
Proof.
  intros C le a b Ba Bb La Lb. pose proof (ld64_range le a Ba La) as R. unfold gf64_mul.
  set (h := ld64 le a) in *. set (d := ld64 le b) in *. clearbody h d.
  rewrite (snd_pair _ _ _ (gf64_run C (Z.of_N h) (Z.of_N d))).
  assert (K : range64 C (start64 C (Z.of_N h) (Z.of_N d))) by (exact R).
  assert (Et : vars (start64 C (Z.of_N h) (Z.of_N d)) "t"%string = Z.of_N d) by reflexivity.
  assert (Ex : vars (start64 C (Z.of_N h) (Z.of_N d)) "X0"%string = Z.of_N h) by reflexivity.
  assert (Er : vars (start64 C (Z.of_N h) (Z.of_N d)) "Z0"%string = Z.of_N 0) by reflexivity.
  generalize dependent (start64 C (Z.of_N h) (Z.of_N d)). intros st K Et Ex Er.
  assert (N : List.length (zrange 0 63) = 63%nat) by reflexivity. generalize dependent (zrange 0 63). intros l N.
  exact (core64 C le 63 l st d h 0%N N K Et Ex Er).
Qed.
Print Assumptions C62_magma_mgm_multiplication_computes.

Definition rel128 {C} (st : store C) (s : N * N * N * N * N) : Prop :=
  let '(t, x0, x1, r0, r1) := s in
  vars st "t"%string = Z.of_N t /\ vars st "X0"%string = Z.of_N x0 /\ vars st "X1"%string = Z.of_N x1 /\ vars st "Z0"%string = Z.of_N r0 /\ vars st "Z1"%string = Z.of_N r1.
Lemma loop128 C l : forall (st : store C) s, ok128 st -> rel128 st s ->
  rel128 (snd (turns C "i" gf128_body l st)) (Nat.iter (List.length l) gf128_step s) /\ ok128 (snd (turns C "i" gf128_body l st)) /\ arrs (snd (turns C "i" gf128_body l st)) = arrs st.
Proof.
  induction l as [|v l IH]; intros st s R K; [cbn; auto|].
  change (snd (turns C "i" gf128_body (v :: l) st)) with (snd (turns C "i" gf128_body l (snd (exec C gf128_body (set_var C st "i" v))))).
  pose proof (body128 C st v R) as G. cbv zeta in G. set (r := exec C gf128_body (set_var C st "i" v)) in *. destruct G as (_ & G2 & G3 & G4 & G5 & G6 & G7 & G8). set (s1 := snd r) in *. clearbody s1. clear r.
  cbn [List.length]. rewrite <- iter_in. rewrite <- G7. apply IH; [exact G8|]. clear IH G7 G8.
  destruct s as [[[[t x0] x1] r0] r1]. cbn [rel128] in K. destruct K as (K1 & K2 & K3 & K4 & K5). destruct R as [R1 R0]. rewrite K3 in R1. rewrite K2 in R0.
  rewrite ?K1, ?K2, ?K3, ?K4, ?K5 in *. unfold gf128_step. rewrite z_bit0, z_top by exact R1. cbv zeta.
  destruct (Z.odd (Z.of_N t)), (Z.testbit (Z.of_N x1) 63); cbn [rel128]; rewrite G2, G3, G4, G5, G6, ?z_lxor, ?z_shl1, ?z_shr63, ?z_shr1, ?Z.lxor_0_r; auto.
Qed.
Lemma end128_result C (st : store C) t x0 x1 r0 r1 : rel128 st (t, x0, x1, r0, r1) ->
  let r := if N.testbit t 0 then (N.lxor r0 x0, N.lxor r1 x1) else (r0, r1) in
  arrs (snd (exec C end128 st)) "result"%string 0 = Z.of_N (snd r) /\ arrs (snd (exec C end128 st)) "result"%string 1 = Z.of_N (fst r).
Proof.
  intros (E1 & E2 & E3 & E4 & E5). cbv zeta. unfold end128, gf128_acc. rewrite z_bit0, <- E1. cbn [exec eval bin]. rewrite land1.
  destruct (Z.odd (vars st "t"%string)); cbn [Z.b2z Z.eqb exec eval bin snd fst vars arrs set_var set_arr String.eqb Ascii.eqb Bool.eqb andb]; rewrite ?z_lxor, ?E2, ?E3, ?E4, ?E5; auto.
Qed.
Lemma core128 C le n1 n2 l1 l2 (st : store C) a0 h0 h1 a1 : List.length l1 = n1 -> List.length l2 = n2 -> ok128 st -> rel128 st (a0, h0, h1, 0%N, 0%N) -> arrs st "arg2"%string 0 = Z.of_N a1 ->
  exists w1 w0, let res := arrs (snd (exec C end128 (snd (turns C "i" gf128_body l2 (mid128 C (snd (turns C "i" gf128_body l1 st))))))) "result"%string in
    res 0 = Z.of_N w1 /\ res 1 = Z.of_N w0 /\
    (let '(_, X0, X1, R0, R1) := Nat.iter n1 gf128_step (a0, h0, h1, 0%N, 0%N) in
     let '(t, X0, X1, R0, R1) := Nat.iter n2 gf128_step (a1, X0, X1, R0, R1) in
     let '(R0, R1) := if N.testbit t 0 then (N.lxor R0 X0, N.lxor R1 X1) else (R0, R1) in
     st64 le R1 ++ st64 le R0) = st64 le w1 ++ st64 le w0.
Proof.
  intros N1 N2 K R A. cbv zeta. destruct (loop128 C l1 st (a0, h0, h1, 0%N, 0%N) K R) as (L1 & L2 & L3). rewrite N1 in L1.
  set (u := snd (turns C "i" gf128_body l1 st)) in *. clearbody u.
  destruct (Nat.iter n1 gf128_step (a0, h0, h1, 0%N, 0%N)) as [[[[t x0] x1] r0] r1].
  destruct (loop128 C l2 (mid128 C u) (a1, x0, x1, r0, r1)) as (M1 & _ & _).
  - exact L2.
  - destruct L1 as (_ & E2 & E3 & E4 & E5). split; [|split; [exact E2|split; [exact E3|split; [exact E4|exact E5]]]]. change (arrs u "arg2"%string 0 = Z.of_N a1). rewrite L3. exact A.
  - rewrite N2 in M1. set (v := snd (turns C "i" gf128_body l2 (mid128 C u))) in *. clearbody v.
    destruct (Nat.iter n2 gf128_step (a1, x0, x1, r0, r1)) as [[[[t' y0] y1] q0] q1]. pose proof (end128_result C v t' y0 y1 q0 q1 M1) as E. cbv zeta in E.
    destruct (N.testbit t' 0); cbn [fst snd] in E; [exists (N.lxor q1 y1), (N.lxor q0 y0)|exists q1, q0]; (split; [apply E|split; [apply E|reflexivity]]).
Qed.
(** Operands of sixteen bytes. *)
Theorem C62_kuznyechik_mgm_multiplication_computes :
  forall C le a b, bytes a -> bytes b -> List.length a = 16%nat -> List.length b = 16%nat -> exists w1 w0,
    let word i x := Z.of_N (ld64 le (sub i 8 x)) in
    let res := arrs (snd (exec C gf128_prog (mul_store C [word 0%nat a; word 8%nat a] [word 0%nat b; word 8%nat b]))) "result"%string in
    res 0 = Z.of_N w1 /\ res 1 = Z.of_N w0 /\ gf128_mul_uint64 le a b = st64 le w1 ++ st64 le w0.
Proof.
  intros C le a b Ba Bb La Lb. cbv zeta.
  assert (R : forall i, (i + 8 <= 16)%nat -> 0 <= Z.of_N (ld64 le (sub i 8 a)) < 2 ^ 64).
  { intros i Hi. apply ld64_range; [apply bytes_sub; exact Ba|apply sub_length; lia]. }
  pose proof (R 0%nat ltac:(lia)) as R1. pose proof (R 8%nat ltac:(lia)) as R0. clear R. unfold gf128_mul_uint64.
  set (h1 := ld64 le (sub 0 8 a)) in *. set (h0 := ld64 le (sub 8 8 a)) in *. set (a1 := ld64 le (sub 0 8 b)) in *. set (a0 := ld64 le (sub 8 8 b)) in *. clearbody h1 h0 a1 a0.
  rewrite (snd_pair _ _ _ (gf128_run C (Z.of_N h1) (Z.of_N h0) (Z.of_N a1) (Z.of_N a0))).
  assert (K : ok128 (start128 C (Z.of_N h1) (Z.of_N h0) (Z.of_N a1) (Z.of_N a0))) by (split; assumption).
  assert (Rl : rel128 (start128 C (Z.of_N h1) (Z.of_N h0) (Z.of_N a1) (Z.of_N a0)) (a0, h0, h1, 0%N, 0%N)) by (repeat split).
  assert (A : arrs (start128 C (Z.of_N h1) (Z.of_N h0) (Z.of_N a1) (Z.of_N a0)) "arg2"%string 0 = Z.of_N a1) by reflexivity.
  generalize dependent (start128 C (Z.of_N h1) (Z.of_N h0) (Z.of_N a1) (Z.of_N a0)). intros st K Rl A.
  assert (N1 : List.length (zrange 0 64) = 64%nat) by reflexivity. generalize dependent (zrange 0 64). intros l1 N1.
  assert (N2 : List.length (zrange 0 63) = 63%nat) by reflexivity. generalize dependent (zrange 0 63). intros l2 N2.
  exact (core128 C le 64 63 l1 l2 st a0 h0 h1 a1 N1 N2 K Rl A).
Qed.
Print Assumptions C62_kuznyechik_mgm_multiplication_computes.

(** The hypothesis of the refutations holds of equal operands only up to one bit of the secret; a case where the traces differ. *)
Example C62_mgm_demo C : trace C gf64_prog (mul_store C [2] [3]) = trace C gf64_prog (mul_store C [3] [3]) /\
  trace C gf64_prog (mul_store C [2] [3]) <> trace C gf64_prog (mul_store C [4] [3]).
Proof. split; [vm_compute; reflexivity|]. intros E. apply C62_magma_mgm_multiplication_leaks_refuted in E; try (split; [lia|reflexivity]). destruct E as [_ E]. discriminate E. Qed.
