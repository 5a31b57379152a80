(** Property C62 continued: the field multiplications of MGM branch on the bits of both factors. *)
From Coq Require Import String List ZArith NArith Bool Lia.
From Verif Require Import Bytes BytesProofs BlockLoop EcLadderModel MgmModel LeakModel LeakProofs LeakRefine LeakRefine3 LeakMgm PropLeak.
Import ListNotations.
Local Open Scope list_scope.
Local Open Scope Z_scope.

Lemma diff_small x y n k : 0 <= n -> 0 <= k -> 0 <= Z.lxor x y -> 2 ^ n * Z.lxor x y < 2 ^ (n + k) -> Z.lxor x y < 2 ^ k.
Proof. intros N K L H. rewrite Z.pow_add_r in H by lia. apply Z.mul_lt_mono_pos_l in H; [exact H|]. apply Z.pow_pos_nonneg; lia. Qed.
Lemma half_eq x y : 0 <= Z.lxor x y < 2 -> x / 2 = y / 2.
Proof.
  intros H. change 2 with (2 ^ 1). rewrite <- !Z.shiftr_div_pow2 by lia. apply Z.lxor_eq. rewrite <- Z.shiftr_lxor, Z.shiftr_div_pow2 by lia.
  change (2 ^ 1) with 2. apply Z.div_small. exact H.
Qed.
Lemma top_bit w x y : 0 < w -> 0 <= x < 2 ^ w -> 0 <= y < 2 ^ w -> x mod 2 ^ (w - 1) = y mod 2 ^ (w - 1) ->
  Z.odd (Z.shiftr x (w - 1)) = Z.odd (Z.shiftr y (w - 1)) -> x = y.
Proof.
  intros W X Y M O. rewrite !Z.shiftr_div_pow2 in O by lia. assert (P : 2 ^ w = 2 ^ (w - 1) * 2) by (rewrite (Z.mul_comm _ 2), <- Z.pow_succ_r by lia; f_equal; lia).
  assert (0 < 2 ^ (w - 1)) by (apply Z.pow_pos_nonneg; lia).
  assert (E : forall z, 0 <= z < 2 ^ w -> z / 2 ^ (w - 1) = Z.b2z (Z.odd (z / 2 ^ (w - 1)))).
  { intros z Hz. assert (0 <= z / 2 ^ (w - 1)) by (apply Z.div_pos; lia). assert (z / 2 ^ (w - 1) < 2) by (apply Z.div_lt_upper_bound; lia).
    assert (C : z / 2 ^ (w - 1) = 0 \/ z / 2 ^ (w - 1) = 1) by lia. destruct C as [-> | ->]; reflexivity. }
  rewrite (Z.div_mod x (2 ^ (w - 1))), (Z.div_mod y (2 ^ (w - 1))) by lia. rewrite (E x X), (E y Y), O, M. reflexivity.
Qed.
Lemma nz_b2z b : negb (Z.b2z b =? 0) = b. Proof. destruct b; reflexivity. Qed.
Lemma zrange_len hi : List.length (zrange 0 hi) = Z.to_nat hi.
Proof. unfold zrange. rewrite map_length, seq_length. f_equal. lia. Qed.
Lemma for_trace C x hi p st : fst (exec C (For x (Num 0) (Num hi) p) st) = fst (turns C x p (zrange 0 hi) st) /\
  snd (exec C (For x (Num 0) (Num hi) p) st) = snd (turns C x p (zrange 0 hi) st).
Proof. exact (exec_for C x (Num 0) (Num hi) p st). Qed.

(** Magma: equal traces of two multiplications mean equal second factors (data), and first factors (the secret H_i) equal up to the lowest bit. *)
Definition start64 (C : group) (H A : Z) : store C := set_var C (set_var C (set_var C (mul_store C [H] [A]) "Z0" 0) "X0" H) "t" A.
Definition end64 : stmt := Seq (If (Bin And (Var "t") (Num 1)) (Set_ "Z0" (Bin Xor (Var "Z0") (Var "X0"))) Skip) (Put "result" (Num 0) (Var "Z0")).
Lemma gf64_run C H A : exec C gf64_prog (mul_store C [H] [A]) =
  ([Reads "arg1" 0; Reads "arg2" 0] ++ fst (turns C "i" gf64_body (zrange 0 63) (start64 C H A)) ++ fst (exec C end64 (snd (turns C "i" gf64_body (zrange 0 63) (start64 C H A)))),
   snd (exec C end64 (snd (turns C "i" gf64_body (zrange 0 63) (start64 C H A))))).
Proof.
  unfold gf64_prog. fold end64. generalize gf64_body as p. intros p.
  assert (S : forall q r st, exec C (Seq q r) st = (fst (exec C q st) ++ fst (exec C r (snd (exec C q st))), snd (exec C r (snd (exec C q st))))).
  { intros q r st. pose proof (exec_seq C q r st) as E. destruct (exec C (Seq q r) st). cbn [fst snd] in E. destruct E as [-> ->]. reflexivity. }
  rewrite (S (Set_ _ _)), (S (Set_ _ _)), (S (Set_ _ _)), (S (For _ _ _ _)).
  change (snd (exec C (Set_ "t" (Arr "arg2" (Num 0))) (snd (exec C (Set_ "X0" (Arr "arg1" (Num 0))) (snd (exec C (Set_ "Z0" (Num 0)) (mul_store C [H] [A]))))))) with (start64 C H A).
  destruct (for_trace C "i" 63 p (start64 C H A)) as [-> ->]. reflexivity.
Qed.
Lemma end64_trace C (st : store C) : fst (exec C end64 st) = [Branch (Z.odd (vars st "t"%string)); Writes "result" 0].
Proof. unfold end64. cbn [exec eval bin]. rewrite land1, nz_b2z. destruct (Z.odd (vars st "t"%string)); reflexivity. Qed.
Theorem C62_magma_mgm_multiplication_leaks_refuted :
  forall C H K A B, 0 <= H < 2 ^ 64 -> 0 <= K < 2 ^ 64 -> 0 <= A < 2 ^ 64 -> 0 <= B < 2 ^ 64 ->
    trace C gf64_prog (mul_store C [H] [A]) = trace C gf64_prog (mul_store C [K] [B]) -> A = B /\ H / 2 = K / 2.
Proof.
  intros C H K A B RH RK RA RB E. rewrite !gf64_run in E. cbn [fst] in E. apply app_inv_head in E.
  pose proof (loop_leak C gf64_body 64 0x1b (fun st => vars st "X0"%string) (@range64 C) eq_refl) as L.
  specialize (L (fun st K => K)).
  assert (Bd : forall (st : store C) v, range64 C st -> let st0 := set_var C st "i" v in
    fst (exec C gf64_body st0) = [Branch (Z.odd (vars st "t"%string)); Branch (Z.testbit (vars st "X0"%string) (64 - 1))] /\
    vars (snd (exec C gf64_body st0)) "X0"%string = xtime 64 0x1b (vars st "X0"%string) /\
    vars (snd (exec C gf64_body st0)) "t"%string = Z.shiftr (vars st "t"%string) 1 /\ range64 C (snd (exec C gf64_body st0))).
  { intros st v R. pose proof (body64 C st v R) as G. cbv zeta in G |- *. destruct G as (G1 & G2 & G3 & _ & _ & G6). auto. }
  specialize (L Bd (zrange 0 63) (start64 C H A) (start64 C K B) _ _ RH RK E). cbv zeta in L. rewrite zrange_len in L. change (Z.of_nat (Z.to_nat 63)) with (64 - 1) in L.
  set (u := snd (turns C "i" gf64_body (zrange 0 63) (start64 C H A))) in *. set (u' := snd (turns C "i" gf64_body (zrange 0 63) (start64 C K B))) in *. clearbody u u'.
  destruct L as (L0 & L1 & L2 & L3 & L4 & L5 & L6). rewrite !end64_trace in L0. injection L0 as L0. rewrite L4, L5 in L0.
  change (vars (start64 C H A) "t"%string) with A in *. change (vars (start64 C K B) "t"%string) with B in *.
  change (vars (start64 C H A) "X0"%string) with H in *. change (vars (start64 C K B) "X0"%string) with K in *.
  split; [exact (top_bit 64 A B eq_refl RA RB L6 L0)|]. apply half_eq. pose proof (lxor_lt 64 H K ltac:(lia) RH RK) as P. split; [apply P|].
  change 2 with (2 ^ 1). apply (diff_small _ _ (64 - 1) 1); try lia. rewrite <- L3. change (64 - 1 + 1) with 64.
  apply lxor_lt; [lia|exact L1|exact L2].
Qed.
Print Assumptions C62_magma_mgm_multiplication_leaks_refuted.

(** Kuznyechik: the same for 128 bits, as two words. *)
Definition start128 (C : group) (H1 H0 A1 A0 : Z) : store C :=
  set_var C (set_var C (set_var C (set_var C (set_var C (mul_store C [H1; H0] [A1; A0]) "Z0" 0) "Z1" 0) "X0" H0) "X1" H1) "t" A0.
Definition end128 : stmt := Seq gf128_acc (Seq (Put "result" (Num 0) (Var "Z1")) (Put "result" (Num 1) (Var "Z0"))).
Definition mid128 (C : group) (st : store C) : store C := set_var C st "t" (arrs st "arg2"%string 0).
Lemma gf128_run C H1 H0 A1 A0 : let u := snd (turns C "i" gf128_body (zrange 0 64) (start128 C H1 H0 A1 A0)) in let v := snd (turns C "i" gf128_body (zrange 0 63) (mid128 C u)) in
  exec C gf128_prog (mul_store C [H1; H0] [A1; A0]) =
  ([Reads "arg1" 1; Reads "arg1" 0; Reads "arg2" 1] ++ fst (turns C "i" gf128_body (zrange 0 64) (start128 C H1 H0 A1 A0)) ++
   Reads "arg2" 0 :: fst (turns C "i" gf128_body (zrange 0 63) (mid128 C u)) ++ fst (exec C end128 v), snd (exec C end128 v)).
Proof.
  cbv zeta. unfold gf128_prog. fold end128. generalize gf128_body as p. intros p.
  assert (S : forall q r st, exec C (Seq q r) st = (fst (exec C q st) ++ fst (exec C r (snd (exec C q st))), snd (exec C r (snd (exec C q st))))).
  { intros q r st. pose proof (exec_seq C q r st) as E. destruct (exec C (Seq q r) st). cbn [fst snd] in E. destruct E as [-> ->]. reflexivity. }
  rewrite (S (Set_ _ _)), (S (Set_ _ _)), (S (Set_ _ _)), (S (Set_ _ _)), (S (Set_ _ _)), (S (For _ _ _ _)), (S (Set_ _ _)), (S (For _ _ _ _)).
  change (snd (exec C (Set_ "t" (Arr "arg2" (Num 1))) (snd (exec C (Set_ "X1" (Arr "arg1" (Num 0))) (snd (exec C (Set_ "X0" (Arr "arg1" (Num 1))) (snd (exec C (Set_ "Z1" (Num 0)) (snd (exec C (Set_ "Z0" (Num 0)) (mul_store C [H1; H0] [A1; A0]))))))))))) with (start128 C H1 H0 A1 A0).
  destruct (for_trace C "i" 64 p (start128 C H1 H0 A1 A0)) as [T1 T2]. rewrite T1, T2. clear T1 T2.
  generalize (turns C "i" p (zrange 0 64) (start128 C H1 H0 A1 A0)). intros u.
  change (snd (exec C (Set_ "t" (Arr "arg2" (Num 0))) (snd u))) with (mid128 C (snd u)).
  destruct (for_trace C "i" 63 p (mid128 C (snd u))) as [T1 T2]. rewrite T1, T2. clear T1 T2.
  generalize (turns C "i" p (zrange 0 63) (mid128 C (snd u))). intros v. reflexivity.
Qed.
Lemma end128_trace C (st : store C) : fst (exec C end128 st) = [Branch (Z.odd (vars st "t"%string)); Writes "result" 0; Writes "result" 1].
Proof. unfold end128, gf128_acc. cbn [exec eval bin]. rewrite land1, nz_b2z. destruct (Z.odd (vars st "t"%string)); reflexivity. Qed.
Lemma body128_gen C (st : store C) v : ok128 st -> let st0 := set_var C st "i" v in
  fst (exec C gf128_body st0) = [Branch (Z.odd (vars st "t"%string)); Branch (Z.testbit (X128 st) (128 - 1))] /\
  X128 (snd (exec C gf128_body st0)) = xtime 128 0x87 (X128 st) /\
  vars (snd (exec C gf128_body st0)) "t"%string = Z.shiftr (vars st "t"%string) 1 /\ (ok128 (snd (exec C gf128_body st0))).
Proof.
  intros R. pose proof (body128 C st v R) as G. cbv zeta in G |- *. set (r := exec C gf128_body (set_var C st "i" v)) in *. clearbody r. destruct G as (G1 & G2 & G3 & G4 & _ & _ & _ & G8).
  pose proof R as [R1 R0].
  split; [|split; [|split; [exact G4|exact G8]]].
  - rewrite G1. f_equal. f_equal. f_equal. unfold X128. change (128 - 1) with (64 + (64 - 1)). rewrite hi_bit by (try lia; assumption). reflexivity.
  - unfold X128. rewrite G2, G3. rewrite xtime128 by assumption. reflexivity.
Qed.
Lemma turns_arrs C (p : stmt) (ok : store C -> Prop) : (forall st v, ok st -> ok (snd (exec C p (set_var C st "i" v))) /\ arrs (snd (exec C p (set_var C st "i" v))) = arrs st) ->
  forall l st, ok st -> arrs (snd (turns C "i" p l st)) = arrs st /\ ok (snd (turns C "i" p l st)).
Proof.
  intros Hp. induction l as [|v l IH]; intros st K; [split; [reflexivity|exact K]|]. change (snd (turns C "i" p (v :: l) st)) with (snd (turns C "i" p l (snd (exec C p (set_var C st "i" v))))).
  destruct (Hp st v K) as [P1 P2]. destruct (IH _ P1) as [I1 I2]. split; [rewrite I1; exact P2|exact I2].
Qed.
Lemma body128_arrs C (st : store C) v : ok128 st -> ok128 (snd (exec C gf128_body (set_var C st "i" v))) /\ arrs (snd (exec C gf128_body (set_var C st "i" v))) = arrs st.
Proof. intros R. pose proof (body128 C st v R) as G. cbv zeta in G. destruct G as (_ & _ & _ & _ & _ & _ & G7 & G8). auto. Qed.
(** The two loops, for any body that doubles, shifts and branches as the one of the C does. *)
Lemma leak128 C (p : stmt) (l1 l2 : list Z) :
  (forall (st : store C) v, ok128 st -> let st0 := set_var C st "i" v in
    fst (exec C p st0) = [Branch (Z.odd (vars st "t"%string)); Branch (Z.testbit (X128 st) (128 - 1))] /\
    X128 (snd (exec C p st0)) = xtime 128 0x87 (X128 st) /\
    vars (snd (exec C p st0)) "t"%string = Z.shiftr (vars st "t"%string) 1 /\ ok128 (snd (exec C p st0))) ->
  (forall (st : store C) v, ok128 st -> ok128 (snd (exec C p (set_var C st "i" v))) /\ arrs (snd (exec C p (set_var C st "i" v))) = arrs st) ->
  List.length l1 = Z.to_nat 64 -> List.length l2 = Z.to_nat 63 ->
  forall s s' : store C, ok128 s -> ok128 s' -> 0 <= arrs s "arg2"%string 0 < 2 ^ 64 -> 0 <= arrs s' "arg2"%string 0 < 2 ^ 64 ->
  let u := snd (turns C "i" p l1 s) in let u' := snd (turns C "i" p l1 s') in
  fst (turns C "i" p l1 s) ++ Reads "arg2" 0 :: fst (turns C "i" p l2 (mid128 C u)) ++ fst (exec C end128 (snd (turns C "i" p l2 (mid128 C u)))) =
  fst (turns C "i" p l1 s') ++ Reads "arg2" 0 :: fst (turns C "i" p l2 (mid128 C u')) ++ fst (exec C end128 (snd (turns C "i" p l2 (mid128 C u')))) ->
  arrs s "arg2"%string 0 = arrs s' "arg2"%string 0 /\ vars s "t"%string mod 2 ^ 64 = vars s' "t"%string mod 2 ^ 64 /\ X128 s / 2 = X128 s' / 2.
Proof.
  intros Hb Ha N1 N2 s s' OS OS' RA RB. cbv zeta. intros E.
  pose proof (loop_leak C p 128 0x87 (@X128 C) (@ok128 C) eq_refl (fun st K => ok128_range st K) Hb) as L.
  pose proof (L l1 _ _ _ _ OS OS' E) as P. cbv zeta in P. rewrite N1 in P. change (Z.of_nat (Z.to_nat 64)) with 64 in P.
  pose proof (proj1 (turns_arrs C p (@ok128 C) Ha l1 _ OS)) as AR. pose proof (proj1 (turns_arrs C p (@ok128 C) Ha l1 _ OS')) as AR'.
  set (u := snd (turns C "i" p l1 s)) in *. set (u' := snd (turns C "i" p l1 s')) in *. clearbody u u'.
  destruct P as (P0 & P1 & P2 & P3 & _ & _ & P6). apply (f_equal (@tl event)) in P0. cbn [tl] in P0. clear E.
  pose proof (L l2 (mid128 C u) (mid128 C u') _ _ P1 P2 P0) as Q. cbv zeta in Q. rewrite N2 in Q. change (Z.of_nat (Z.to_nat 63)) with (64 - 1) in Q.
  set (v := snd (turns C "i" p l2 (mid128 C u))) in *. set (v' := snd (turns C "i" p l2 (mid128 C u'))) in *. clearbody v v'.
  destruct Q as (Q0 & Q1 & Q2 & Q3 & Q4 & Q5 & Q6). rewrite !end128_trace in Q0. injection Q0 as Q0. rewrite Q4, Q5 in Q0.
  change (vars (mid128 C u) "t"%string) with (arrs u "arg2"%string 0) in *. change (vars (mid128 C u') "t"%string) with (arrs u' "arg2"%string 0) in *. rewrite AR, AR' in *.
  change (X128 (mid128 C u)) with (X128 u) in Q3. change (X128 (mid128 C u')) with (X128 u') in Q3. rewrite P3 in Q3.
  split; [exact (top_bit 64 _ _ eq_refl RA RB Q6 Q0)|]. split; [exact P6|].
  apply half_eq. pose proof (lxor_lt 128 _ _ ltac:(lia) (ok128_range _ OS) (ok128_range _ OS')) as R. split; [apply R|].
  change 2 with (2 ^ 1). apply (diff_small _ _ 127 1); try lia. replace (2 ^ 127 * Z.lxor (X128 s) (X128 s')) with (Z.lxor (X128 v) (X128 v')).
  - apply lxor_lt; [lia|apply ok128_range; exact Q1|apply ok128_range; exact Q2].
  - rewrite Q3, Z.mul_assoc, <- Z.pow_add_r by lia. reflexivity.
Qed.
Theorem C62_kuznyechik_mgm_multiplication_leaks_refuted :
  forall C H1 H0 K1 K0 A1 A0 B1 B0, 0 <= H1 < 2 ^ 64 -> 0 <= H0 < 2 ^ 64 -> 0 <= K1 < 2 ^ 64 -> 0 <= K0 < 2 ^ 64 ->
    0 <= A1 < 2 ^ 64 -> 0 <= A0 < 2 ^ 64 -> 0 <= B1 < 2 ^ 64 -> 0 <= B0 < 2 ^ 64 ->
    trace C gf128_prog (mul_store C [H1; H0] [A1; A0]) = trace C gf128_prog (mul_store C [K1; K0] [B1; B0]) ->
    A1 = B1 /\ A0 = B0 /\ H1 = K1 /\ H0 / 2 = K0 / 2.
Proof.
  intros C H1 H0 K1 K0 A1 A0 B1 B0 RH1 RH0 RK1 RK0 RA1 RA0 RB1 RB0 E. pose proof (gf128_run C H1 H0 A1 A0) as G. pose proof (gf128_run C K1 K0 B1 B0) as G'. cbv zeta in G, G'.
  rewrite G, G' in E. clear G G'. cbn [fst] in E. apply app_inv_head in E.
  assert (OS : ok128 (start128 C H1 H0 A1 A0)) by (split; assumption). assert (OS' : ok128 (start128 C K1 K0 B1 B0)) by (split; assumption).
  destruct (leak128 C gf128_body (zrange 0 64) (zrange 0 63) (body128_gen C) (body128_arrs C) (zrange_len 64) (zrange_len 63) _ _ OS OS' RA1 RB1 E) as (Q1 & Q2 & Q3).
  clear E OS OS'. change (A0 mod 2 ^ 64 = B0 mod 2 ^ 64) in Q2. rewrite !Z.mod_small in Q2 by assumption. split; [exact Q1|]. split; [exact Q2|].
  change ((H1 * 2 ^ 64 + H0) / 2 = (K1 * 2 ^ 64 + K0) / 2) in Q3. clear - Q3 RH1 RH0 RK1 RK0.
  change (2 ^ 64) with (9223372036854775808 * 2) in *. rewrite !Z.mul_assoc, !Z.div_add_l in Q3 by lia.
  pose proof (Z.div_mod H0 2 ltac:(lia)). pose proof (Z.mod_pos_bound H0 2 ltac:(lia)). pose proof (Z.div_mod K0 2 ltac:(lia)). pose proof (Z.mod_pos_bound K0 2 ltac:(lia)). lia.
Qed.
Print Assumptions C62_kuznyechik_mgm_multiplication_leaks_refuted.
