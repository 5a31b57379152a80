(** The field multiplications of MGM in the language of LeakModel: what their branches show. *)
From Coq Require Import String List ZArith Bool Lia.
From Verif Require Import Bytes EcLadderModel LeakModel LeakProofs LeakRefine LeakRefine3.
Import ListNotations.
Local Open Scope list_scope.
Local Open Scope Z_scope.
Local Open Scope string_scope.
Local Open Scope leak_scope.

Definition top64 : Z := 0x8000000000000000.
(** uint64_t arithmetic keeps the low 64 bits *)
Definition W64 (e : expr) : expr := Bin And e (Num 0xffffffffffffffff).

(** gost_crypt.c:590-602, the loop body of [gf64_mul]; [register] and the order of the declarations leave no trace. *)
Definition gf64_body : stmt :=
  If (Bin And (Var "t") (Num 1)) ("Z0" <- Bin Xor (Var "Z0") (Var "X0")) Skip;;
  "t" <- Bin Shr (Var "t") (Num 1);;
  If (Bin And (Var "X0") (Num top64))
    ("X0" <- W64 (Bin Shl (Var "X0") (Num 1));; "X0" <- Bin Xor (Var "X0") (Num 0x1b))
    ("X0" <- W64 (Bin Shl (Var "X0") (Num 1))).
(** [gf64_mul], 572-613: the arrays hold the words after the conversion of the byte order, the result before it. *)
Definition gf64_prog : stmt :=
  "Z0" <- Num 0;;
  "X0" <- Arr "arg1" (Num 0);;
  "t" <- Arr "arg2" (Num 0);;
  For "i" (Num 0) (Num 63) gf64_body;;
  If (Bin And (Var "t") (Num 1)) ("Z0" <- Bin Xor (Var "Z0") (Var "X0")) Skip;;
  Put "result" (Num 0) (Var "Z0").

(** gost_grasshopper_cipher.c:412-429, the loop of [gf128_mul_uint64] (again 438-455). *)
Definition gf128_acc : stmt :=
  If (Bin And (Var "t") (Num 1)) ("Z0" <- Bin Xor (Var "Z0") (Var "X0");; "Z1" <- Bin Xor (Var "Z1") (Var "X1")) Skip.
Definition gf128_body : stmt :=
  gf128_acc;;
  "t" <- Bin Shr (Var "t") (Num 1);;
  If (Bin And (Var "X1") (Num top64))
    ("X1" <- W64 (Bin Shl (Var "X1") (Num 1));;
     "X1" <- Bin Xor (Var "X1") (Bin Shr (Var "X0") (Num 63));;
     "X0" <- W64 (Bin Shl (Var "X0") (Num 1));;
     "X0" <- Bin Xor (Var "X0") (Num 0x87))
    ("X1" <- W64 (Bin Shl (Var "X1") (Num 1));;
     "X1" <- Bin Xor (Var "X1") (Bin Shr (Var "X0") (Num 63));;
     "X0" <- W64 (Bin Shl (Var "X0") (Num 1))).
(** [gf128_mul_uint64], 391-475 *)
Definition gf128_prog : stmt :=
  "Z0" <- Num 0;; "Z1" <- Num 0;;
  "X0" <- Arr "arg1" (Num 1);;
  "X1" <- Arr "arg1" (Num 0);;
  "t" <- Arr "arg2" (Num 1);;
  For "i" (Num 0) (Num 64) gf128_body;;
  "t" <- Arr "arg2" (Num 0);;
  For "i" (Num 0) (Num 63) gf128_body;;
  gf128_acc;;
  Put "result" (Num 0) (Var "Z1");;
  Put "result" (Num 1) (Var "Z0").
(** The operands at the entry: words, the most significant one first (as the C keeps them in memory). *)
Definition mul_store (C : group) (a b : list Z) : store C :=
  mk_store C (fun _ => 0) (fun x i => if String.eqb x "arg1" then nth (Z.to_nat i) a 0 else if String.eqb x "arg2" then nth (Z.to_nat i) b 0 else 0) (fun _ _ => pzero C).
Local Close Scope string_scope.

(** * Arithmetic *)
Lemma land1 z : Z.land z 1 = Z.b2z (Z.odd z).
Proof. change 1 with (Z.ones 1). rewrite Z.land_ones by lia. change (2 ^ 1) with 2. rewrite Zmod_odd. destruct (Z.odd z); reflexivity. Qed.
Lemma land_top w z : 0 < w -> 0 <= z < 2 ^ w -> Z.land z (2 ^ (w - 1)) = if Z.testbit z (w - 1) then 2 ^ (w - 1) else 0.
Proof.
  intros W H. apply Z.bits_inj'. intros n N. rewrite Z.land_spec, Z.pow2_bits_eqb by lia.
  destruct (Z.eqb_spec (w - 1) n) as [<-|D].
  - destruct (Z.testbit z (w - 1)); [rewrite Z.pow2_bits_true by lia; reflexivity|rewrite Z.bits_0; reflexivity].
  - rewrite andb_false_r. destruct (Z.testbit z (w - 1)); [rewrite Z.pow2_bits_false by lia; reflexivity|rewrite Z.bits_0; reflexivity].
Qed.
Lemma top_small w z : 0 < w -> 0 <= z < 2 ^ w -> Z.testbit z (w - 1) = false -> z < 2 ^ (w - 1).
Proof.
  intros W H T. pose proof (Z.testbit_spec' z (w - 1) ltac:(lia)) as S. rewrite T in S. cbn [Z.b2z] in S.
  assert (P : 2 ^ w = 2 * 2 ^ (w - 1)) by (rewrite <- Z.pow_succ_r by lia; f_equal; lia).
  assert (0 < 2 ^ (w - 1)) by (apply Z.pow_pos_nonneg; lia).
  pose proof (Z.div_mod z (2 ^ (w - 1))). assert (z / 2 ^ (w - 1) < 2) by (apply Z.div_lt_upper_bound; lia).
  assert (0 <= z / 2 ^ (w - 1)) by (apply Z.div_pos; lia). rewrite Z.mod_small in S by lia. pose proof (Z.mod_pos_bound z (2 ^ (w - 1))). nia.
Qed.
Lemma lxor_lt w a b : 0 <= w -> 0 <= a < 2 ^ w -> 0 <= b < 2 ^ w -> 0 <= Z.lxor a b < 2 ^ w.
Proof.
  intros W A B. assert (0 <= Z.lxor a b) by (apply Z.lxor_nonneg; split; lia). split; [auto|].
  destruct (Z.eq_dec (Z.lxor a b) 0) as [->|N]; [apply Z.pow_pos_nonneg; lia|]. apply Z.log2_lt_pow2; [lia|].
  pose proof (Z.log2_lxor a b ltac:(lia) ltac:(lia)) as L.
  assert (HL : forall z, 0 <= z < 2 ^ w -> 0 < w -> Z.log2 z < w).
  { intros z Hz P. destruct (Z.eq_dec z 0) as [->|]; [rewrite Z.log2_nonpos by lia; lia|]. apply Z.log2_lt_pow2; lia. }
  destruct (Z.eq_dec w 0) as [->|]; [exfalso; apply N; change (2 ^ 0) with 1 in A, B; assert (a = 0) by lia; assert (b = 0) by lia; subst; reflexivity|].
  pose proof (HL a A ltac:(lia)). pose proof (HL b B ltac:(lia)). lia.
Qed.
(** Doubling in the field, as a function of the polynomial's low part. *)
Definition xtime (w poly x : Z) : Z := Z.lxor ((2 * x) mod 2 ^ w) (if Z.testbit x (w - 1) then poly else 0).
Lemma xtime_range w poly x : 0 <= w -> 0 <= poly < 2 ^ w -> 0 <= xtime w poly x < 2 ^ w.
Proof. intros W P. apply lxor_lt; [lia|apply Z.mod_pos_bound, Z.pow_pos_nonneg; lia|]. destruct (Z.testbit x (w - 1)); lia. Qed.
(** Two values with the same top bit keep their difference, doubled. *)
Lemma xtime_diff w poly x y : 0 < w -> 0 <= x < 2 ^ w -> 0 <= y < 2 ^ w -> Z.testbit x (w - 1) = Z.testbit y (w - 1) ->
  Z.lxor (xtime w poly x) (xtime w poly y) = 2 * Z.lxor x y.
Proof.
  intros W X Y T. unfold xtime. rewrite T. set (c := if Z.testbit y (w - 1) then poly else 0).
  rewrite Z.lxor_assoc, (Z.lxor_comm ((2 * y) mod 2 ^ w) c), <- (Z.lxor_assoc c c), Z.lxor_nilpotent, Z.lxor_0_l.
  assert (D : Z.testbit (Z.lxor x y) (w - 1) = false) by (rewrite Z.lxor_spec, T; apply xorb_nilpotent).
  pose proof (lxor_lt w x y ltac:(lia) X Y) as R. pose proof (top_small w _ W R D) as S.
  rewrite <- !(Z.land_ones _ w) by lia.
  assert (E : Z.lxor (Z.land (2 * x) (Z.ones w)) (Z.land (2 * y) (Z.ones w)) = Z.land (Z.lxor (2 * x) (2 * y)) (Z.ones w)).
  { apply Z.bits_inj'. intros n N. rewrite !Z.lxor_spec, !Z.land_spec, Z.lxor_spec. destruct (Z.testbit (2 * x) n), (Z.testbit (2 * y) n), (Z.testbit (Z.ones w) n); reflexivity. }
  rewrite E. replace (Z.lxor (2 * x) (2 * y)) with (2 * Z.lxor x y).
  2:{ rewrite !(Z.mul_comm 2). change 2 with (2 ^ 1). rewrite <- !Z.shiftl_mul_pow2 by lia. apply Z.shiftl_lxor. }
  rewrite Z.land_ones by lia. apply Z.mod_small. assert (P : 2 ^ w = 2 * 2 ^ (w - 1)) by (rewrite <- Z.pow_succ_r by lia; f_equal; lia). lia.
Qed.

(** * The leak of a loop with such a body *)
Section Loop.
  Context (C : group) (p : stmt) (w poly : Z) (X : store C -> Z) (ok : store C -> Prop).
  Hypothesis w_pos : 0 < w.
  Notation t_ st := (vars st "t"%string).
  Hypothesis ok_range : forall st, ok st -> 0 <= X st < 2 ^ w.
  Hypothesis body : forall st v, ok st -> let st0 := set_var C st "i" v in
    fst (exec C p st0) = [Branch (Z.odd (t_ st)); Branch (Z.testbit (X st) (w - 1))] /\
    X (snd (exec C p st0)) = xtime w poly (X st) /\ t_ (snd (exec C p st0)) = Z.shiftr (t_ st) 1 /\ ok (snd (exec C p st0)).
  Lemma loop_leak l : forall s s' rest rest', ok s -> ok s' ->
    fst (turns C "i" p l s) ++ rest = fst (turns C "i" p l s') ++ rest' ->
    let n := Z.of_nat (List.length l) in
    let u := snd (turns C "i" p l s) in let u' := snd (turns C "i" p l s') in
    rest = rest' /\ ok u /\ ok u' /\ Z.lxor (X u) (X u') = 2 ^ n * Z.lxor (X s) (X s') /\
    t_ u = Z.shiftr (t_ s) n /\ t_ u' = Z.shiftr (t_ s') n /\ t_ s mod 2 ^ n = t_ s' mod 2 ^ n.
  Proof.
    induction l as [|v l IH]; intros s s' rest rest' K K' E; cbv zeta.
    - cbn [turns fst snd List.length] in *. cbn in E. injection E as E. change (Z.of_nat 0) with 0. rewrite !Z.shiftr_0_r. change (2 ^ 0) with 1. rewrite !Z.mod_1_r, Z.mul_1_l. auto 10.
    - pose proof (body s v K) as B. pose proof (body s' v K') as B'. cbv zeta in B, B'.
      cbn [turns fst snd] in E |- *. cbv zeta in E |- *. cbn [fst snd] in E |- *.
      set (r := exec C p (set_var C s "i" v)) in *. set (r' := exec C p (set_var C s' "i" v)) in *. clearbody r r'.
      destruct B as (B1 & B2 & B3 & B4), B' as (B1' & B2' & B3' & B4'). rewrite B1, B1' in E. cbn [app] in E. injection E as E1 E2 E.
      destruct (IH (snd r) (snd r') rest rest' B4 B4' E) as (A0 & A1 & A2 & A3 & A4 & A5 & A6). clear IH.
      assert (En : Z.of_nat (List.length (v :: l)) = Z.of_nat (List.length l) + 1) by (cbn [List.length]; lia). rewrite En. set (n := Z.of_nat (List.length l)) in *.
      assert (N : 0 <= n) by (unfold n; lia). clearbody n.
      split; [exact A0|]. split; [exact A1|]. split; [exact A2|]. split; [|split; [|split]].
      + rewrite A3, B2, B2', (xtime_diff w poly) by auto. rewrite Z.pow_add_r by lia. change (2 ^ 1) with 2. ring.
      + rewrite A4, B3, Z.shiftr_shiftr by lia. f_equal. lia.
      + rewrite A5, B3', Z.shiftr_shiftr by lia. f_equal. lia.
      + rewrite B3, B3', !Z.shiftr_div_pow2 in A6 by lia. change (2 ^ 1) with 2 in A6.
        assert (H : forall z, z mod 2 ^ (n + 1) = 2 * ((z / 2) mod 2 ^ n) + Z.b2z (Z.odd z)).
        { intros z. rewrite Z.add_comm, Z.pow_add_r by lia. change (2 ^ 1) with 2. rewrite Z.rem_mul_r by (try lia; apply Z.pow_nonzero; lia). rewrite Zmod_odd. destruct (Z.odd z); cbn [Z.b2z]; lia. }
        rewrite !H, A6, E1. reflexivity.
  Qed.
End Loop.

Section Bodies.
  Context (C : group).
  Notation t_ st := (vars st "t"%string).
  Lemma b2z_nz b : negb (Z.b2z b =? 0) = b. Proof. destruct b; reflexivity. Qed.
  Lemma shl1 x : Z.land (Z.shiftl x 1) 0xffffffffffffffff = (2 * x) mod 2 ^ 64.
  Proof. change 0xffffffffffffffff with (Z.ones 64). rewrite Z.land_ones by lia. rewrite Z.shiftl_mul_pow2 by lia. change (2 ^ 1) with 2. f_equal. lia. Qed.
  Definition range64 (st : store C) : Prop := 0 <= vars st "X0"%string < 2 ^ 64.
  Lemma body64 (st : store C) v : range64 st -> let st0 := set_var C st "i" v in
    fst (exec C gf64_body st0) = [Branch (Z.odd (t_ st)); Branch (Z.testbit (vars st "X0"%string) (64 - 1))] /\
    vars (snd (exec C gf64_body st0)) "X0"%string = xtime 64 0x1b (vars st "X0"%string) /\ t_ (snd (exec C gf64_body st0)) = Z.shiftr (t_ st) 1 /\
    vars (snd (exec C gf64_body st0)) "Z0"%string = (if Z.odd (t_ st) then Z.lxor (vars st "Z0"%string) (vars st "X0"%string) else vars st "Z0"%string) /\
    arrs (snd (exec C gf64_body st0)) = arrs st /\
    range64 (snd (exec C gf64_body st0)).
  Proof.
    intros K. cbv zeta. unfold range64, gf64_body, W64. cbn [exec eval bin vars set_var String.eqb Ascii.eqb Bool.eqb]. rewrite land1.
    pose proof (land_top 64 (vars st "X0"%string) eq_refl K) as T. change (64 - 1) with 63 in *. change (2 ^ 63) with top64 in T.
    destruct (Z.odd (t_ st)); cbn [Z.b2z Z.eqb negb exec eval bin vars set_var String.eqb Ascii.eqb Bool.eqb fst snd app]; rewrite T;
    destruct (Z.testbit (vars st "X0"%string) 63) eqn:B; cbn [top64 Z.eqb negb exec eval bin vars set_var arrs String.eqb Ascii.eqb Bool.eqb fst snd app]; rewrite ?shl1;
    (split; [reflexivity|split; [unfold xtime; change (64 - 1) with 63; rewrite B, ?Z.lxor_0_r; reflexivity|split; [reflexivity|split; [reflexivity|split; [reflexivity|]]]]]);
    try (apply lxor_lt; [lia|apply Z.mod_pos_bound; reflexivity|split; [lia|reflexivity]]); apply Z.mod_pos_bound; reflexivity.
  Qed.
End Bodies.

(** ** The 128-bit body *)
Lemma hi_lo w h l : 0 <= w -> 0 <= l < 2 ^ w -> h * 2 ^ w + l = Z.lxor (Z.shiftl h w) l.
Proof.
  intros W L. rewrite <- Z.shiftl_mul_pow2 by lia. apply Z.add_nocarry_lxor. apply Z.bits_inj'. intros n N. rewrite Z.land_spec, Z.bits_0.
  destruct (Z.ltb_spec n w); [rewrite Z.shiftl_spec_low by lia; reflexivity|].
  rewrite <- (Z.mod_small l (2 ^ w)) by lia. rewrite Z.mod_pow2_bits_high by lia. apply andb_false_r.
Qed.
Lemma lxor_lo w h l c : 0 <= w -> 0 <= l < 2 ^ w -> 0 <= c < 2 ^ w -> Z.lxor (h * 2 ^ w + l) c = h * 2 ^ w + Z.lxor l c.
Proof. intros W L K. rewrite (hi_lo w h l W L), Z.lxor_assoc. symmetry. apply hi_lo; [exact W|apply lxor_lt; assumption]. Qed.
Lemma hi_bit w h l : 0 <= w -> 0 <= l < 2 ^ w -> Z.testbit (h * 2 ^ w + l) (w + (w - 1)) = Z.testbit h (w - 1).
Proof.
  intros W L. destruct (Z.eq_dec w 0) as [->|]; [rewrite !Z.testbit_neg_r by lia; reflexivity|].
  replace (w + (w - 1)) with ((w - 1) + w) by lia. rewrite <- Z.shiftr_spec by lia. rewrite Z.shiftr_div_pow2 by lia. rewrite Z.div_add_l by (apply Z.pow_nonzero; lia). rewrite Z.div_small by lia. rewrite Z.add_0_r. reflexivity.
Qed.
Lemma xtime128 x1 x0 : 0 <= x1 < 2 ^ 64 -> 0 <= x0 < 2 ^ 64 ->
  xtime 128 0x87 (x1 * 2 ^ 64 + x0) =
  Z.lxor ((2 * x1) mod 2 ^ 64) (Z.shiftr x0 63) * 2 ^ 64 + Z.lxor ((2 * x0) mod 2 ^ 64) (if Z.testbit x1 63 then 0x87 else 0).
Proof.
  intros H1 H0. unfold xtime. change (128 - 1) with (64 + (64 - 1)). rewrite hi_bit by (try lia; assumption). change (64 - 1) with 63.
  rewrite <- lxor_lo; [f_equal|lia|apply Z.mod_pos_bound; reflexivity|destruct (Z.testbit x1 63); split; (lia || reflexivity)].
  rewrite Z.shiftr_div_pow2 by lia. change (2 ^ 64) with 18446744073709551616 in *. change (2 ^ 63) with 9223372036854775808. change (2 ^ 128) with (18446744073709551616 * 18446744073709551616).
  assert (Hb : x0 / 9223372036854775808 = 0 \/ x0 / 9223372036854775808 = 1).
  { assert (0 <= x0 / 9223372036854775808) by (apply Z.div_pos; lia). assert (x0 / 9223372036854775808 < 2) by (apply Z.div_lt_upper_bound; lia). lia. }
  assert (Ev : (2 * x1) mod 18446744073709551616 = 2 * (x1 mod 9223372036854775808)).
  { change 18446744073709551616 with (2 * 9223372036854775808). rewrite Z.mul_mod_distr_l by lia. reflexivity. }
  assert (Ev0 : (2 * x0) mod 18446744073709551616 = 2 * (x0 mod 9223372036854775808)).
  { change 18446744073709551616 with (2 * 9223372036854775808). rewrite Z.mul_mod_distr_l by lia. reflexivity. }
  assert (Ex : Z.lxor ((2 * x1) mod 18446744073709551616) (x0 / 9223372036854775808) = (2 * x1) mod 18446744073709551616 + x0 / 9223372036854775808).
  { symmetry. apply Z.add_nocarry_lxor. rewrite Ev. destruct Hb as [->| ->]; [apply Z.land_0_r|]. rewrite land1, Z.odd_mul. reflexivity. }
  rewrite Ex, Ev, Ev0.
  pose proof (Z.div_mod x0 9223372036854775808 ltac:(lia)) as D0. pose proof (Z.mod_pos_bound x0 9223372036854775808 ltac:(lia)) as R0.
  pose proof (Z.div_mod x1 9223372036854775808 ltac:(lia)) as D1. pose proof (Z.mod_pos_bound x1 9223372036854775808 ltac:(lia)) as R1.
  symmetry. apply (Z.mod_unique _ _ (x1 / 9223372036854775808)); [left; lia|]. lia.
Qed.
Definition X128 {C} (st : store C) : Z := vars st "X1"%string * 2 ^ 64 + vars st "X0"%string.
Definition ok128 {C} (st : store C) : Prop := 0 <= vars st "X1"%string < 2 ^ 64 /\ 0 <= vars st "X0"%string < 2 ^ 64.
Lemma ok128_range {C} (st : store C) : ok128 st -> 0 <= X128 st < 2 ^ 128.
Proof. unfold ok128, X128. change (2 ^ 128) with (2 ^ 64 * 2 ^ 64). generalize (vars st "X1"%string) (vars st "X0"%string). change (2 ^ 64) with 18446744073709551616. intros. lia. Qed.
Lemma body128 C (st : store C) v : ok128 st -> let st0 := set_var C st "i" v in let r := exec C gf128_body st0 in
  let x0 := vars st "X0"%string in let x1 := vars st "X1"%string in
  fst r = [Branch (Z.odd (vars st "t"%string)); Branch (Z.testbit x1 63)] /\
  vars (snd r) "X1"%string = Z.lxor ((2 * x1) mod 2 ^ 64) (Z.shiftr x0 63) /\
  vars (snd r) "X0"%string = Z.lxor ((2 * x0) mod 2 ^ 64) (if Z.testbit x1 63 then 0x87 else 0) /\
  vars (snd r) "t"%string = Z.shiftr (vars st "t"%string) 1 /\
  vars (snd r) "Z0"%string = (if Z.odd (vars st "t"%string) then Z.lxor (vars st "Z0"%string) x0 else vars st "Z0"%string) /\
  vars (snd r) "Z1"%string = (if Z.odd (vars st "t"%string) then Z.lxor (vars st "Z1"%string) x1 else vars st "Z1"%string) /\
  arrs (snd r) = arrs st /\ ok128 (snd r).
Proof.
  intros [K1 K0]. cbv zeta. unfold ok128, gf128_body, gf128_acc, W64. cbn [exec eval bin vars set_var String.eqb Ascii.eqb Bool.eqb]. rewrite land1.
  pose proof (land_top 64 (vars st "X1"%string) eq_refl K1) as T. change (64 - 1) with 63 in T. change (2 ^ 63) with top64 in T.
  assert (S : 0 <= Z.shiftr (vars st "X0"%string) 63 < 2 ^ 64).
  { rewrite Z.shiftr_div_pow2 by lia. split; [apply Z.div_pos; [lia|reflexivity]|]. apply Z.div_lt_upper_bound; [reflexivity|]. change (2 ^ 63 * 2 ^ 64) with 170141183460469231731687303715884105728. change (2 ^ 64) with 18446744073709551616 in K0. lia. }
  assert (M : forall z, 0 <= z mod 2 ^ 64 < 2 ^ 64) by (intros; apply Z.mod_pos_bound; reflexivity).
  assert (P87 : 0 <= 0x87 < 2 ^ 64) by (split; [lia|reflexivity]).
  destruct (Z.odd (vars st "t"%string)); cbn [Z.b2z Z.eqb negb exec eval bin vars set_var String.eqb Ascii.eqb Bool.eqb fst snd app]; rewrite T;
  destruct (Z.testbit (vars st "X1"%string) 63) eqn:B; cbn [top64 Z.eqb negb exec eval bin vars set_var arrs String.eqb Ascii.eqb Bool.eqb fst snd app]; rewrite ?shl1, ?Z.lxor_0_r;
  (do 7 (split; [reflexivity|])); split; try (apply lxor_lt; [lia|auto|auto]); try apply M.
Qed.
