(** A leakage model: what an observer of the control flow and of the addresses of memory accesses sees of the scalar multiplications
    of the generated files ecp_id_*.c and of the block function of gost89.c.

    The C code is transcribed into a small imperative language.  Its semantics records, for every program, each branch taken, each turn
    of a loop, each index of an array that is read or written and each field-level routine that is called; what is recorded is fixed by
    the language and not chosen program by program.  Not recorded: the running time of one arithmetic instruction or of one of the fiat
    field routines (straight-line code on words), and of OpenSSL's BIGNUM functions.

    As in EcLadderModel, a point is one value: [PDbl], [PAdd], [PNeg], [PSel], [PCopy] stand for point_double, point_add_proj or
    point_add_mixed, the negation of a coordinate, fiat_..._selectznz on all coordinates, and fe_copy.  Line numbers without a file
    name are those of ecp_id_GostR3410_2001_CryptoPro_A_ParamSet.c. *)
From Coq Require Import String List ZArith Bool Lia.
From Verif Require Import Bytes EcLadderModel.
Import ListNotations.
Local Open Scope list_scope.
Local Open Scope Z_scope.

(** * The language *)
Inductive binop := Add | Sub | Mul | Shr | Shl | And | Or | Xor | Lt | Gt | Ge | Ne.
Inductive expr :=
  | Num (z : Z)
  | Var (x : string)
  | Arr (a : string) (i : expr)            (* a[i], integers *)
  | Bin (o : binop) (e1 e2 : expr)
  | I8 (e : expr).                         (* (int8_t)e *)
(** A point variable, or an entry of a table of points. *)
Inductive ploc := At (name : string) (i : expr).
Inductive stmt :=
  | Skip
  | Seq (s1 s2 : stmt)
  | Set_ (x : string) (e : expr)
  | Put (a : string) (i e : expr)          (* a[i] = e *)
  | If (c : expr) (s1 s2 : stmt)
  | For (x : string) (lo hi : expr) (s : stmt)     (* for (x = lo; x < hi; x++) *)
  | Down (x : string) (hi lo : expr) (s : stmt)    (* for (x = hi; x >= lo; x--) *)
  | PInf (d : ploc)
  | PCopy (d s : ploc)
  | PDbl (d s : ploc)
  | PAdd (d s1 s2 : ploc)
  | PNeg (d s : ploc)
  | PSel (d : ploc) (c : expr) (s1 s2 : ploc).     (* selectznz: d = c ? s2 : s1 without a branch *)
Inductive point_op := O_inf | O_copy | O_dbl | O_add | O_neg | O_sel.
(** What is observed. *)
Inductive event :=
  | Branch (b : bool)
  | Reads (a : string) (i : Z)
  | Writes (a : string) (i : Z)
  | Op (o : point_op).

Definition zb (b : bool) : Z := if b then 1 else 0.
Definition bin (o : binop) (a b : Z) : Z :=
  match o with
  | Add => a + b | Sub => a - b | Mul => a * b
  | Shr => Z.shiftr a b | Shl => Z.shiftl a b | And => Z.land a b | Or => Z.lor a b | Xor => Z.lxor a b
  | Lt => zb (a <? b) | Gt => zb (b <? a) | Ge => zb (b <=? a) | Ne => zb (negb (a =? b))
  end.
(** lo, lo+1, ..., hi-1 *)
Definition zrange (lo hi : Z) : list Z := map (fun i => lo + Z.of_nat i) (seq 0 (Z.to_nat (hi - lo))).

Section Semantics.
  Variable C : group.
  Record store := mk_store { vars : string -> Z; arrs : string -> Z -> Z; pts : string -> Z -> pt C }.
  Definition set_var (st : store) (x : string) (v : Z) : store :=
    mk_store (fun y => if String.eqb y x then v else vars st y) (arrs st) (pts st).
  Definition set_arr (st : store) (a : string) (i v : Z) : store :=
    mk_store (vars st) (fun b j => if String.eqb b a && (j =? i) then v else arrs st b j) (pts st).
  Definition set_pt (st : store) (l : string * Z) (P : pt C) : store :=
    mk_store (vars st) (arrs st) (fun b j => if String.eqb b (fst l) && (j =? snd l) then P else pts st b j).
  Definition get_pt (st : store) (l : string * Z) : pt C := pts st (fst l) (snd l).

  Fixpoint eval (st : store) (e : expr) : list event * Z :=
    match e with
    | Num z => ([], z)
    | Var x => ([], vars st x)
    | Arr a i => let '(t, n) := eval st i in (t ++ [Reads a n], arrs st a n)
    | Bin o e1 e2 => let '(t1, a) := eval st e1 in let '(t2, b) := eval st e2 in (t1 ++ t2, bin o a b)
    | I8 e => let '(t, a) := eval st e in (t, i8 a)
    end.
  Definition loc (st : store) (l : ploc) : list event * (string * Z) := let 'At a i := l in let '(t, n) := eval st i in (t, (a, n)).
  Definition src (st : store) (l : ploc) : list event * pt C :=
    let '(t, l) := loc st l in (t ++ [Reads (fst l) (snd l)], get_pt st l).
  Definition dst (st : store) (l : ploc) (P : pt C) : list event * store :=
    let '(t, l) := loc st l in (t ++ [Writes (fst l) (snd l)], set_pt st l P).
  Fixpoint exec (s : stmt) (st : store) : list event * store :=
    match s with
    | Skip => ([], st)
    | Seq s1 s2 => let '(t1, st) := exec s1 st in let '(t2, st) := exec s2 st in (t1 ++ t2, st)
    | Set_ x e => let '(t, v) := eval st e in (t, set_var st x v)
    | Put a i e => let '(t1, n) := eval st i in let '(t2, v) := eval st e in (t1 ++ t2 ++ [Writes a n], set_arr st a n v)
    | If c s1 s2 =>
        let '(t, v) := eval st c in
        let '(t2, st) := if v =? 0 then exec s2 st else exec s1 st in (t ++ Branch (negb (v =? 0)) :: t2, st)
    | For x lo hi s =>
        let '(t1, a) := eval st lo in let '(t2, b) := eval st hi in
        let '(t3, st) :=
          (fix loop (l : list Z) (st : store) : list event * store :=
             match l with
             | nil => ([Branch false], st)
             | v :: l => let '(t, st) := exec s (set_var st x v) in let '(t', st) := loop l st in (Branch true :: t ++ t', st)
             end) (zrange a b) st in
        (t1 ++ t2 ++ t3, st)
    | Down x hi lo s =>
        let '(t1, b) := eval st hi in let '(t2, a) := eval st lo in
        let '(t3, st) :=
          (fix loop (l : list Z) (st : store) : list event * store :=
             match l with
             | nil => ([Branch false], st)
             | v :: l => let '(t, st) := exec s (set_var st x v) in let '(t', st) := loop l st in (Branch true :: t ++ t', st)
             end) (rev (zrange a (b + 1))) st in
        (t1 ++ t2 ++ t3, st)
    | PInf d => let '(t, st) := dst st d (pzero C) in (Op O_inf :: t, st)
    | PCopy d s => let '(t1, P) := src st s in let '(t2, st) := dst st d P in (t1 ++ t2 ++ [Op O_copy], st)
    | PDbl d s => let '(t1, P) := src st s in let '(t2, st) := dst st d (padd C P P) in (t1 ++ t2 ++ [Op O_dbl], st)
    | PAdd d s1 s2 =>
        let '(t1, P) := src st s1 in let '(t2, Q) := src st s2 in
        let '(t3, st) := dst st d (padd C P Q) in (t1 ++ t2 ++ t3 ++ [Op O_add], st)
    | PNeg d s => let '(t1, P) := src st s in let '(t2, st) := dst st d (pneg C P) in (t1 ++ t2 ++ [Op O_neg], st)
    | PSel d c s1 s2 =>
        let '(t0, v) := eval st c in let '(t1, P) := src st s1 in let '(t2, Q) := src st s2 in
        let '(t3, st) := dst st d (if v =? 0 then P else Q) in (t0 ++ t1 ++ t2 ++ t3 ++ [Op O_sel], st)
    end.
End Semantics.
Arguments vars {C}. Arguments arrs {C}. Arguments pts {C}.

(** * The programs *)
Local Open Scope string_scope.
Declare Scope leak_scope.
Notation "s1 ;; s2" := (Seq s1 s2) (at level 90, right associativity) : leak_scope.
Notation "x <- e" := (Set_ x e) (at level 80) : leak_scope.
Local Open Scope leak_scope.
Definition Q_ := At "Q" (Num 0).
Definition R_ := At "R" (Num 0).
Definition P_in := At "P" (Num 0).
Definition lut_ := At "lut" (Num 0).
Definition out_ := At "out" (Num 0).
Definition precomp_ (i : expr) := At "precomp" i.
(** lut_cmb[j][k]: a row has 16 entries *)
Definition lut_cmb_ (j k : expr) := At "lut_cmb" (Bin Add (Bin Mul j (Num 16)) k).

(** [precomp_wnaf], 3284-3294 *)
Definition precomp_wnaf_prog : stmt :=
  PCopy (precomp_ (Num 0)) P_in;;
  PDbl (precomp_ (Num 15)) (precomp_ (Num 0));;
  For "i" (Num 1) (Num 16)
    (PAdd (precomp_ (Var "i")) (precomp_ (Num 15)) (precomp_ (Bin Sub (Var "i") (Num 1)))).
(** [scalar_get_bit], 3297-3306, into the variable "bit"; [inp] is the name of the argument. *)
Definition scalar_get_bit_prog (nb : nat) (inp : string) (idx : expr) : stmt :=
  "idx" <- idx;;
  "widx" <- Bin Shr (Var "idx") (Num 3);;
  "rshift" <- Bin And (Var "idx") (Num 7);;
  If (Bin Lt (Var "idx") (Num 0)) ("bit" <- Num 0)
    (If (Bin Ge (Var "widx") (Num (Z.of_nat nb))) ("bit" <- Num 0)
       ("bit" <- Bin And (Bin Shr (Arr inp (Var "widx")) (Var "rshift")) (Num 1))).
Definition add_bit (nb : nat) (inp : string) (n : Z) : stmt :=
  scalar_get_bit_prog nb inp (Bin Add (Bin Mul (Bin Add (Var "i") (Num 1)) (Num 5)) (Num n));;
  "window" <- I8 (Bin Add (Var "window") (Bin Shl (Var "bit") (Num n))).
(** [scalar_rwnaf], 3316-3332 *)
Definition scalar_rwnaf_prog (s : shape) : stmt :=
  "window" <- I8 (Bin Or (Bin And (Arr "scalar" (Num 0)) (Num 63)) (Num 1));;
  For "i" (Num 0) (Num (Z.of_nat (s_nd s) - 1))
    ("d8" <- I8 (Bin Sub (Bin And (Var "window") (Num 63)) (Num 32));;
     Put "rnaf" (Var "i") (Var "d8");;
     "window" <- I8 (Bin Shr (Bin Sub (Var "window") (Var "d8")) (Num 5));;
     add_bit (s_nb s) "scalar" 1;; add_bit (s_nb s) "scalar" 2;; add_bit (s_nb s) "scalar" 3;;
     add_bit (s_nb s) "scalar" 4;; add_bit (s_nb s) "scalar" 5);;
  Put "rnaf" (Num (Z.of_nat (s_nd s) - 1)) (Var "window").

(** The look-up of the entry with index "d", 3442-3450, 3460-3468, 3530-3536: [j] is the loop variable. *)
Definition lookup_prog (dest : ploc) (j : string) (tbl : expr -> ploc) : stmt :=
  For j (Num 0) (Num 16)
    ("diff" <- Bin And (Bin Sub (Num 1) (Bin Shr (Bin Sub (Num 0) (Bin Xor (Var "d") (Var j))) (Num 31))) (Num 1);;
     PSel dest (Var "diff") dest (tbl (Var j))).
(** Sign and magnitude, 3454-3459, 3524-3529 *)
Definition digit_prog : stmt :=
  "is_neg" <- Bin And (Bin Shr (Var "d") (Num 31)) (Num 1);;
  "d" <- Bin Add (Bin Xor (Var "d") (Bin Sub (Num 0) (Var "is_neg"))) (Var "is_neg");;
  "d" <- Bin Shr (Bin Sub (Var "d") (Num 1)) (Num 1).
(** 3469-3472, 3537-3541 *)
Definition negate_prog : stmt := PNeg out_ lut_;; PSel lut_ (Var "is_neg") lut_ out_.

(** [var_smul_rwnaf], 3424-3495; [s_ed]: the two doublings that clear the cofactor,
    ecp_id_tc26_gost_3410_2012_256_paramSetA.c:3677-3678, 512_paramSetC.c:4523-4524 *)
Definition var_smul_rwnaf_prog (s : shape) : stmt :=
  precomp_wnaf_prog;;
  scalar_rwnaf_prog s;;
  "d" <- Bin Shr (Bin Sub (Arr "rnaf" (Num (Z.of_nat (s_nd s) - 1))) (Num 1)) (Num 1);;
  lookup_prog Q_ "j" precomp_;;
  Down "i" (Num (Z.of_nat (s_nd s) - 2)) (Num 0)
    (For "j" (Num 0) (Num 5) (PDbl Q_ Q_);;
     "d" <- Arr "rnaf" (Var "i");;
     digit_prog;;
     lookup_prog lut_ "j" precomp_;;
     negate_prog;;
     PAdd Q_ Q_ lut_);;
  PNeg lut_ (precomp_ (Num 0));;
  PAdd lut_ lut_ Q_;;
  PSel Q_ (Bin And (Arr "scalar" (Num 0)) (Num 1)) lut_ Q_;;
  (if s_ed s then PDbl Q_ Q_;; PDbl Q_ Q_ else Skip).

(** [fixed_smul_cmb], 3501-3564.  The test [i != rows - 1 && j < RADIX] of the doubling loop is modelled as one test in front of
    the loop. *)
Definition fixed_smul_cmb_prog (s : shape) : stmt :=
  let rows := Num (Z.of_nat (s_rows s)) in
  scalar_rwnaf_prog s;;
  PInf Q_;;
  Down "i" (Num (Z.of_nat (s_rows s) - 1)) (Num 0)
    (If (Bin Ne (Var "i") (Num (Z.of_nat (s_rows s) - 1))) (For "j" (Num 0) (Num 5) (PDbl Q_ Q_)) Skip;;
     For "j" (Num 0) (Num (Z.of_nat (s_cols s)))
       (If (Bin Gt (Bin Add (Bin Mul (Var "j") rows) (Var "i")) (Num (Z.of_nat (s_nd s) - 1))) Skip
          ("d" <- Arr "rnaf" (Bin Add (Bin Mul (Var "j") rows) (Var "i"));;
           digit_prog;;
           lookup_prog lut_ "k" (lut_cmb_ (Var "j"));;
           negate_prog;;
           PAdd Q_ Q_ lut_)));;
  PNeg lut_ (lut_cmb_ (Num 0) (Num 0));;
  PAdd R_ Q_ lut_;;
  PSel Q_ (Bin And (Arr "scalar" (Num 0)) (Num 1)) R_ Q_.

(** [scalar_wnaf], 3338-3351: "NB: not constant time" *)
Definition scalar_wnaf_prog (s : shape) (out inp : string) : stmt :=
  "window" <- Bin And (Arr inp (Num 0)) (Num 63);;
  For "i" (Num 0) (Num (8 * Z.of_nat (s_nb s) + 1))
    ("d8" <- Num 0;;
     If (Bin And (Var "window") (Num 1))
       ("d8" <- Bin And (Var "window") (Num 63);;
        If (Bin And (Var "d8") (Num 32)) ("d8" <- I8 (Bin Sub (Var "d8") (Num 64))) Skip) Skip;;
     Put out (Var "i") (Var "d8");;
     "window" <- I8 (Bin Shr (Bin Sub (Var "window") (Var "d8")) (Num 1));;
     scalar_get_bit_prog (s_nb s) inp (Bin Add (Bin Add (Var "i") (Num 1)) (Num 5));;
     "window" <- I8 (Bin Add (Var "window") (Bin Shl (Var "bit") (Num 5)))).
(** One digit of [var_smul_wnaf_two], 3372-3388 and 3389-3405 *)
Definition two_add_prog (naf : string) (tbl : expr -> ploc) : stmt :=
  "d" <- Arr naf (Var "i");;
  If (Var "d")
    ("is_neg" <- Bin Lt (Var "d") (Num 0);;
     If (Bin Ne (Var "is_neg") (Var "flipped"))
       (PNeg Q_ Q_;; "flipped" <- Bin Xor (Var "flipped") (Num 1)) Skip;;
     If (Var "is_neg") ("d" <- Bin Shr (Bin Sub (Bin Sub (Num 0) (Var "d")) (Num 1)) (Num 1))
       ("d" <- Bin Shr (Bin Sub (Var "d") (Num 1)) (Num 1));;
     If (Var "is_inf") (PCopy Q_ (tbl (Var "d"));; "is_inf" <- Num 0) (PAdd Q_ Q_ (tbl (Var "d")))) Skip.
(** [var_smul_wnaf_two], 3357-3419: "NB: not constant time" *)
Definition var_smul_wnaf_two_prog (s : shape) : stmt :=
  "is_inf" <- Num 1;; "flipped" <- Num 0;;
  precomp_wnaf_prog;;
  scalar_wnaf_prog s "anaf" "a";;
  scalar_wnaf_prog s "bnaf" "b";;
  Down "i" (Num (8 * Z.of_nat (s_nb s))) (Num 0)
    (If (Var "is_inf") Skip (PDbl Q_ Q_);;
     two_add_prog "bnaf" precomp_;;
     two_add_prog "anaf" (lut_cmb_ (Num 0)));;
  If (Var "is_inf") (PInf Q_) Skip;;
  If (Var "flipped") (PNeg Q_ Q_) Skip.

(** gost89.c:269-275 [f]: the argument is the variable "x" (the half block plus the round key), the result "f". *)
Definition f_prog : stmt :=
  "x" <- Bin Or (Bin Or (Bin Or
      (Arr "k87" (Bin And (Bin Shr (Var "x") (Num 24)) (Num 255)))
      (Arr "k65" (Bin And (Bin Shr (Var "x") (Num 16)) (Num 255))))
      (Arr "k43" (Bin And (Bin Shr (Var "x") (Num 8)) (Num 255))))
      (Arr "k21" (Bin And (Var "x") (Num 255)));;
  "f" <- Bin And (Bin Or (Bin Shl (Var "x") (Num 11)) (Bin Shr (Var "x") (Num 21))) (Num 0xffffffff).

(** * Stores at the entry of a function *)
(** The bytes of a scalar, as the array argument. *)
Definition bytes_arr (l : list N) (i : Z) : Z := Z.of_N (nth (Z.to_nat i) l 0%N).
Definition store0 (C : group) : store C := mk_store C (fun _ => 0) (fun _ _ => 0) (fun _ _ => pzero C).
(** The table of the file (lut_cmb[j][k]). *)
Definition with_cmb (C : group) (st : store C) : store C :=
  mk_store C (vars st) (arrs st)
    (fun x i => if String.eqb x "lut_cmb" then lut_cmb C (Z.to_nat (i / 16)) (Z.to_nat (i mod 16)) else pts st x i).
Definition with_arr (C : group) (st : store C) (a : string) (l : list N) : store C :=
  mk_store C (vars st) (fun b i => if String.eqb b a then bytes_arr l i else arrs st b i) (pts st).
(** Arguments of var_smul_rwnaf, of fixed_smul_cmb and of var_smul_wnaf_two. *)
Definition one_store (C : group) (scalar : list N) (P : pt C) : store C :=
  set_pt C (with_cmb C (with_arr C (store0 C) "scalar" scalar)) ("P", 0) P.
Definition two_store (C : group) (a b : list N) (P : pt C) : store C :=
  set_pt C (with_cmb C (with_arr C (with_arr C (store0 C) "a" a) "b" b)) ("P", 0) P.
