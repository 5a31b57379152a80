(** Model of the point formulas of the generated files ecp_id_*.c: [point_double], [point_add_mixed],
    [point_add_proj], [point_edwards2legacy], [point_legacy2edwards].

    Each is a straight-line sequence of calls of the field functions fiat_*_(carry_)mul, _(carry_)square,
    _(carry_)add, _(carry_)sub, plus, in the mixed addition of the Weierstrass files, _nonzero and _selectznz.
    The sequences below are those calls, in order, extracted from the sources; the sixteen copies (eight files, a
    64-bit and a 32-bit half each) reduce to three: a = -3 (CryptoPro_A, _B, _C, 512_A, 512_B), any a (Test),
    Edwards (256_A, 512_C).
    Abstraction: an fe_t is the field element it stands for (documented by the fiat functions as [eval] modulo
    the prime, through [from_montgomery] in the files that work in Montgomery form); the limb arithmetic is not
    modelled.  [_nonzero] looks at the limbs; it is modelled as a test of the field element (the callers' zero
    is the literal zero and their non-zero coordinates are non-zero elements).
    Storage is modelled: registers are the memory of the operands, so that the calls with R = Q can be told from
    those with different pointers. *)
From Coq Require Import List Bool.
From Verif Require Import EcFormulaSpec.
Import ListNotations.

(** Operands Q (or P of the one-operand functions): 1; second operand P: 2; result R (Q of the one-operand
    functions): RX..RT; local results of the mixed addition: X3..Z3; temporaries; the constants. *)
Inductive reg :=
  | X1 | Y1 | Z1 | T1 | X2 | Y2 | Z2 | T2 | RX | RY | RZ | RT | X3 | Y3 | Z3
  | t0 | t1 | t2 | t3 | t4 | t5 | nz | cA | cB | cB3 | cD | cS | cT.
Definition reg_eqb (a b : reg) : bool :=
  match a, b with
  | X1, X1 | Y1, Y1 | Z1, Z1 | T1, T1 | X2, X2 | Y2, Y2 | Z2, Z2 | T2, T2
  | RX, RX | RY, RY | RZ, RZ | RT, RT | X3, X3 | Y3, Y3 | Z3, Z3
  | t0, t0 | t1, t1 | t2, t2 | t3, t3 | t4, t4 | t5, t5 | nz, nz
  | cA, cA | cB, cB | cB3, cB3 | cD, cD | cS, cS | cT, cT => true
  | _, _ => false
  end.

(** One call: destination first, as in the sources. *)
Inductive instr :=
  | Mul (d a b : reg) | Sqr (d a : reg) | Add (d a b : reg) | Sub (d a b : reg)
  | Nz (d a : reg)            (* _nonzero(&d, a) *)
  | Sel (d c a b : reg).      (* _selectznz(d, c, a, b): a if c is zero, b otherwise *)

(** [point_double]: the files (lines of the 64-bit and of the 32-bit half) CryptoPro_A 3065-3113;
    CryptoPro_A 8006-8054; CryptoPro_B 3722-3770; CryptoPro_B 11236-11284; CryptoPro_C 4380-4428;
    CryptoPro_C 14789-14837; 512_A 4094-4142; 512_A 12128-12176; 512_B 6320-6368; 512_B 21804-21852.
    *)
Definition m3_double : list instr :=
  [ Sqr t0 X1; Sqr t1 Y1; Sqr t2 Z1; Mul t3 X1 Y1; Add t3 t3 t3; Mul t4 Y1 Z1; Mul RZ X1 Z1;
    Add RZ RZ RZ; Mul RY cB t2; Sub RY RY RZ; Add RX RY RY; Add RY RX RY; Sub RX t1 RY;
    Add RY t1 RY; Mul RY RX RY; Mul RX RX t3; Add t3 t2 t2; Add t2 t2 t3; Mul RZ cB RZ;
    Sub RZ RZ t2; Sub RZ RZ t0; Add t3 RZ RZ; Add RZ RZ t3; Add t3 t0 t0; Add t0 t3 t0;
    Sub t0 t0 t2; Mul t0 t0 RZ; Add RY RY t0; Add t0 t4 t4; Mul RZ t0 RZ; Sub RX RX RZ;
    Mul RZ t0 t1; Add RZ RZ RZ; Add RZ RZ RZ ].
(** [point_add_mixed]: the files (lines of the 64-bit and of the 32-bit half) CryptoPro_A 3137-3198;
    CryptoPro_A 8078-8139; CryptoPro_B 3780-3841; CryptoPro_B 11294-11355; CryptoPro_C 4438-4499;
    CryptoPro_C 14847-14908; 512_A 4166-4227; 512_A 12200-12261; 512_B 6378-6439; 512_B 21862-21923.
    *)
Definition m3_add_mixed : list instr :=
  [ Nz nz Y2; Mul t0 X1 X2; Mul t1 Y1 Y2; Add t3 X2 Y2; Add t4 X1 Y1; Mul t3 t3 t4; Add t4 t0 t1;
    Sub t3 t3 t4; Mul t4 Y2 Z1; Add t4 t4 Y1; Mul Y3 X2 Z1; Add Y3 Y3 X1; Mul Z3 cB Z1;
    Sub X3 Y3 Z3; Add Z3 X3 X3; Add X3 X3 Z3; Sub Z3 t1 X3; Add X3 t1 X3; Mul Y3 cB Y3;
    Add t1 Z1 Z1; Add t2 t1 Z1; Sub Y3 Y3 t2; Sub Y3 Y3 t0; Add t1 Y3 Y3; Add Y3 t1 Y3;
    Add t1 t0 t0; Add t0 t1 t0; Sub t0 t0 t2; Mul t1 t4 Y3; Mul t2 t0 Y3; Mul Y3 X3 Z3;
    Add Y3 Y3 t2; Mul X3 t3 X3; Sub X3 X3 t1; Mul Z3 t4 Z3; Mul t1 t3 t0; Add Z3 Z3 t1;
    Sel RX nz X1 X3; Sel RY nz Y1 Y3; Sel RZ nz Z1 Z3 ].
(** [point_add_proj]: the files (lines of the 64-bit and of the 32-bit half) CryptoPro_A 3208-3268;
    CryptoPro_A 8149-8209; CryptoPro_B 3851-3911; CryptoPro_B 11365-11425; CryptoPro_C 4509-4569;
    CryptoPro_C 14918-14978; 512_A 4237-4297; 512_A 12271-12331; 512_B 6449-6509; 512_B 21933-21993.
    *)
Definition m3_add_proj : list instr :=
  [ Mul t0 X1 X2; Mul t1 Y1 Y2; Mul t2 Z1 Z2; Add t3 X1 Y1; Add t4 X2 Y2; Mul t3 t3 t4;
    Add t4 t0 t1; Sub t3 t3 t4; Add t4 Y1 Z1; Add t5 Y2 Z2; Mul t4 t4 t5; Add t5 t1 t2;
    Sub t4 t4 t5; Add RX X1 Z1; Add RY X2 Z2; Mul RX RX RY; Add RY t0 t2; Sub RY RX RY;
    Mul RZ cB t2; Sub RX RY RZ; Add RZ RX RX; Add RX RX RZ; Sub RZ t1 RX; Add RX t1 RX;
    Mul RY cB RY; Add t1 t2 t2; Add t2 t1 t2; Sub RY RY t2; Sub RY RY t0; Add t1 RY RY;
    Add RY t1 RY; Add t1 t0 t0; Add t0 t1 t0; Sub t0 t0 t2; Mul t1 t4 RY; Mul t2 t0 RY;
    Mul RY RX RZ; Add RY RY t2; Mul RX t3 RX; Sub RX RX t1; Mul RZ t4 RZ; Mul t1 t3 t0;
    Add RZ RZ t1 ].
(** [point_double]: the files (lines of the 64-bit and of the 32-bit half) TestParamSet 3661-3707;
    TestParamSet 10989-11035. *)
Definition any_double : list instr :=
  [ Sqr t0 X1; Sqr t1 Y1; Sqr t2 Z1; Mul t3 X1 Y1; Add t3 t3 t3; Mul t4 Y1 Z1; Mul RZ X1 Z1;
    Add RZ RZ RZ; Mul RX cA RZ; Mul RY cB3 t2; Add RY RX RY; Sub RX t1 RY; Add RY t1 RY;
    Mul RY RX RY; Mul RX t3 RX; Mul RZ cB3 RZ; Mul t2 cA t2; Sub t3 t0 t2; Mul t3 cA t3;
    Add t3 t3 RZ; Add RZ t0 t0; Add t0 RZ t0; Add t0 t0 t2; Mul t0 t0 t3; Add RY RY t0;
    Add t2 t4 t4; Mul t0 t2 t3; Sub RX RX t0; Mul RZ t2 t1; Add RZ RZ RZ; Add RZ RZ RZ ].
(** [point_add_mixed]: the files (lines of the 64-bit and of the 32-bit half) TestParamSet
    3716-3775; TestParamSet 11044-11103. *)
Definition any_add_mixed : list instr :=
  [ Nz nz Y2; Mul t0 X1 X2; Mul t1 Y1 Y2; Add t3 X2 Y2; Add t4 X1 Y1; Mul t3 t3 t4; Add t4 t0 t1;
    Sub t3 t3 t4; Mul t4 X2 Z1; Add t4 t4 X1; Mul t5 Y2 Z1; Add t5 t5 Y1; Mul Z3 cA t4;
    Mul X3 cB3 Z1; Add Z3 X3 Z3; Sub X3 t1 Z3; Add Z3 t1 Z3; Mul Y3 X3 Z3; Add t1 t0 t0;
    Add t1 t1 t0; Mul t2 cA Z1; Mul t4 cB3 t4; Add t1 t1 t2; Sub t2 t0 t2; Mul t2 cA t2;
    Add t4 t4 t2; Mul t0 t1 t4; Add Y3 Y3 t0; Mul t0 t5 t4; Mul X3 t3 X3; Sub X3 X3 t0;
    Mul t0 t3 t1; Mul Z3 t5 Z3; Add Z3 Z3 t0; Sel RX nz X1 X3; Sel RY nz Y1 Y3; Sel RZ nz Z1 Z3 ].
(** [point_add_proj]: the files (lines of the 64-bit and of the 32-bit half) TestParamSet 3784-3842;
    TestParamSet 11112-11170. *)
Definition any_add_proj : list instr :=
  [ Mul t0 X1 X2; Mul t1 Y1 Y2; Mul t2 Z1 Z2; Add t3 X1 Y1; Add t4 X2 Y2; Mul t3 t3 t4;
    Add t4 t0 t1; Sub t3 t3 t4; Add t4 X1 Z1; Add t5 X2 Z2; Mul t4 t4 t5; Add t5 t0 t2;
    Sub t4 t4 t5; Add t5 Y1 Z1; Add RX Y2 Z2; Mul t5 t5 RX; Add RX t1 t2; Sub t5 t5 RX;
    Mul RZ cA t4; Mul RX cB3 t2; Add RZ RX RZ; Sub RX t1 RZ; Add RZ t1 RZ; Mul RY RX RZ;
    Add t1 t0 t0; Add t1 t1 t0; Mul t2 cA t2; Mul t4 cB3 t4; Add t1 t1 t2; Sub t2 t0 t2;
    Mul t2 cA t2; Add t4 t4 t2; Mul t0 t1 t4; Add RY RY t0; Mul t0 t5 t4; Mul RX t3 RX;
    Sub RX RX t0; Mul t0 t3 t1; Mul RZ t5 RZ; Add RZ RZ t0 ].
(** [point_double]: the files (lines of the 64-bit and of the 32-bit half) 256_A 3256-3285; 256_A
    8466-8495; 512_C 4102-4131; 512_C 12032-12061. *)
Definition ed_double : list instr :=
  [ Sqr t0 X1; Sqr t1 Y1; Sqr t2 Z1; Add t3 t2 t2; Add RX X1 Y1; Sqr RY RX; Sub RT RY t0;
    Sub RZ RT t1; Add RY t0 t1; Sub t2 RY t3; Sub t3 t0 t1; Mul RX RZ t2; Mul RT RZ t3;
    Mul RZ t2 RY; Mul RY RY t3 ].
(** [point_add_mixed]: the files (lines of the 64-bit and of the 32-bit half) 256_A 3295-3330; 256_A
    8505-8540; 512_C 4141-4176; 512_C 12071-12106. *)
Definition ed_add_mixed : list instr :=
  [ Mul t0 X1 X2; Mul t1 Y1 Y2; Mul t2 cD T2; Mul t2 T1 t2; Add RX X1 Y1; Add RY X2 Y2;
    Mul RT RX RY; Sub t3 RT t0; Sub RT t3 t1; Add t3 Z1 t2; Sub RZ Z1 t2; Sub t1 t1 t0;
    Mul RX RT RZ; Mul RY t3 t1; Mul RT RT t1; Mul RZ RZ t3 ].
(** [point_add_proj]: the files (lines of the 64-bit and of the 32-bit half) 256_A 3340-3377; 256_A
    8550-8587; 512_C 4186-4223; 512_C 12116-12153. *)
Definition ed_add_proj : list instr :=
  [ Mul t0 X1 X2; Mul t1 Y1 Y2; Mul t2 cD T2; Mul t2 T1 t2; Mul t3 Z1 Z2; Add RX X1 Y1;
    Add RY X2 Y2; Mul RT RX RY; Sub RZ RT t0; Sub RT RZ t1; Sub RZ t3 t2; Add t3 t3 t2;
    Sub t1 t1 t0; Mul RX RT RZ; Mul RY t3 t1; Mul RT RT t1; Mul RZ RZ t3 ].
(** [point_edwards2legacy]: the files (lines of the 64-bit and of the 32-bit half) 256_A 3384-3407;
    256_A 8594-8617; 512_C 4230-4253; 512_C 12160-12183. *)
Definition ed_edwards2legacy : list instr :=
  [ Add RT Z1 Y1; Sub t0 Z1 Y1; Mul RT cS RT; Mul RY Z1 RT; Mul RZ X1 t0; Mul t0 t0 cT;
    Add t0 RT t0; Mul RX X1 t0 ].
(** [point_legacy2edwards]: the files (lines of the 64-bit and of the 32-bit half) 256_A 3414-3436;
    256_A 8624-8646; 512_C 4260-4282; 512_C 12190-12212. *)
Definition ed_legacy2edwards : list instr :=
  [ Sub RT X1 cT; Add RY RT cS; Mul RX RT RY; Mul RZ Y1 RY; Sub RT RT cS; Mul RY Y1 RT;
    Mul RT RX RY; Mul RX RX RZ; Mul RY RY RZ; Sqr RZ RZ ].

Section Run.
Variable K : field.

Definition mem := reg -> F K.
Definition store (m : mem) (r : reg) (v : F K) : mem := fun r' => if reg_eqb r r' then v else m r'.
Definition step (al : reg -> reg) (m : mem) (i : instr) : mem :=
  match i with
  | Mul d a b => store m (al d) (fmul K (m (al a)) (m (al b)))
  | Sqr d a => store m (al d) (fmul K (m (al a)) (m (al a)))
  | Add d a b => store m (al d) (fadd K (m (al a)) (m (al b)))
  | Sub d a b => store m (al d) (fsub K (m (al a)) (m (al b)))
  | Nz d a => store m (al d) (m (al a))
  | Sel d c a b => store m (al d) (if feqb K (m (al c)) (f0 K) then m (al a) else m (al b))
  end.
Definition run (al : reg -> reg) (p : list instr) (m : mem) : mem := fold_left (step al) p m.

(** [same = true]: the caller passes the same pointer for the result and the first operand. *)
Definition alias (same : bool) (r : reg) : reg :=
  if same then match r with RX => X1 | RY => Y1 | RZ => Z1 | RT => T1 | _ => r end else r.

(** Constants of a file (the sets they are read from differ: const_b; const_a, const_b3; const_d, const_S,
    const_T), projective points (T is used by the Edwards files only), affine table entries. *)
Record consts := mk_consts { k_a : F K; k_b : F K; k_b3 : F K; k_d : F K; k_S : F K; k_T : F K }.
Record prj := mk_prj { pX : F K; pY : F K; pT : F K; pZ : F K }.
Record aff := mk_aff { aX : F K; aY : F K; aT : F K }.

(** The memory on entry: operands, constants, and anything ([junk]) elsewhere. *)
Definition entry (c : consts) (q : prj) (p : prj) (junk : mem) : mem := fun r =>
  match r with
  | X1 => pX q | Y1 => pY q | T1 => pT q | Z1 => pZ q
  | X2 => pX p | Y2 => pY p | T2 => pT p | Z2 => pZ p
  | cA => k_a c | cB => k_b c | cB3 => k_b3 c | cD => k_d c | cS => k_S c | cT => k_T c
  | _ => junk r
  end.
Definition result (same : bool) (m : mem) : prj :=
  mk_prj (m (alias same RX)) (m (alias same RY)) (m (alias same RT)) (m (alias same RZ)).
Definition call2 (prog : list instr) (same : bool) (c : consts) (junk : mem) (q p : prj) : prj :=
  result same (run (alias same) prog (entry c q p junk)).

(** The three families. *)
Inductive family := Minus3 | AnyA | Edwards.
Definition prog_double (f : family) : list instr :=
  match f with Minus3 => m3_double | AnyA => any_double | Edwards => ed_double end.
Definition prog_add_mixed (f : family) : list instr :=
  match f with Minus3 => m3_add_mixed | AnyA => any_add_mixed | Edwards => ed_add_mixed end.
Definition prog_add_proj (f : family) : list instr :=
  match f with Minus3 => m3_add_proj | AnyA => any_add_proj | Edwards => ed_add_proj end.

(** The functions.  The second operand of a mixed addition has no Z. *)
Definition point_double (f : family) (same : bool) (c : consts) (junk : mem) (p : prj) : prj :=
  call2 (prog_double f) same c junk p (mk_prj (junk X2) (junk Y2) (junk T2) (junk Z2)).
Definition point_add_proj (f : family) (same : bool) (c : consts) (junk : mem) (q p : prj) : prj :=
  call2 (prog_add_proj f) same c junk q p.
Definition point_add_mixed (f : family) (same : bool) (c : consts) (junk : mem) (q : prj) (p : aff) : prj :=
  call2 (prog_add_mixed f) same c junk q (mk_prj (aX p) (aY p) (aT p) (junk Z2)).
Definition point_edwards2legacy (same : bool) (c : consts) (junk : mem) (p : prj) : prj :=
  call2 ed_edwards2legacy same c junk p (mk_prj (junk X2) (junk Y2) (junk T2) (junk Z2)).
(** The operand is affine; the result never the same pointer. *)
Definition point_legacy2edwards (c : consts) (junk : mem) (p : aff) : prj :=
  call2 ed_legacy2edwards false c junk (mk_prj (aX p) (aY p) (junk T1) (junk Z1))
        (mk_prj (junk X2) (junk Y2) (junk T2) (junk Z2)).
End Run.
