(** Model of gosthash2012.c (GOST R 34.11-2012) with the three builds of its core:
    the portable code on a little-endian machine (gosthash2012_ref.h), the same on a big-endian
    machine (byte-swapped tables and constants), and the SSE2 code (gosthash2012_sse2.h).
    A [union uint512_u] is its 64 bytes of memory; the QWORD view is obtained with [load]. *)
From Verif Require Import Bytes CryptModel BlockLoop StreebogTables.

Inductive build := RefLE | RefBE | SSE2.

(** The QWORD[8] view of 64 bytes, and back. *)
Definition load (bd : build) (b : list N) : list N :=
  map (match bd with RefBE => be2n | _ => le2n end) (blocks 8 b).
Definition store (bd : build) (q : list N) : list N :=
  flat_map (match bd with RefBE => n2be 8 | _ => n2le 8 end) q.

(** gosthash2012_ref.h:15-24 [X] on QWORDs. *)
Definition X (x y : list N) : list N := xorl x y.

Definition tbl (T : list (list N)) (j : nat) (b : N) : N := nth (N.to_nat b) (nth j T nil) 0.
(** Byte [_i] of register r_j after [_i] shifts by eight. *)
Definition rbyte (r : list N) (j : nat) (i : N) : N := N.land (N.shiftr (nth j r 0) (8 * i)) 0xff.
(** One iteration of the loop gosthash2012_ref.h:47-64. *)
Definition xlps_qword (T : list (list N)) (r : list N) (i : N) : N :=
  fold_left (fun acc j => N.lxor acc (tbl T j (rbyte r j i))) [1;2;3;4;5;6;7]%nat (tbl T 0 (rbyte r 0 i)).
Definition idx8 : list N := [0;1;2;3;4;5;6;7].
(** gosthash2012_ref.h:33-65 [XLPS]: on a big-endian machine iteration [_i] writes QWORD[7-_i]
    (:27-31). *)
Definition XLPS_le (x y : list N) : list N := map (xlps_qword Ax (xorl x y)) idx8.
Definition XLPS_be (x y : list N) : list N := rev (map (xlps_qword Ax_be (xorl x y)) idx8).

(** gosthash2012_sse2.h: the four XMM registers hold QWORDs (0,1), (2,3), (4,5), (6,7);
    _mm_extract_epi16(x, k) is the k-th 16-bit word of the register. *)
Definition extract_epi16 (lo hi : N) (k : N) : N :=
  if k <? 4 then N.land (N.shiftr lo (16 * k)) 0xffff else N.land (N.shiftr hi (16 * (k - 4))) 0xffff.
Definition LO (v : N) : N := N.land v 0xff.
Definition HI (v : N) : N := N.land (N.shiftr v 8) 0xff.
(** gosthash2012_sse2.h:137-177 [EXTRACT64] (EXTRACT32 at 98-135 computes the same with MMX
    registers): the pair (r0, r1) of QWORDs. *)
Definition EXTRACT (row : N) (q : list N) : list N :=
  let e j := extract_epi16 (nth (2 * (j / 2)) q 0) (nth (2 * (j / 2) + 1) q 0)
               (row + if Nat.even j then 0 else 4) in
  [fold_left (fun acc j => N.lxor acc (tbl Ax j (LO (e j)))) [1;2;3;4;5;6;7]%nat (tbl Ax 0 (LO (e 0%nat)));
   fold_left (fun acc j => N.lxor acc (tbl Ax j (HI (e j)))) [1;2;3;4;5;6;7]%nat (tbl Ax 0 (HI (e 0%nat)))].
(** gosthash2012_sse2.h:179-207 [XLPS128M] / [XLPS128R]: xor, then four EXTRACTs. *)
Definition XLPS_sse (x y : list N) : list N :=
  let q := xorl x y in EXTRACT 0 q ++ EXTRACT 1 q ++ EXTRACT 2 q ++ EXTRACT 3 q.

Definition XLPS (bd : build) : list N -> list N -> list N :=
  match bd with RefLE => XLPS_le | RefBE => XLPS_be | SSE2 => XLPS_sse end.
Definition Ctab (bd : build) : list (list N) := match bd with RefBE => Cst_be | _ => Cst end.

(** gosthash2012_ref.h:67-70 [ROUND] / gosthash2012_sse2.h:209-212 [ROUND128]. *)
Definition ROUND (bd : build) (i : nat) (s : list N * list N) : list N * list N :=
  let '(Ki, data) := s in
  let Ki := XLPS bd Ki (nth i (Ctab bd) nil) in
  (Ki, XLPS bd Ki data).
Fixpoint rounds (bd : build) (i n : nat) (s : list N * list N) : list N * list N :=
  match n with O => s | S n' => rounds bd (S i) n' (ROUND bd i s) end.

(** gosthash2012.c:113-163 [g]: the new [h]. The SSE2 branch (117-137) performs the same steps in
    registers. *)
Definition g (bd : build) (h N_ m : list N) : list N :=
  let h' := load bd h in
  let n' := load bd N_ in
  let m' := load bd m in
  let data := XLPS bd h' n' in
  let Ki := data in
  let data := XLPS bd Ki m' in
  let '(Ki, data) := rounds bd 0 11 (Ki, data) in
  let Ki := XLPS bd Ki (nth 11 (Ctab bd) nil) in
  let data := X Ki data in
  let data := X data h' in
  store bd (X data m').

(** gosthash2012.c:63-111 [add512].  Portable little-endian loop (74-94): the carry is kept
    when sum = left. *)
Fixpoint add512_loop (CF : N) (x y : list N) : list N :=
  match x, y with
  | lft :: x', yi :: y' =>
      let sum := w64 (lft + yi + CF) in
      let CF := if sum =? lft then CF else if sum <? lft then 1 else 0 in
      sum :: add512_loop CF x' y'
  | _, _ => nil
  end.
(** HAVE_ADDCARRY_U64 (71-72): the hardware add-with-carry. *)
Fixpoint add512_addcarry (CF : N) (x y : list N) : list N :=
  match x, y with
  | a :: x', b :: y' => w64 (a + b + CF) :: add512_addcarry (N.shiftr (a + b + CF) 64) x' y'
  | _, _ => nil
  end.
(** Big-endian machine (97-109): byte-wise with the previous sum in [buf]. *)
Fixpoint add512_bytes (buf : N) (x y : list N) : list N :=
  match x, y with
  | a :: x', b :: y' =>
      let buf := a + b + N.shiftr buf 8 in N.land buf 0xff :: add512_bytes buf x' y'
  | _, _ => nil
  end.
(** The build also chooses whether the compiler provides _addcarry_u64. *)
Definition add512 (bd : build) (addcarry : bool) (x y : list N) : list N :=
  match bd with
  | RefBE => add512_bytes 0 x y
  | _ => store bd ((if addcarry then add512_addcarry else add512_loop) 0 (load bd x) (load bd y))
  end.

(** gosthash2012.h:66-73 [gost2012_hash_ctx]. *)
Record sctx := mk_sctx {
  t_buffer : list N; t_h : list N; t_N : list N; t_Sigma : list N;
  t_bufsize : nat; t_digest_size : N
}.
Definition t_with_buffer x b := mk_sctx b (t_h x) (t_N x) (t_Sigma x) (t_bufsize x) (t_digest_size x).
Definition t_with_bufsize x n := mk_sctx (t_buffer x) (t_h x) (t_N x) (t_Sigma x) n (t_digest_size x).

(** gosthash2012_const.h:11-28 [buffer0], [buffer512] as memory. *)
Definition buffer0 : list N := zeros 64.
Definition buffer512 (bd : build) : list N :=
  store bd (match bd with RefBE => [0x0002000000000000;0;0;0;0;0;0;0] | _ => [0x200;0;0;0;0;0;0;0] end).

(** gosthash2012.c:39-54 [init_gost2012_hash_ctx]. *)
Definition init_gost2012_hash_ctx (digest_size : N) : sctx :=
  mk_sctx (zeros 64) (if digest_size =? 256 then repeat 1 64 else zeros 64) (zeros 64) (zeros 64) 0 digest_size.

Section Build.
Variable bd : build.
Variable ac : bool.

(** gosthash2012.c:56-61 [pad]. *)
Definition pad (x : sctx) : sctx :=
  let b := overwrite (t_buffer x) (t_bufsize x) (zeros (64 - t_bufsize x)) in
  t_with_buffer x (set b (t_bufsize x) 1).

(** gosthash2012.c:165-171 [stage2]. *)
Definition stage2 (x : sctx) (data : list N) : sctx :=
  mk_sctx (t_buffer x) (g bd (t_h x) (t_N x) data) (add512 bd ac (t_N x) (buffer512 bd))
    (add512 bd ac (t_Sigma x) data) (t_bufsize x) (t_digest_size x).

(** BSWAP64, gosthash2012.c:26-34. *)
Definition BSWAP64 (x : N) : N := be2n (n2le 8 x).

(** gosthash2012.c:173-189 [stage3]. *)
Definition stage3 (x : sctx) : sctx :=
  let x := pad x in
  let h := g bd (t_h x) (t_N x) (t_buffer x) in
  let Sigma := add512 bd ac (t_Sigma x) (t_buffer x) in
  let len := N.shiftl (N.of_nat (t_bufsize x)) 3 in
  let q0 := match bd with RefBE => BSWAP64 len | _ => len end in
  let buffer := store bd [q0] ++ zeros 56 in
  let N_ := add512 bd ac (t_N x) buffer in
  let h := g bd h buffer0 N_ in
  let h := g bd h buffer0 Sigma in
  mk_sctx buffer h N_ Sigma (t_bufsize x) (t_digest_size x).

(** The loop body gosthash2012.c:202-203. *)
Definition hash_whole (x : sctx) (blk : list N) : sctx :=
  let x := t_with_buffer x blk in stage2 x (t_buffer x).
(** The loop gosthash2012.c:209-224; every iteration consumes at least one byte. *)
Fixpoint fill_loop (fuel : nat) (x : sctx) (bufsize : nat) (data : list N) : sctx * nat :=
  match fuel with
  | O => (x, bufsize)
  | S fuel' =>
      match data with
      | nil => (x, bufsize)
      | _ =>
          let chunksize := Nat.min (64 - bufsize) (length data) in
          let x := t_with_buffer x (overwrite (t_buffer x) bufsize (firstn chunksize data)) in
          let bufsize := (bufsize + chunksize)%nat in
          let data := skipn chunksize data in
          if (bufsize =? 64)%nat then fill_loop fuel' (stage2 x (t_buffer x)) 0 data
          else fill_loop fuel' x bufsize data
      end
  end.
(** gosthash2012.c:195-226 [gost2012_hash_block]. *)
Definition gost2012_hash_block (x : sctx) (data : list N) : sctx :=
  let '(x1, data1) :=
    if (t_bufsize x =? 0)%nat then while_blocks (length data) 64 hash_whole x data else (x, data) in
  let '(x2, n) := fill_loop (S (length data1)) x1 (t_bufsize x) data1 in
  t_with_bufsize x2 n.

(** gosthash2012.c:233-243 [gost2012_finish_hash]: digest bytes are memory bytes of [h]. *)
Definition gost2012_finish_hash (x : sctx) : sctx * list N :=
  let x := t_with_bufsize (stage3 x) 0 in
  (x, if t_digest_size x =? 256 then sub 32 32 (t_h x) else t_h x).
End Build.
