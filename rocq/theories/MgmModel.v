(** Model of the MGM (multilinear Galois mode) AEAD: gost_gost2015.c:215-492, the field
    multiplications of gost_grasshopper_cipher.c and gost_crypt.c, and the EVP ciphers
    kuznyechik-mgm and magma-mgm. *)
From Verif Require Import Bytes BlockLoop CryptModel.

(** * Field multiplication *)
(** gost_gost2015.h:23-31 *)
Definition bswap64 (x : N) : N := be2n (n2le 8 x).
(** Reading a 64-bit operand: on a little-endian machine the word is byte-swapped after the load. *)
Definition ld64 (le : bool) (b : list N) : N := if le then bswap64 (le2n b) else be2n b.
Definition st64 (le : bool) (x : N) : list N := if le then n2le 8 (bswap64 x) else n2be 8 x.

(** gost_grasshopper_cipher.c:413-428, the loop body (also :439-454); the C names Z0, Z1 are R0, R1. *)
Definition gf128_step (s : N * N * N * N * N) : N * N * N * N * N :=
  let '(t, X0, X1, R0, R1) := s in
  let '(R0, R1) := if N.testbit t 0 then (N.lxor R0 X0, N.lxor R1 X1) else (R0, R1) in
  let t := N.shiftr t 1 in
  if negb (N.land X1 0x8000000000000000 =? 0) then
    let X1 := w64 (N.shiftl X1 1) in
    let X1 := N.lxor X1 (N.shiftr X0 63) in
    let X0 := w64 (N.shiftl X0 1) in
    let X0 := N.lxor X0 0x87 in
    (t, X0, X1, R0, R1)
  else
    let X1 := w64 (N.shiftl X1 1) in
    let X1 := N.lxor X1 (N.shiftr X0 63) in
    let X0 := w64 (N.shiftl X0 1) in
    (t, X0, X1, R0, R1).
(** gost_grasshopper_cipher.c:391-475 [gf128_mul_uint64]; [le] is the macro L_ENDIAN. *)
Definition gf128_mul_uint64 (le : bool) (arg1 arg2 : list N) : list N :=
  let X0 := ld64 le (sub 8 8 arg1) in
  let X1 := ld64 le (sub 0 8 arg1) in
  let t := ld64 le (sub 8 8 arg2) in
  let '(_, X0, X1, R0, R1) := Nat.iter 64 gf128_step (t, X0, X1, 0, 0) in
  let t := ld64 le (sub 0 8 arg2) in
  let '(t, X0, X1, R0, R1) := Nat.iter 63 gf128_step (t, X0, X1, R0, R1) in
  let '(R0, R1) := if N.testbit t 0 then (N.lxor R0 X0, N.lxor R1 X1) else (R0, R1) in
  st64 le R1 ++ st64 le R0.

(** gost_crypt.c:591-602, the loop body. *)
Definition gf64_step (s : N * N * N) : N * N * N :=
  let '(t, X0, R0) := s in
  let R0 := if N.testbit t 0 then N.lxor R0 X0 else R0 in
  let t := N.shiftr t 1 in
  let X0 := if negb (N.land X0 0x8000000000000000 =? 0)
            then N.lxor (w64 (N.shiftl X0 1)) 0x1b else w64 (N.shiftl X0 1) in
  (t, X0, R0).
(** gost_crypt.c:570-613 [gf64_mul] *)
Definition gf64_mul (le : bool) (arg1 arg2 : list N) : list N :=
  let X0 := ld64 le arg1 in
  let t := ld64 le arg2 in
  let '(t, X0, R0) := Nat.iter 63 gf64_step (t, X0, 0) in
  let R0 := if N.testbit t 0 then N.lxor R0 X0 else R0 in
  st64 le R0.

(** * gost_mgm128 *)
(** gost_gost2015.h:35-47 [mgm128_context].  Each 16-byte union is represented by its first
    [bl] bytes: for the 64-bit cipher the other eight bytes are zero from gost_mgm128_init on (the
    block function and gf64_mul write eight bytes, and every other write is within [bl] or writes
    zero).  [Hi] and [mul] are scratch, written before they are read; [tag] is a result of
    [gost_mgm128_finish]; [len.u[0]], [len.u[1]] are [m_alen], [m_mlen].  [block], [mul_gf],
    [key], [blocklen] are parameters of the functions below. *)
Record mgm := mk_mgm {
  m_nonce : list N; m_Yi : list N; m_Zi : list N; m_EKi : list N; m_ACi : list N; m_sum : list N;
  m_alen : N; m_mlen : N; m_mres : nat; m_ares : nat
}.
Definition m_w_nonce c v := mk_mgm v (m_Yi c) (m_Zi c) (m_EKi c) (m_ACi c) (m_sum c) (m_alen c) (m_mlen c) (m_mres c) (m_ares c).
Definition m_w_Yi c v := mk_mgm (m_nonce c) v (m_Zi c) (m_EKi c) (m_ACi c) (m_sum c) (m_alen c) (m_mlen c) (m_mres c) (m_ares c).
Definition m_w_Zi c v := mk_mgm (m_nonce c) (m_Yi c) v (m_EKi c) (m_ACi c) (m_sum c) (m_alen c) (m_mlen c) (m_mres c) (m_ares c).
Definition m_w_EKi c v := mk_mgm (m_nonce c) (m_Yi c) (m_Zi c) v (m_ACi c) (m_sum c) (m_alen c) (m_mlen c) (m_mres c) (m_ares c).
Definition m_w_ACi c v := mk_mgm (m_nonce c) (m_Yi c) (m_Zi c) (m_EKi c) v (m_sum c) (m_alen c) (m_mlen c) (m_mres c) (m_ares c).
Definition m_w_sum c v := mk_mgm (m_nonce c) (m_Yi c) (m_Zi c) (m_EKi c) (m_ACi c) v (m_alen c) (m_mlen c) (m_mres c) (m_ares c).
Definition m_w_alen c v := mk_mgm (m_nonce c) (m_Yi c) (m_Zi c) (m_EKi c) (m_ACi c) (m_sum c) v (m_mlen c) (m_mres c) (m_ares c).
Definition m_w_mlen c v := mk_mgm (m_nonce c) (m_Yi c) (m_Zi c) (m_EKi c) (m_ACi c) (m_sum c) (m_alen c) v (m_mres c) (m_ares c).
Definition m_w_mres c v := mk_mgm (m_nonce c) (m_Yi c) (m_Zi c) (m_EKi c) (m_ACi c) (m_sum c) (m_alen c) (m_mlen c) v (m_ares c).
Definition m_w_ares c v := mk_mgm (m_nonce c) (m_Yi c) (m_Zi c) (m_EKi c) (m_ACi c) (m_sum c) (m_alen c) (m_mlen c) (m_mres c) v.

Section Mgm.
  Variable bl : nat.                              (* ctx->blocklen *)
  Variable le : bool.                             (* L_ENDIAN *)
  Variable E : list N -> list N.                  (* ctx->block with ctx->key *)
  Variable mul : list N -> list N -> list N.      (* ctx->mul_gf *)

  (** gost_gost2015.c:215-228 *)
  Definition gost_mgm128_init : mgm :=
    mk_mgm (zeros bl) (zeros bl) (zeros bl) (zeros bl) (zeros bl) (zeros bl) 0 0 0 0.
  (** :230-246; Yi, Zi and EKi keep their old contents. *)
  Definition clear_msb (b : list N) : list N := set b 0 (N.land (nth 0 b 0) 0x7f).
  Definition set_msb (b : list N) : list N := set b 0 (N.lor (nth 0 b 0) 0x80).
  Definition gost_mgm128_setiv (c : mgm) (iv : list N) : mgm :=
    mk_mgm (clear_msb (firstn bl iv)) (m_Yi c) (m_Zi c) (m_EKi c) (zeros bl) (zeros bl) 0 0 0 0.

  (** inc_counter on the left and on the right half. *)
  Definition incr_l (b : list N) : list N := inc_counter (firstn (bl / 2) b) ++ skipn (bl / 2) b.
  Definition incr_r (b : list N) : list N := firstn (bl / 2) b ++ inc_counter (skipn (bl / 2) b).
  (** The four statements :285-289, :295-299, :340-344, :359-363, ... *)
  Definition absorb (c : mgm) (blk : list N) : mgm :=
    let H := E (m_Zi c) in
    let c := m_w_sum c (xorl (m_sum c) (mul H blk)) in
    m_w_Zi c (incr_l (m_Zi c)).
  (** :265-267, :318-321 *)
  Definition init_Z (c : mgm) : mgm :=
    let c := m_w_nonce c (set_msb (m_nonce c)) in m_w_Zi c (E (m_nonce c)).
  (** :322-323 *)
  Definition init_Y (c : mgm) : mgm :=
    let c := m_w_nonce c (clear_msb (m_nonce c)) in m_w_Yi c (E (m_nonce c)).
  Definition limit : N := 2 ^ (N.of_nat bl * 4 - 3).

  (** :280-284 *)
  Fixpoint aad_fill (aci : list N) (n : nat) (aad : list N) : list N * nat * list N :=
    match aad with
    | nil => (aci, n, nil)
    | x :: t => if (n =? 0)%nat then (aci, n, aad) else aad_fill (set aci n x) (Nat.modulo (n + 1) bl) t
    end.
  (** :293-305 *)
  Definition aad_tail (c : mgm) (aad : list N) : mgm :=
    let '(c, rest) := while_blocks (length aad) bl absorb c aad in
    match rest with
    | nil => m_w_ares c 0
    | _ => m_w_ares (m_w_ACi c (overwrite (m_ACi c) 0 rest)) (length rest)
    end.
  (** :248-306 [gost_mgm128_aad]: return code and context. *)
  Definition gost_mgm128_aad (c : mgm) (aad : list N) : Z * mgm :=
    let len := N.of_nat (length aad) in
    if negb (m_mlen c =? 0) then ((-2)%Z, c)
    else
      let c := if m_alen c =? 0 then init_Z c else c in
      let alen := w64 (m_alen c + len) in
      if (limit <? alen) || (alen <? len) then ((-1)%Z, c)
      else
        let c := m_w_alen c alen in
        if (m_ares c =? 0)%nat then (0%Z, aad_tail c aad)
        else
          let '(aci, n, rest) := aad_fill (m_ACi c) (m_ares c) aad in
          let c := m_w_ACi c aci in
          if (n =? 0)%nat then (0%Z, aad_tail (absorb c (m_ACi c)) rest)
          else (0%Z, m_w_ares c n).

  (** :338-347 and :415-425, the first data call finalizes the AAD. *)
  Definition flush_aad (c : mgm) : mgm :=
    if (m_ares c =? 0)%nat then c
    else
      let c := m_w_ACi c (overwrite (m_ACi c) (m_ares c) (zeros (bl - m_ares c))) in
      m_w_ares (absorb c (m_ACi c)) 0.
  (** The loop bodies :352-366 (encryption) and :430-445 (decryption). *)
  Definition mgm_byte (dec : bool) (c : mgm) (x : N) : mgm * N :=
    let n := Nat.modulo (m_mres c) bl in
    let c := if (n =? 0)%nat then m_w_Yi (m_w_EKi c (E (m_Yi c))) (incr_r (m_Yi c)) else c in
    let o := N.lxor x (nth n (m_EKi c) 0) in
    let c := m_w_ACi c (set (m_ACi c) n (if dec then x else o)) in
    let n := Nat.modulo (n + 1) bl in
    let c := m_w_mres c n in
    ((if (n =? 0)%nat then absorb c (m_ACi c) else c), o).
  Fixpoint mgm_bytes (dec : bool) (c : mgm) (inp : list N) : mgm * list N :=
    match inp with
    | nil => (c, nil)
    | x :: t =>
        let (c, o) := mgm_byte dec c x in
        let (c, out) := mgm_bytes dec c t in (c, o :: out)
    end.
  (** :326-370 and :402-449: length checks, AAD flush, loop. *)
  Definition mgm_crypt (dec : bool) (c : mgm) (inp : list N) : Z * mgm * list N :=
    let len := N.of_nat (length inp) in
    let mlen := w64 (m_mlen c + len) in
    if (limit <? mlen) || (mlen <? len) || (limit <? w64 (mlen + m_alen c)) then ((-1)%Z, c, nil)
    else
      let c := flush_aad (m_w_mlen c mlen) in
      let (c, out) := mgm_bytes dec c inp in (0%Z, c, out).
  (** :308-371 [gost_mgm128_encrypt] *)
  Definition gost_mgm128_encrypt (c : mgm) (inp : list N) : Z * mgm * list N :=
    let c := if m_mlen c =? 0 then init_Y (if m_alen c =? 0 then init_Z c else c) else c in
    mgm_crypt false c inp.
  (** :385-450 [gost_mgm128_decrypt]: Zi is not initialised here. *)
  Definition gost_mgm128_decrypt (c : mgm) (inp : list N) : Z * mgm * list N :=
    let c := if m_mlen c =? 0 then init_Y c else c in
    mgm_crypt true c inp.

  (** :467-482: the length block as it lies in memory. *)
  Definition len_block (alen clen : N) : list N :=
    if (bl =? 16)%nat then
      st64 le alen ++ st64 le clen
    else if le then n2le 8 (N.lor (N.shiftr (bswap64 alen) 32) (bswap64 clen))
    else n2be 8 (N.lor (w64 (N.shiftl alen 32)) clen).
  (** :452-496 [gost_mgm128_finish] up to the comparison: the context afterwards and [ctx->tag]. *)
  Definition mgm_finish (c : mgm) : mgm * list N :=
    let alen := w64 (N.shiftl (m_alen c) 3) in
    let clen := w64 (N.shiftl (m_mlen c) 3) in
    let r := (m_ares c + m_mres c)%nat in
    let c := if (r =? 0)%nat then c
             else let c := m_w_ACi c (overwrite (m_ACi c) r (zeros (bl - r))) in absorb c (m_ACi c) in
    let lb := len_block alen clen in
    let c := m_w_mlen (m_w_alen c (if le then le2n (firstn 8 lb) else be2n (firstn 8 lb)))
                      (if le then le2n (skipn 8 lb) else be2n (skipn 8 lb)) in
    let c := m_w_sum c (xorl (m_sum c) (mul (E (m_Zi c)) lb)) in
    (c, E (m_sum c)).
  (** :491-495: [CRYPTO_memcmp(ctx->tag.c, tag, len)], 0 when equal; [len] is at most [bl] here (the
      ctrl function accepts no other tag length). *)
  Definition gost_mgm128_finish (c : mgm) (tag : list N) : mgm * Z :=
    let (c, t) := mgm_finish c in
    (c, if eqbl (firstn (length tag) t) tag then 0%Z else 1%Z).
  (** :498-503 [gost_mgm128_tag] *)
  Definition gost_mgm128_tag (c : mgm) (len : nat) : mgm * list N :=
    let (c, t) := mgm_finish c in (c, firstn len t).
End Mgm.

(** * The EVP ciphers *)
(** gost_gost2015.h:49-61 [gost_mgm_ctx] and the EVP_CIPHER_CTX fields used: iv, buf, encrypting.
    [x_key] stands for the key schedule in [ks]. *)
Record mevp := mk_mevp {
  x_key : list N; x_keyset : bool; x_ivset : bool; x_mgm : mgm;
  x_iv : list N; x_taglen : Z; x_buf : list N; x_enc : bool
}.
Definition x_w_mgm c m := mk_mevp (x_key c) (x_keyset c) (x_ivset c) m (x_iv c) (x_taglen c) (x_buf c) (x_enc c).
Definition x_w_ivset c b := mk_mevp (x_key c) (x_keyset c) b (x_mgm c) (x_iv c) (x_taglen c) (x_buf c) (x_enc c).
Definition x_w_tag c b n := mk_mevp (x_key c) (x_keyset c) (x_ivset c) (x_mgm c) (x_iv c) n b (x_enc c).
Definition x_w_enc c e := mk_mevp (x_key c) (x_keyset c) (x_ivset c) (x_mgm c) (x_iv c) (x_taglen c) (x_buf c) e.

Section MgmEvp.
  Variable bl : nat.                                   (* block, iv and tag length: 16 or 8 *)
  Variable le : bool.
  Variable Ek : list N -> list N -> list N.            (* block function under a key *)
  Variable mul : list N -> list N -> list N.

  (** EVP_CTRL_INIT (gost_grasshopper_cipher.c:1040-1048, gost_crypt.c:1100-1108) on zeroed memory. *)
  Definition mgm_ctrl_init (c : mevp) : mevp :=
    mk_mevp (x_key c) false false (x_mgm c) (x_iv c) (-1)%Z (x_buf c) (x_enc c).
  Definition mevp0 : mevp :=
    mk_mevp (zeros 32) false false (gost_mgm128_init bl) (zeros 16) (-1)%Z (zeros 32) true.
  (** gost_grasshopper_cipher.c:477-515, gost_crypt.c:615-654; [ivlen] unchanged by the user
      ([gost_mgm128_setiv] ignores it and copies [bl] bytes).  The direction is stored by OpenSSL. *)
  Definition mgm_init_evp (c : mevp) (key iv : option (list N)) (enc : bool) : mevp :=
    let c := x_w_enc c enc in
    match key, iv with
    | None, None => c
    | Some k, _ =>
        let c := mk_mevp k (x_keyset c) (x_ivset c) (gost_mgm128_init bl) (x_iv c) (x_taglen c) (x_buf c) (x_enc c) in
        let iv := match iv with Some v => Some v | None => if x_ivset c then Some (x_iv c) else None end in
        let c := match iv with
                 | Some v => x_w_ivset (x_w_mgm c (gost_mgm128_setiv bl (x_mgm c) v)) true
                 | None => c
                 end in
        mk_mevp (x_key c) true (x_ivset c) (x_mgm c) (x_iv c) (x_taglen c) (x_buf c) (x_enc c)
    | None, Some v =>
        let c := if x_keyset c then x_w_mgm c (gost_mgm128_setiv bl (x_mgm c) v)
                 else mk_mevp (x_key c) (x_keyset c) (x_ivset c) (x_mgm c) (overwrite (x_iv c) 0 (firstn bl v))
                              (x_taglen c) (x_buf c) (x_enc c) in
        x_w_ivset c true
    end.
  (** gost_grasshopper_cipher.c:752-801, gost_crypt.c:900-947: the three uses of do_cipher. *)
  Inductive mgm_call := CallAad (d : list N) | CallData (d : list N) | CallFinal.
  Definition do_mgm (c : mevp) (call : mgm_call) : Z * mevp * list N :=
    let E := Ek (x_key c) in
    if negb (x_keyset c) then ((-1)%Z, c, nil)
    else if negb (x_ivset c) then ((-1)%Z, c, nil)
    else match call with
    | CallAad d =>
        let (r, m) := gost_mgm128_aad bl E mul (x_mgm c) d in
        ((if (r =? 0)%Z then Z.of_nat (length d) else (-1)%Z), x_w_mgm c m, nil)
    | CallData d =>
        let '(r, m, o) := (if x_enc c then gost_mgm128_encrypt else gost_mgm128_decrypt) bl E mul (x_mgm c) d in
        ((if (r =? 0)%Z then Z.of_nat (length d) else (-1)%Z), x_w_mgm c m, o)
    | CallFinal =>
        if x_enc c then
          let (m, t) := gost_mgm128_tag bl le E mul (x_mgm c) bl in
          (0%Z, x_w_ivset (x_w_tag (x_w_mgm c m) (overwrite (x_buf c) 0 t) (Z.of_nat bl)) false, nil)
        else if (x_taglen c <? 0)%Z then ((-1)%Z, c, nil)
        else
          let (m, r) := gost_mgm128_finish bl le E mul (x_mgm c) (firstn (Z.to_nat (x_taglen c)) (x_buf c)) in
          if (r =? 0)%Z then (0%Z, x_w_ivset (x_w_mgm c m) false, nil) else ((-1)%Z, x_w_mgm c m, nil)
    end.
  (** EVP_CTRL_AEAD_SET_TAG (gost_grasshopper_cipher.c:1063-1074, gost_crypt.c:1123-1133) and
      GET_TAG (:1076-1085, :1135-1144). *)
  Definition mgm_set_tag (c : mevp) (arg : Z) (tag : list N) : Z * mevp :=
    if ((arg <=? 0) || negb (arg =? Z.of_nat bl))%Z || x_enc c then (0%Z, c)
    else (1%Z, x_w_tag c (overwrite (x_buf c) 0 (firstn (Z.to_nat arg) tag)) arg).
  Definition mgm_get_tag (c : mevp) (arg : Z) : option (list N) :=
    if ((arg <=? 0) || (Z.of_nat bl <? arg))%Z || negb (x_enc c) || (x_taglen c <? 0)%Z then None
    else Some (firstn (Z.to_nat arg) (x_buf c)).
End MgmEvp.
