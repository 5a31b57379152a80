(** What a user of the provider's ciphers expects.  A context that was given a key, an IV and a direction holds the bytes given to
    it; what the calls return, put together, is the standard's encryption (decryption) of these bytes, with the usual padding
    in the block modes: n bytes of value n. *)
From Coq Require Import ZArith NArith List Bool.
From Verif Require Import Bytes Gost89Model Gost89Spec Gost89Sboxes CryptSpec KuzSpec KuzCipherSpec ProvCipherModel.
Import ListNotations.
Local Open Scope nat_scope.

(** * The standards' modes, on whole messages *)
Fixpoint cbc_inv (D : list N -> list N) (iv : list N) (bl : list (list N)) : list (list N) :=
  match bl with [] => [] | b :: t => xorl (D b) iv :: cbc_inv D b t end.
Definition cbc (E D : list N -> list N) (bs : nat) (enc : bool) (iv m : list N) : list N :=
  concat (if enc then cbc_encrypt E iv (blocks bs m) else cbc_inv D iv (blocks bs m)).
Definition ecb (E D : list N -> list N) (bs : nat) (enc : bool) (m : list N) : list N :=
  concat (map (if enc then E else D) (blocks bs m)).
Definition SA : sboxes := sboxes_of Gost28147_CryptoProParamSetA.
Definition SZ : sboxes := sboxes_of Gost28147_TC26ParamSetZ.
(** [sb]: the parameter set in force for gost89 and gost89-cbc.  In the block modes m is a whole number of blocks. *)
Definition standard (sb : subst_block) (a : alg) (enc : bool) (k iv m : list N) : list N :=
  match a with
  | Gost89Cfb => gost_cfb (sboxes_of sb) true k iv enc m
  | Gost89Cnt => gost_cnt SA true k iv m
  | Gost89Cnt12 => gost_cnt SZ true k iv m
  | Gost89Cbc => cbc (rfc5830_encrypt (sboxes_of sb) k) (rfc5830_decrypt (sboxes_of sb) k) 8 enc iv m
  | MagmaCbc => cbc (rfc8891_encrypt SZ k) (rfc8891_decrypt SZ k) 8 enc iv m
  | MagmaCtr => magma_ctr SZ 0 k iv m
  | MagmaCtrAcpkm => magma_ctr SZ 1024 k iv m
  | KuzEcb => ecb (E_ k) (D_ k) 16 enc m
  | KuzCbc => cbc (E_ k) (D_ k) 16 enc iv m
  | KuzCfb => kuz_cfb k iv enc m
  | KuzOfb => kuz_ofb k iv m
  | KuzCtr => kuz_ctr 0 k iv m
  | KuzCtrAcpkm => kuz_ctr 4096 k iv m
  | MagmaCtrAcpkmOmac | MagmaMgm | KuzCtrAcpkmOmac | KuzMgm => []
  end.
(** 1: any number of bytes *)
Definition block_bytes (a : alg) : nat := match a with KuzEcb | KuzCbc => 16 | Gost89Cbc | MagmaCbc => 8 | _ => 1 end.
Definition iv_bytes (a : alg) : nat :=
  match a with
  | KuzEcb => 0
  | MagmaCtr | MagmaCtrAcpkm | MagmaCtrAcpkmOmac => 4
  | KuzCbc | KuzCfb | KuzOfb | KuzMgm => 16
  | _ => 8
  end.
Definition padded (bs : nat) (m : list N) : list N := let n := bs - length m mod bs in m ++ repeat (N.of_nat n) n.
(** The message without its padding, if it has one *)
Definition unpadded (bs : nat) (x : list N) : option (list N) :=
  let n := N.to_nat (last x 0%N) in
  if (1 <=? n) && (n <=? bs) && (n <=? length x) && forallb (N.eqb (N.of_nat n)) (skipn (length x - n) x)
  then Some (firstn (length x - n) x) else None.

(** * Contexts *)
Inductive phase := Blank                                            (* never initialised *)
  | Keyless                                                         (* initialised without key and IV *)
  | Message (enc : bool) (k iv m : list N)
  | Finished.
Record sctx := mk_sctx { s_inst : nat; s_alg : alg; s_pad : bool; s_phase : phase }.
Definition world : Type := list (option sctx).
Definition put (w : world) (h : nat) (c : option sctx) : world := firstn h w ++ c :: skipn (S h) w.
Definition get (w : world) (h : nat) : option sctx := nth h w None.

Section Spec.
Variable sb : subst_block.
Definition wholes (bs : nat) (m : list N) : list N := firstn (length m - length m mod bs) m.
Definition complete (bs : nat) (m : list N) : bool := (length m mod bs =? 0).
(** What has been returned once m has been given.  A decryption that expects padding keeps the last block back. *)
Definition returned (c : sctx) (enc : bool) (k iv m : list N) : list N :=
  let bs := block_bytes (s_alg c) in
  let out := standard sb (s_alg c) enc k iv (wholes bs m) in
  if (1 <? bs) && negb enc && s_pad c && complete bs m then firstn (length out - bs) out else out.
(** What the end of the message adds; None: the end is refused. *)
Definition ending (c : sctx) (enc : bool) (k iv m : list N) : option (list N) :=
  let bs := block_bytes (s_alg c) in
  let rest out := skipn (length (returned c enc k iv m)) out in
  if (bs =? 1) then Some []
  else if s_pad c then
    if enc then Some (rest (standard sb (s_alg c) true k iv (padded bs m)))
    else if complete bs m then option_map rest (unpadded bs (standard sb (s_alg c) false k iv m)) else None
  else if complete bs m then Some [] else None.

(** Calls in an order the API allows.  A context for a stream mode serves one message (see C57_second_message_refuted);
    key and IV have exactly the lengths that are reported; parameters are not set before the first
    initialisation (see C57_parameters_at_first_init_refuted) and not within a message; a piece has less than 2^31 - 32 bytes; an
    instance is torn down when there is no context left - of any instance. *)
Definition legal (w : world) (o : call) : Prop :=
  match o with
  | LoadProvider | New _ _ | GetParams _ => True
  | Dup h | Free h => exists c, get w h = Some c
  | Init h enc key iv pad =>
      exists c, get w h = Some c /\ aead (s_alg c) = false /\
        (s_phase c = Blank -> pad = None) /\
        ((key = None /\ iv = None /\ (s_phase c = Blank \/ s_phase c = Keyless)) \/
         ((exists k, key = Some k /\ length k = 32 /\ bytes k) /\
          (iv_bytes (s_alg c) = 0 /\ iv = None \/ exists v, iv = Some v /\ length v = iv_bytes (s_alg c) /\ bytes v) /\
          (s_phase c = Blank \/ s_phase c = Keyless \/ 1 < block_bytes (s_alg c))))
  | SetPadding h pad =>
      exists c, get w h = Some c /\ (s_phase c = Keyless \/ exists enc k iv, s_phase c = Message enc k iv [])
  | Update h data =>
      exists c enc k iv m, get w h = Some c /\ s_phase c = Message enc k iv m /\ bytes data /\ (Z.of_nat (length data) < 2 ^ 31 - 32)%Z
  | Final h => exists c enc k iv m, get w h = Some c /\ s_phase c = Message enc k iv m
  | Teardown _ => forall h, get w h = None
  end.
Definition with_phase (c : sctx) (p : phase) : sctx := mk_sctx (s_inst c) (s_alg c) (s_pad c) p.
Definition with_pad (c : sctx) (p : bool) : sctx := mk_sctx (s_inst c) (s_alg c) p (s_phase c).
Definition given (iv : option (list N)) : list N := match iv with Some v => v | None => [] end.
(** What the call does and returns *)
Definition expected (w : world) (o : call) : world * result :=
  match o with
  | LoadProvider | Teardown _ => (w, Done)
  | New i a => (w ++ [Some (mk_sctx i a true Blank)], Handle (length w))
  | Dup h => (w ++ [get w h], Handle (length w))
  | Free h => (put w h None, Done)
  | Init h enc key iv pad =>
      match get w h with
      | Some c =>
          let c := match pad with Some p => with_pad c p | None => c end in
          (put w h (Some (with_phase c match key with Some k => Message enc k (given iv) [] | None => Keyless end)), Returns true)
      | None => (w, Done)
      end
  | SetPadding h pad => match get w h with Some c => (put w h (Some (with_pad c pad)), Returns true) | None => (w, Done) end
  | Update h data =>
      match get w h with
      | Some c =>
          match s_phase c with
          | Message enc k iv m =>
              (put w h (Some (with_phase c (Message enc k iv (m ++ data)))),
               Output (skipn (length (returned c enc k iv m)) (returned c enc k iv (m ++ data))))
          | _ => (w, Done)
          end
      | None => (w, Done)
      end
  | Final h =>
      match get w h with
      | Some c =>
          match s_phase c with
          | Message enc k iv m =>
              (put w h (Some (with_phase c Finished)), match ending c enc k iv m with Some o => Output o | None => Returns false end)
          | _ => (w, Done)
          end
      | None => (w, Done)
      end
  | GetParams a => (w, Params (N.of_nat (block_bytes a)) (N.of_nat (iv_bytes a)) 32 (all_flags a))
  end.
Fixpoint all_legal (w : world) (l : list call) : Prop :=
  match l with [] => True | o :: l' => legal w o /\ all_legal (fst (expected w o)) l' end.
Fixpoint expected_results (w : world) (l : list call) : list result :=
  match l with [] => [] | o :: l' => let (w', r) := expected w o in r :: expected_results w' l' end.
End Spec.
