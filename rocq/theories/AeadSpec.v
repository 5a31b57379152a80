(** Specification of the CTR-ACPKM-OMAC ciphers of R 1323565.1.017 / RFC 8645 and the CMS profile R 1323565.1.025-2019
    (section 4.4): K_enc | K_mac = KDF_TREE(K, "kdf tree", seed, R = 1); the text is encrypted with CTR-ACPKM under K_enc and
    the OMAC of the plaintext under K_mac is encrypted with the same key stream, after the text. *)
From Coq Require Import String.
From Verif Require Import Bytes KdfSpec AeadModel.
From Coq Require Import List NArith ZArith.
Import ListNotations.
Open Scope N_scope.

Definition key_enc (k seed : list N) : list N := firstn 32 (kdf_tree 2 k (ascii_bytes "kdf tree") seed 1).
Definition key_mac (k seed : list N) : list N := skipn 32 (kdf_tree 2 k (ascii_bytes "kdf tree") seed 1).

Section Spec.
(** [F]: the stream cipher on a whole text; [mac]: the MAC of a whole text, of [n] bytes. *)
Variables (F mac : list N -> list N) (n : nat).
(** The part of the stream cipher's output for the input [d] that follows the input [m]. *)
Definition next_piece (m d : list N) : list N := skipn (length m) (F (m ++ d)).
(** What has gone through the stream cipher, the plaintext so far, the tag buffer. *)
Record aspec := mk_aspec { s_fed : list N; s_text : list N; s_tag : list N }.
Definition spec_attrs (s : aspec) (arg : Z) (attrs : option (list attribute)) : ae_res * aspec :=
  if (arg =? 0)%Z then
    match get0_mac attrs with
    | Some v => if Nat.eq_dec (length v) n then (RAttrs 1 attrs, mk_aspec (s_fed s) (s_text s) v) else (RAttrs (-1) attrs, s)
    | None => (RAttrs (-1) attrs, s)
    end
  else match attrs with
       | None => (RAttrs (-1) None, s)
       | Some l => (RAttrs 1 (Some (l ++ [mk_attr true [Octets (firstn n (s_tag s))]])), s)
       end.
Definition enc_step (s : aspec) (o : ae_call) : ae_res * aspec :=
  match o with
  | AUpdate d => (RBytes (Z.of_nat (length d)) (next_piece (s_fed s) d), mk_aspec (s_fed s ++ d) (s_text s ++ d) (s_tag s))
  | AFinal => let t := mac (s_text s) in (RBytes 0 [], mk_aspec (s_fed s ++ t) (s_text s) (next_piece (s_fed s) t))
  | AAttrs arg attrs => spec_attrs s arg attrs
  end.
Definition dec_step (s : aspec) (o : ae_call) : ae_res * aspec :=
  match o with
  | AUpdate d =>
      let p := next_piece (s_fed s) d in
      (RBytes (Z.of_nat (length d)) p, mk_aspec (s_fed s ++ d) (s_text s ++ p) (s_tag s))
  | AFinal =>
      let t := firstn n (s_tag s) in
      (RBytes (if list_eq_dec N.eq_dec (next_piece (s_fed s) t) (mac (s_text s)) then 0 else (-1)) [],
       mk_aspec (s_fed s ++ t) (s_text s) (s_tag s))
  | AAttrs arg attrs => spec_attrs s arg attrs
  end.
Fixpoint spec_run (step : aspec -> ae_call -> ae_res * aspec) (s : aspec) (ops : list ae_call) : list ae_res :=
  match ops with [] => [] | o :: t => let (r, s) := step s o in r :: spec_run step s t end.
Definition spec_start (tag : list N) : aspec := mk_aspec [] [] tag.
End Spec.
