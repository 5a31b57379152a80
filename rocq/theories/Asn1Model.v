(** The little of DER/BER the engine's codecs need, as done by OpenSSL (library model): tag, definite length,
    content.  Not modelled: indefinite lengths and constructed strings (refused here), high tag numbers. *)
From Coq Require Import ZArith List Bool Lia.
From Verif Require Import Bytes.
Import ListNotations.
Local Open Scope Z_scope.

(** Bytes needed for a length. *)
Definition len_bytes (n : nat) : nat := N.to_nat ((N.size (N.of_nat n) + 7) / 8).
(** ASN1_put_object: the length octets. *)
Definition der_len (n : nat) : list N :=
  if (n <? 128)%nat then [N.of_nat n]
  else N.of_nat (128 + len_bytes n) :: n2be (len_bytes n) (N.of_nat n).
(** One element. *)
Definition der (tag : N) (content : list N) : list N := tag :: der_len (length content) ++ content.

(** asn1_get_length: the announced length and what follows the length octets.  A long form may have leading
    zero bytes. *)
Definition get_len (b : list N) : option (N * list N) :=
  match b with
  | [] => None
  | l :: r =>
    if (l <? 128)%N then Some (l, r)
    else if (l =? 128)%N then None
    else
      let k := N.to_nat (l - 128) in
      if (length r <? k)%nat then None else Some (be2n (firstn k r), skipn k r)
  end.
(** One element with the tag [tag]: its content and what follows it. *)
Definition get_tlv (tag : N) (b : list N) : option (list N * list N) :=
  match b with
  | [] => None
  | t :: r =>
    if (t =? tag)%N then
      match get_len r with
      | None => None
      | Some (n, r') =>
        if (N.of_nat (length r') <? n)%N then None
        else Some (firstn (N.to_nat n) r', skipn (N.to_nat n) r')
      end
    else None
  end.

Definition TAG_INTEGER : N := 2.
Definition TAG_OCTET_STRING : N := 4.
Definition TAG_SEQUENCE : N := 48. (* V_ASN1_SEQUENCE | V_ASN1_CONSTRUCTED *)

Definition i2d_octet (s : list N) : list N := der TAG_OCTET_STRING s.
(** d2i_ASN1_OCTET_STRING, d2i_ASN1_INTEGER: what follows the element is left alone. *)
Definition d2i_octet (b : list N) : option (list N) := option_map fst (get_tlv TAG_OCTET_STRING b).
(** c2i_ASN1_INTEGER and ASN1_INTEGER_to_BN: two's complement, highest byte first, shortest form only. *)
Definition integer_value (c : list N) : option Z :=
  match c with
  | [] => None
  | b0 :: rest =>
    let padded := match rest with
                  | [] => false
                  | b1 :: _ => ((b0 =? 0) && (b1 <? 128) || (b0 =? 255) && (128 <=? b1))%N
                  end in
    if padded then None
    else Some (if (b0 <? 128)%N then Z.of_N (be2n c) else Z.of_N (be2n c) - 256 ^ Z.of_nat (length c))
  end.
Definition d2i_integer (b : list N) : option Z :=
  match get_tlv TAG_INTEGER b with None => None | Some (c, _) => integer_value c end.
(** gost_asn1.c:64-69 MASKED_GOST_KEY: a SEQUENCE of exactly two OCTET STRINGs. *)
Definition d2i_masked_key (b : list N) : option (list N * list N) :=
  match get_tlv TAG_SEQUENCE b with
  | None => None
  | Some (c, _) =>
    match get_tlv TAG_OCTET_STRING c with
    | None => None
    | Some (masked, r) =>
      match get_tlv TAG_OCTET_STRING r with
      | None => None
      | Some (pub, []) => Some (masked, pub)
      | Some (_, _ :: _) => None
      end
    end
  end.
