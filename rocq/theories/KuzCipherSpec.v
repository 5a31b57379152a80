(** The modes of GOST R 34.13-2015 over Kuznyechik (and RFC 8645 for ACPKM), on whole messages. *)
From Verif Require Import Bytes StreamMode KuzSpec.
From Verif Require CryptSpec.

Definition kuz_cfb (k iv : list N) (enc : bool) (m : list N) : list N :=
  stream (list N) (fun s => (s, E_ k s)) (fun _ fed => fed) 16 enc iv m.
Definition kuz_ofb (k iv : list N) (m : list N) : list N :=
  stream (list N) (fun s => (E_ k s, E_ k s)) (fun s _ => s) 16 true iv m.
(** The counter of block i is IV || 0^64 plus i; in CTR-ACPKM block i is processed with key number
    16 i / sect (sect = 0: no re-keying). *)
Definition kuz_ctr (sect : N) (k iv : list N) (m : list N) : list N :=
  stream nat (CryptSpec.ctr_next E_ 16 (CryptSpec.section_no 16 sect) k (be2n (iv ++ zeros 8))) (fun s _ => s) 16 true 0%nat m.
Definition kuz_ecb (k : list N) (m : list N) : list N := concat (map (E_ k) (blocks 16 m)).
Definition kuz_cbc (k iv : list N) (m : list N) : list N := concat (CryptSpec.cbc_encrypt (E_ k) iv (blocks 16 m)).
