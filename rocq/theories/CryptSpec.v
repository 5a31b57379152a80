(** What the EVP ciphers of gost_crypt.c should compute, from the standards, over whole
    messages: RFC 5830 (CFB "gamma with feedback", counter mode), RFC 4357 section 2.3 (CryptoPro key
    meshing every 1024 bytes), RFC 8645 / R 1323565.1.017 (CTR-ACPKM). *)
From Coq Require Import String.
From Verif Require Import Bytes Gost89Spec StreamMode.

(** RFC 4357, 2.3.2: the constant C and the key chain K[i+1] = decryptECB (K[i], C). *)
Definition meshing_C : list N :=
  hex "6900722264C904238D3ADB9646E92AC418FEAC9400ED0712C086DCC2EF4CA92B".
Definition ecb_decrypt (S : sboxes) (k m : list N) : list N := concat (map (rfc5830_decrypt S k) (blocks 8 m)).
Fixpoint mesh_key (S : sboxes) (mesh : bool) (k : list N) (j : nat) : list N :=
  match j with
  | O => k
  | Datatypes.S j' => let kj := mesh_key S mesh k j' in if mesh then ecb_decrypt S kj meshing_C else kj
  end.

(** Block number [i] (from 0) is processed with key number [i / 128] (128 blocks = 1024 bytes);
    when a new key starts, the chaining value is first encrypted with it. *)
Definition boundary (mesh : bool) (i : nat) : bool := mesh && negb (i =? 0)%nat && (i mod 128 =? 0)%nat.
Definition block_key S mesh k i := mesh_key S mesh k (i / 128).
Definition meshed_iv S mesh k (i : nat) (iv : list N) : list N :=
  if boundary mesh i then rfc5830_encrypt S (block_key S mesh k i) iv else iv.

(** CFB: state = (block number, chaining value). *)
Definition cfb_next S mesh k (s : nat * list N) : (nat * list N) * list N :=
  let '(i, iv) := s in
  let iv := meshed_iv S mesh k i iv in
  ((Datatypes.S i, iv), rfc5830_encrypt S (block_key S mesh k i) iv).
Definition cfb_absorb (s : nat * list N) (fed : list N) : nat * list N := (fst s, fed).
Definition gost_cfb S mesh k iv (enc : bool) (m : list N) : list N :=
  stream (nat * list N) (cfb_next S mesh k) cfb_absorb 8 enc (0%nat, iv) m.

(** Counter mode: N3 is advanced by 2^24+2^16+2^8+1 modulo 2^32 and N4 by
    2^24+2^16+2^8+4 modulo 2^32-1 (the standard's [+]': the sum if it is below 2^32, else the
    sum minus 2^32 plus 1). *)
Definition add_ones (a b : N) : N := if a + b <? 2 ^ 32 then a + b else a + b - 2 ^ 32 + 1.
Definition cnt_step (b : list N) : list N :=
  n2le 4 ((le_words b 0 + (2^24 + 2^16 + 2^8 + 1)) mod 2 ^ 32) ++
  n2le 4 (add_ones (le_words b 1) (2^24 + 2^16 + 2^8 + 4)).
Definition cnt_next S mesh k (s : nat * list N) : (nat * list N) * list N :=
  let '(i, iv) := s in
  let n := if (i =? 0)%nat then rfc5830_encrypt S k iv else meshed_iv S mesh k i iv in
  let n := cnt_step n in
  ((Datatypes.S i, n), rfc5830_encrypt S (block_key S mesh k i) n).
Definition gost_cnt S mesh k iv (m : list N) : list N :=
  stream (nat * list N) (cnt_next S mesh k) (fun s _ => s) 8 true (0%nat, iv) m.

(** CBC with block functions [E]/[D]. *)
Fixpoint cbc_encrypt (E : list N -> list N) (iv : list N) (bl : list (list N)) : list (list N) :=
  match bl with nil => nil | b :: t => let c := E (xorl b iv) in c :: cbc_encrypt E c t end.

(** CTR-ACPKM (RFC 8645): the section size [sect] is a number of bytes, 0 = no re-keying;
    D1 .. D4 = 80 81 .. 9F; block [i] is processed with key number [8 i / sect]. *)
Definition acpkm_D : list N := map (fun i => 128 + N.of_nat i) (seq 0 32).
Fixpoint acpkm_key (E : list N -> list N -> list N) (bs : nat) (k : list N) (j : nat) : list N :=
  match j with
  | O => k
  | Datatypes.S j' => concat (map (E (acpkm_key E bs k j')) (blocks bs acpkm_D))
  end.
(** Magma CTR: the initial counter is IV (4 bytes) followed by 4 zero bytes. *)
Definition ctr_next (E : list N -> list N -> list N) (bs : nat) (key_no : nat -> nat) k (ctr0 : N) (i : nat) : nat * list N :=
  (Datatypes.S i, E (acpkm_key E bs k (key_no i)) (n2be bs (ctr0 + N.of_nat i))).
Definition section_no (bs : nat) (sect : N) (i : nat) : nat :=
  if sect =? 0 then 0%nat else N.to_nat (N.of_nat bs * N.of_nat i / sect).
Definition magma_ctr S (sect : N) k (iv : list N) (m : list N) : list N :=
  stream nat (ctr_next (rfc8891_encrypt S) 8 (section_no 8 sect) k (be2n (iv ++ zeros 4))) (fun s _ => s) 8 true 0%nat m.

(** MAC with key meshing: block [i] is absorbed with key number [i / 128] (the MAC state is not
    changed when a new key starts). *)
Fixpoint mac_mesh S mesh k (i : nat) (st : list N) (bl : list (list N)) : list N :=
  match bl with
  | nil => st
  | b :: t => mac_mesh S mesh k (Datatypes.S i) (rfc5830_mac_step S (block_key S mesh k i) st b) t
  end.
Definition gost_mac_meshed S mesh k (m : list N) : list N := mac_mesh S mesh k 0 (zeros 8) (blocks 8 (mac_message m)).
