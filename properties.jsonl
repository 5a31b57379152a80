{"id": "C01", "title": "GOST 28147-89 block decrypt inverts encrypt", "statement": "Decrypting an 8-byte block that was encrypted under the same key and S-box set returns the original block (and conversely), whatever the key, the mask chosen when the key was set, the S-box table and the block.", "quantifier": "all 256-bit keys, all key masks, all S-box tables, all 64-bit blocks", "why_tests_cant": "2^64 blocks times 2^256 keys; a test only samples some of them.", "anchors": ["gost89.c:gostcrypt", "gost89.c:gostdecrypt", "gost89.c:f", "gost89.c:kboxinit"]}
{"id": "C02", "title": "GOST 28147-89 block matches RFC 5830", "statement": "The block encryption computed with the expanded tables and the masked key equals the textbook 32-round Feistel network of RFC 5830 over the same S-boxes (key words K1..K8 three times forward then once backward).", "quantifier": "all keys, masks, S-box sets and blocks", "why_tests_cant": "The expanded lookup tables, rotation and masking must agree with the textbook for every index; test vectors touch a handful.", "anchors": ["gost89.c:gostcrypt", "gost89.c:kboxinit", "gost89.c:f"]}
{"id": "C03", "title": "Key masking is invisible", "statement": "Setting a key with a random mask, or without one, gives the same encryption, decryption and MAC results, and reading the key back returns exactly the bytes that were set.", "quantifier": "all keys, all 256-bit masks, all blocks", "why_tests_cant": "The mask is random at run time; correctness must hold for each of the 2^256 values.", "anchors": ["gost89.c:gost_key", "gost89.c:gost_key_nomask", "gost89.c:gost_get_key", "gost89.c:magma_key", "gost89.c:magma_get_key"]}
{"id": "C04", "title": "Magma is GOST 28147-89 with reversed byte order and inverts itself", "statement": "The Magma block functions (GOST R 34.12-2015) are mutually inverse and equal the 28147 block function on byte-reversed data with word-wise byte-swapped keys.", "quantifier": "all keys, masks and blocks", "why_tests_cant": "Byte-order conventions hold or fail on all inputs; the standard offers a single vector.", "anchors": ["gost89.c:magmacrypt", "gost89.c:magmadecrypt", "gost89.c:magma_key"]}
{"id": "C05", "title": "Raw ECB and CFB round trips", "statement": "gost_enc/gost_dec and gost_enc_cfb/gost_dec_cfb are inverse of each other on any number of blocks, and output has the length of the input.", "quantifier": "all keys, IVs and block counts", "why_tests_cant": "Unbounded message length.", "anchors": ["gost89.c:gost_enc", "gost89.c:gost_dec", "gost89.c:gost_enc_cfb", "gost89.c:gost_dec_cfb"]}
{"id": "C06", "title": "MAC truncation honours the number of bits", "statement": "MAC truncation: for sizes that are whole bytes the truncated MAC is the leading bytes of the 8-byte MAC state. (The full expectation, the leading/low bits of the state for every bit length, is false of the code: for every bit length that is not a multiple of 8 the last byte is returned as 0 or untruncated; this defect is part of the property.)", "quantifier": "all MAC states and all nbits in 0..64", "why_tests_cant": "The mask expression depends on the remainder; tests only use multiples of 8.", "anchors": ["gost89.c:get_mac", "gost89.c:gost_mac"]}
{"id": "C07", "title": "GOST 28147-89 MAC equals the standard's MAC with zero padding", "statement": "gost_mac computes the CBC-like 16-round chaining over the message padded with zero bytes to a whole number of blocks, with an additional zero block exactly when the message is 1..8 bytes long.", "quantifier": "all keys, messages and IVs", "why_tests_cant": "Holds for every length; edge cases at block boundaries.", "anchors": ["gost89.c:gost_mac", "gost89.c:gost_mac_iv", "gost89.c:mac_block"]}
{"id": "C08", "title": "GOST 28147-89 CFB (EVP) does not depend on chunking", "statement": "Feeding a message to the gost89 CFB cipher in any sequence of update calls gives the concatenated output of a single call, including across the 1024-byte key meshing boundary.", "quantifier": "all keys, IVs, messages and all ways to cut them into pieces", "why_tests_cant": "There are exponentially many ways to cut a message.", "anchors": ["gost_crypt.c:gost_cipher_do_cfb", "gost_crypt.c:gost_crypt_mesh"]}
{"id": "C09", "title": "GOST 28147-89 CFB (EVP) round trip", "statement": "Decrypting with a fresh context what was encrypted with a fresh context (same key, IV, parameter set) returns the message, even when the two sides use different chunkings.", "quantifier": "all keys, IVs, messages, chunkings on both sides", "why_tests_cant": "Unbounded lengths and schedules.", "anchors": ["gost_crypt.c:gost_cipher_do_cfb"]}
{"id": "C10", "title": "GOST 28147-89 counter mode: chunking independence and involution", "statement": "gost89-cnt and gost89-cnt-12 give the same output for every chunking and applying the cipher twice with the same key and IV is the identity; the key stream is generated by the two 32-bit counters advanced by 0x01010101 (mod 2^32) and 0x01010104 (mod 2^32-1).", "quantifier": "all keys, IVs, messages, chunkings", "why_tests_cant": "Unbounded lengths and schedules; the end-around carry happens rarely.", "anchors": ["gost_crypt.c:gost_cipher_do_cnt", "gost_crypt.c:gost_cnt_next"]}
{"id": "C11", "title": "GOST 28147-89 and Magma CBC round trip and chunking independence", "statement": "CBC decrypt inverts CBC encrypt for all whole-block messages and the result does not depend on how blocks are grouped into calls.", "quantifier": "all keys, IVs, whole-block messages, groupings", "why_tests_cant": "Unbounded lengths and schedules.", "anchors": ["gost_crypt.c:gost_cipher_do_cbc", "gost_crypt.c:magma_cipher_do_cbc"]}
{"id": "C12", "title": "Magma CTR and CTR-ACPKM: chunking independence and involution", "statement": "magma-ctr and magma-ctr-acpkm give the same output for every chunking (the key is replaced exactly at multiples of the section size) and applying the cipher twice restores the data.", "quantifier": "all keys, IVs, messages, chunkings, section sizes that are multiples of 8", "why_tests_cant": "Exponentially many chunkings around section boundaries.", "anchors": ["gost_crypt.c:magma_cipher_do_ctr", "gost_crypt.c:ctr64_inc", "gost_crypt.c:apply_acpkm_magma", "gost89.c:acpkm_magma_key_meshing"]}
{"id": "C13", "title": "Re-initialised cipher context behaves as a fresh one", "statement": "Re-initialisation with a key and an IV on a used context makes it behave as a fresh one: true for the ECB and CBC ciphers with every history, for counter mode (GOST 28147-89 CNT) and Kuznyechik CFB/OFB when no partial key stream block is pending. It is false (defect, witnesses part of the property) for GOST 28147-89 CFB (position inside the block and meshing counter survive), CNT in the middle of a block, Magma CTR and Kuznyechik CTR/CTR-ACPKM (the lower half of the counter survives), and Kuznyechik CFB/OFB in the middle of a block.", "quantifier": "all histories of a context, all keys, IVs, messages", "why_tests_cant": "It depends on the leftover state of an arbitrary earlier history.", "anchors": ["gost_crypt.c:gost_cipher_init_param", "gost_crypt.c:gost_cipher_init_cnt", "gost_crypt.c:magma_cipher_init", "gost_grasshopper_cipher.c:gost_grasshopper_cipher_init_ctr"]}
{"id": "C14", "title": "EVP GOST MAC does not depend on chunking", "statement": "The MAC returned by the gost-mac digests depends on the concatenation of the data only, and is the RFC 5830 MAC with CryptoPro key meshing, for every total length except 8; a message of exactly 8 bytes has the standard's MAC when it arrives in one update, and another one when it is split (defect, witness part of the property).", "quantifier": "all keys, messages and chunkings", "why_tests_cant": "Exponentially many chunkings; only boundary ones disagree.", "anchors": ["gost_crypt.c:gost_imit_update", "gost_crypt.c:gost_imit_final", "gost_crypt.c:mac_block_mesh"]}
{"id": "C15", "title": "MAC needs a key and yields the requested number of bytes", "statement": "A MAC operation without a key fails and never returns a tag; a successful one returns exactly the configured size (1..8 for 28147 MAC).", "quantifier": "all call histories", "why_tests_cant": "All orders of calls.", "anchors": ["gost_crypt.c:gost_imit_ctrl", "gost_crypt.c:gost_imit_update", "gost_crypt.c:gost_imit_final", "gost_omac.c:omac_imit_ctrl"]}
{"id": "C16", "title": "Key meshing happens exactly every 1024 bytes and keeps the byte counter bounded", "statement": "With CryptoPro key meshing on, the context's byte counter is always a multiple of 8 not larger than 1024 and the key is replaced exactly before the block following each 1024 bytes.", "quantifier": "all histories of updates", "why_tests_cant": "Invariant over unbounded histories.", "anchors": ["gost_crypt.c:gost_crypt_mesh", "gost_crypt.c:mac_block_mesh", "gost89.c:cryptopro_key_meshing"]}
{"id": "C17", "title": "GOST R 34.11-94 does not depend on chunking and matches the standard", "statement": "The digest of a message of fewer than 2^60 bytes fed in any chunks equals the standard's iteration over zero-padded 32-byte blocks followed by the length block and the checksum block. (At 2^60 bytes and above the 64-bit bit count wraps, and the property is false of the code: C17_length_limit_refuted.)", "quantifier": "all messages, all chunkings", "why_tests_cant": "Unbounded messages and exponentially many chunkings.", "anchors": ["gosthash.c:hash_block", "gosthash.c:finish_hash", "gosthash.c:hash_step", "gosthash.c:add_blocks"]}
{"id": "C18", "title": "Finishing a 34.11-94 hash leaves the running state intact", "statement": "Calling finish_hash does not alter the running context: continuing the updates afterwards gives the digest of the whole message.", "quantifier": "all messages and continuation points", "why_tests_cant": "All histories.", "anchors": ["gosthash.c:finish_hash"]}
{"id": "C19", "title": "Streebog (34.11-2012) does not depend on chunking and matches the standard", "statement": "The 256- and 512-bit digests of a message fed in any chunks equal the GOST R 34.11-2012 iteration: N counts bits and Sigma sums blocks modulo 2^512, padding with a single one bit.", "quantifier": "all messages, all chunkings", "why_tests_cant": "Unbounded messages, exponentially many chunkings.", "anchors": ["gosthash2012.c:gost2012_hash_block", "gosthash2012.c:gost2012_finish_hash", "gosthash2012.c:stage2", "gosthash2012.c:stage3"]}
{"id": "C20", "title": "Streebog 512-bit addition carries correctly", "statement": "The eight-limb addition used for N and Sigma is addition modulo 2^512 for all operands.", "quantifier": "all pairs of 512-bit numbers", "why_tests_cant": "Carry chains through saturated limbs are hit with negligible probability.", "anchors": ["gosthash2012.c:add512"]}
{"id": "C21", "title": "Streebog table-driven round equals S, P, L of the standard", "statement": "The table-driven transform equals substitution, byte transposition and multiplication by the 64x64 matrix of the standard for all 512-bit states.", "quantifier": "all 512-bit states", "why_tests_cant": "2^512 states.", "anchors": ["gosthash2012_ref.h:XLPS", "gosthash2012_precalc.h:Ax"]}
{"id": "C22", "title": "Kuznyechik block decrypt inverts encrypt", "statement": "For every key and 16-byte block decrypt(encrypt(b)) = b and encrypt(decrypt(b)) = b, using the precomputed tables in the source.", "quantifier": "all 256-bit keys, all 128-bit blocks", "why_tests_cant": "2^384 combinations.", "anchors": ["gost_grasshopper_core.c:grasshopper_encrypt_block", "gost_grasshopper_core.c:grasshopper_decrypt_block", "gost_grasshopper_core.c:grasshopper_set_encrypt_key", "gost_grasshopper_core.c:grasshopper_set_decrypt_key"]}
{"id": "C23", "title": "Kuznyechik matches GOST R 34.12-2015", "statement": "The table-driven encryption equals the standard's X, S, L composition with L defined by the LFSR over GF(2^8) modulo x^8+x^7+x^6+x+1, and round keys are those of the standard.", "quantifier": "all keys and blocks", "why_tests_cant": "12288 table entries of 16 bytes each must all be right.", "anchors": ["gost_grasshopper_core.c", "gost_grasshopper_precompiled.c", "gost_grasshopper_galois_precompiled.c", "gost_grasshopper_math.h"]}
{"id": "C24", "title": "Kuznyechik EVP modes round trip", "statement": "For ECB, CBC, CFB, OFB, CTR and CTR-ACPKM decrypting what was encrypted with a fresh context and the same key and IV gives the message.", "quantifier": "all keys, IVs, messages", "why_tests_cant": "Unbounded lengths.", "anchors": ["gost_grasshopper_cipher.c:gost_grasshopper_cipher_do_ecb", "gost_grasshopper_cipher.c:gost_grasshopper_cipher_do_cbc", "gost_grasshopper_cipher.c:gost_grasshopper_cipher_do_cfb", "gost_grasshopper_cipher.c:gost_grasshopper_cipher_do_ofb", "gost_grasshopper_cipher.c:gost_grasshopper_cipher_do_ctr", "gost_grasshopper_cipher.c:gost_grasshopper_cipher_do_ctracpkm"]}
{"id": "C25", "title": "Kuznyechik EVP stream modes do not depend on chunking", "statement": "OFB, CFB, CTR and CTR-ACPKM give the same output for every way of cutting the message into updates.", "quantifier": "all keys, IVs, messages, chunkings", "why_tests_cant": "Exponentially many chunkings.", "anchors": ["gost_grasshopper_cipher.c:gost_grasshopper_cipher_do_ofb", "gost_grasshopper_cipher.c:gost_grasshopper_cipher_do_cfb", "gost_grasshopper_cipher.c:gost_grasshopper_cipher_do_ctr", "gost_grasshopper_cipher.c:gost_grasshopper_cipher_do_ctracpkm"]}
{"id": "C26", "title": "Counter blocks never repeat within the counter period", "statement": "In CTR modes the counter value used for block i is the initial one plus i (modulo 2^64 or 2^128), so that key stream input blocks are pairwise distinct for messages shorter than the period.", "quantifier": "all IVs and all pairs of block numbers", "why_tests_cant": "The period is astronomically larger than any test.", "anchors": ["gost_crypt.c:ctr64_inc", "gost_grasshopper_cipher.c:ctr128_inc", "gost_crypt.c:inc_counter"]}
{"id": "C27", "title": "MGM field multiplication is multiplication in GF(2^n)", "statement": "The multiplication used by the MGM tag equals carry-less polynomial multiplication reduced by x^64+x^4+x^3+x+1 or x^128+x^7+x^2+x+1; it is commutative, distributive and has the unit 1.", "quantifier": "all pairs of 64- and 128-bit elements", "why_tests_cant": "2^128 / 2^256 pairs.", "anchors": ["gost_gost2015.c:gf64_mul", "gost_gost2015.c:gf128_mul_uint64"]}
{"id": "C28", "title": "MGM decrypt accepts and inverts what encrypt produced", "statement": "For every key, nonce, associated data and plaintext within the mode's length limit, decrypting the ciphertext with the tag produced by encryption succeeds and returns the plaintext, provided the decrypting side makes at least one AAD call (an empty one suffices). Defect: decrypting a nonempty ciphertext without any AAD call uses an uninitialised tag counter, and for every key there are messages whose own tag is then rejected.", "quantifier": "all keys, nonces, AAD (also empty), messages, chunkings, both ciphers, both byte orders, any prior content of the contexts", "why_tests_cant": "Absent-AAD paths and unbounded lengths.", "anchors": ["gost_gost2015.c:gost_mgm128_encrypt", "gost_gost2015.c:gost_mgm128_decrypt", "gost_gost2015.c:gost_mgm128_aad", "gost_gost2015.c:gost_mgm128_finish"]}
{"id": "C29", "title": "MGM output and tag do not depend on chunking", "statement": "Ciphertext, recovered plaintext and tag are those of RFC 9058 for the concatenated AAD and the concatenated data, so they do not depend on the split into calls. The total length limit of one call is 2^(n/2-3) bytes, one byte more than the standard admits.", "quantifier": "all splits of AAD and of data", "why_tests_cant": "Exponentially many chunkings.", "anchors": ["gost_gost2015.c:gost_mgm128_encrypt", "gost_gost2015.c:gost_mgm128_aad"]}
{"id": "C30", "title": "MGM rejects wrong tags, out-of-order AAD and use without key, nonce or tag", "statement": "A decryption is accepted iff the supplied tag is the standard's tag of exactly that key, nonce, AAD and ciphertext; after a successful nonempty data call every AAD call is refused; without key or nonce every call fails; a finished message needs a new nonce; a tag can be set only at full length while decrypting and read only after encryption finished. Defects: an empty data call does not close the AAD; giving only a new key silently switches to the all-zero nonce.", "quantifier": "all call histories", "why_tests_cant": "All histories.", "anchors": ["gost_gost2015.c:gost_mgm128_finish", "gost_crypt.c:magma_cipher_do_mgm", "gost_grasshopper_cipher.c:gost_grasshopper_cipher_do_mgm"]}
{"id": "C31", "title": "OMAC and OMAC-ACPKM tags depend on the message only, after any history", "statement": "After any history of set-key, XOF-length, TLSTREE, key-mesh, update and final calls on a magma-mac, kuznyechik-mac or kuznyechik-mac-acpkm context, the tag is that of GOST R 34.13-2015 OMAC (RFC 8645 OMAC-ACPKM) under the key in force on the concatenation of the updates since that key was set, truncated to the length in force; chunking and earlier messages do not matter.", "quantifier": "all keys, messages, chunkings, section sizes (multiples of 16, T >= 48), call histories", "why_tests_cant": "Exponentially many chunkings.", "anchors": ["gost_omac_acpkm.c:CMAC_ACPKM_Update", "gost_omac_acpkm.c:CMAC_ACPKM_Final", "gost_omac_acpkm.c:CMAC_ACPKM_Mesh", "gost_omac.c:omac_imit_update"]}
{"id": "C32", "title": "CryptoPro key wrap round trip and integrity", "statement": "Unwrapping a wrapped session key with the same KEK and UKM returns the session key; unwrapping fails whenever the MAC bytes were altered.", "quantifier": "all KEKs, UKMs, session keys, all alterations of the MAC bytes", "why_tests_cant": "2^256 keys times all alterations.", "anchors": ["gost_keywrap.c:keyWrapCryptoPro", "gost_keywrap.c:keyUnwrapCryptoPro", "gost_keywrap.c:keyDiversifyCryptoPro"]}
{"id": "C33", "title": "KExp15/KImp15 are the standard's and import accepts exactly the exports", "statement": "gost_kexp15 computes CTR(K_enc, IV, K || OMAC(K_mac, IV || K)); gost_kimp15 on input of the right length returns a key exactly when the input is the export of that key, and otherwise fails; the magma-kexp15 and kuznyechik-kexp15 ciphers do the same for any split of the input over calls. (Not guaranteed: the input length, see the _refuted theorems.)", "quantifier": "all keys, IVs, exported keys, inputs, chunkings and earlier context states", "why_tests_cant": "2^256 keys.", "anchors": ["gost_keyexpimp.c:gost_kexp15", "gost_keyexpimp.c:gost_kimp15", "gost_keyexpimp.c:magma_wrap_do", "gost_keyexpimp.c:kuznyechik_wrap_do"]}
{"id": "C34", "title": "KDF tree: length rule and block structure", "statement": "For requests below 2^29 bytes and counters of at most 4 bytes, gost_kdftree2012_256 succeeds exactly for positive multiples of 32 bytes, and its output is KDF_TREE_GOSTR3411_2012_256: block i is HMAC(key, i on R bytes | label | 0x00 | seed | bit length without leading zero bytes), independently of the host byte order. (Defects: no check that fewer than 256^R blocks are requested, so key material repeats; lengths of 2^29 bytes and more wrap the length field.)", "quantifier": "all keys, labels, seeds, lengths, representations 1..4", "why_tests_cant": "Unbounded lengths.", "anchors": ["gost_keyexpimp.c:gost_kdftree2012_256"]}
{"id": "C35", "title": "TLSTREE keys change exactly at the record-number boundaries", "statement": "On little-endian hosts gost_tlstree derives exactly the TLSTREE key of RFC 9189 for every 64-bit record number, refuses other ciphers, gives equal keys to record numbers of one interval (2^12 records for Magma, 2^6 for Kuznyechik) and a fresh seed in every other interval. (Defect: on big-endian hosts the seeds are byte-reversed.)", "quantifier": "all pairs of 64-bit sequence numbers", "why_tests_cant": "2^128 pairs.", "anchors": ["gost_keyexpimp.c:gost_tlstree"]}
{"id": "C36", "title": "TLS record control: key and IV of every record", "statement": "After any history of updates and TLSTREE control calls, the TLSTREE control with record number i (or its predecessor when arg is 1) succeeds and the following data is encrypted in CTR mode under TLSTREE(original key, i) with IV = original IV + i as a big-endian number modulo 2^(8n); other values of arg and non-CTR modes are refused without effect; the sequence-number decrement is exact.", "quantifier": "all IVs and sequence numbers", "why_tests_cant": "Carry chains are hit rarely.", "anchors": ["gost_crypt.c:magma_cipher_ctl", "gost_grasshopper_cipher.c:gost_grasshopper_cipher_ctl", "gost_crypt.c:decrement_sequence"]}
{"id": "C37", "title": "Signature verification accepts every generated signature", "statement": "For a digest of 32 or 64 bytes, signing returns (r,s) exactly if some drawn nonce k in 1..q-1 gives GOST R 34.10's signature (r,s) with r and s not zero and every nonce drawn before it gives none; what EVP_PKEY_sign returns has the announced length and EVP_PKEY_verify accepts it for the public key d*P (d not a multiple of q). Key generation gives d in 1..q-1 and the public key d*P. Defects: a digest of another length ends the process; the nonce 0 makes signing fail instead of being redrawn.", "quantifier": "all curve groups meeting the group laws, all keys, digests and sequences of random numbers", "why_tests_cant": "2^256 keys and nonces.", "anchors": ["gost_ec_sign.c:gost_ec_sign", "gost_ec_sign.c:gost_ec_verify"]}
{"id": "C38", "title": "Verification rejects out-of-range signatures and accepts only solutions of the verification equation", "statement": "Verification returns 1 exactly if 0<r,s<q and r is the x coordinate of z1 P + z2 Q modulo q with z1 = s/e, z2 = -r/e; for Q = dP these are exactly the pairs the signing procedure can produce. Out-of-range parts and missing keys are refused. The digest counts modulo q only. Defect: on the 512-bit test set (multiplied by OpenSSL) a public key at infinity is used and then everyone can sign.", "quantifier": "all pairs (r,s), keys and digests", "why_tests_cant": "Unbounded space of forgeries.", "anchors": ["gost_ec_sign.c:gost_ec_verify"]}
{"id": "C39", "title": "Packed signature codec", "statement": "The packed signature is s||r, each half big-endian of exactly the order's size; unpacking inverts packing and, for strings of the proper length, packing inverts unpacking. Defects: verification accepts other lengths (a trailing byte, zero-extended halves); a part that does not fit is replaced by zero and signing still reports success.", "quantifier": "all r,s below 2^(8*order), all buffers", "why_tests_cant": "Leading zero bytes and odd lengths.", "anchors": ["gost_pmeth.c:pack_sign_cp", "gost_pmeth.c:unpack_cp_signature", "gost_ameth.c:store_bignum"]}
{"id": "C40", "title": "VKO and KEG agreement is symmetric and standard", "statement": "Both parties derive the same key from their private key and the peer's public key with the same UKM, on all hosts; it is the VKO of RFC 7836 (cofactor included), resp. KEG; no key is derived exactly if a key or the UKM is zero modulo q; peer points of small order give no key and small components are invisible; the announced length is the length delivered. Defect: for an all-zero UKM KEG uses 2^120 where the standard says 1.", "quantifier": "all groups, key pairs, UKMs", "why_tests_cant": "2^512 key pairs.", "anchors": ["gost_ec_keyx.c: VKO_compute_key, gost_keg, pkey_gost_ec_derive"]}
{"id": "C41", "title": "Private key encoding round trips in every supported format", "statement": "The PKCS8 encoder writes the private number lowest byte first in exactly 32 or 64 bytes (bare, or as OCTET STRING with LEGACY_PK_WRAP), refuses a number that does not fit, and decoding what it wrote gives the same key pair. A masked key followed by masks M1..Mk (bare or in the SEQUENCE form) decodes to the product modulo the order; OCTET STRING and INTEGER forms decode to the number they hold. Whatever is decoded is a complete key pair of the announced algorithm and parameter set. Exceptions: an empty key field makes the decoder read outside it; zero, numbers not below the order and a negative INTEGER are accepted; the sizes of algorithm and parameter set are not compared.", "quantifier": "all private keys and masks", "why_tests_cant": "2^256 keys; leading zero bytes.", "anchors": ["gost_ameth.c:priv_decode_gost", "gost_ameth.c:priv_encode_gost", "gost_ameth.c:unmask_priv_key"]}
{"id": "C42", "title": "Public key encoding round trips", "statement": "The public key encoder writes x and y lowest byte first, each as long as the order; decoding it gives the same point; the decoder accepts octets exactly if the two halves, reduced modulo the field prime, are the coordinates of a point of the curve; the point at infinity has no encoding; copying parameters recomputes the public key. Exception: encodings are not unique (any even length, one extra leading byte, coordinates increased by the field prime are accepted).", "quantifier": "all points", "why_tests_cant": "Leading zero bytes.", "anchors": ["gost_ameth.c:pub_encode_gost_ec", "gost_ameth.c:pub_decode_gost_ec"]}
{"id": "C43", "title": "Parameter sets are the standard's and usable, after any history and under any schedule", "statement": "After any history of calls, setting a parameter set on a key gives it that name and the standard's numbers (the tc26 256-bit sets B, C, D being the CryptoPro sets A, B, C), unknown sets are refused, and every set has its base point on a non-singular curve, an order in the interval of Hasse of the announced size, different from p, with no small embedding degree. With any number of concurrent threads a key gets the numbers of the set asked for, under the name asked for if no two threads use different names of one set (otherwise the name, not the numbers, may be the other's).", "quantifier": "all parameter sets, histories, thread counts and schedules", "why_tests_cant": "Needs arithmetic over all of the entries and a claim on the whole interval; tests only use them.", "anchors": ["gost_params.c:R3410_2001_paramset", "gost_params.c:R3410_2012_512_paramset", "gost_ec_sign.c:gost_nid2params"]}
{"id": "C44", "title": "ASN.1 cipher parameters carry a message from sender to receiver; malformed ones are refused", "statement": "When a sender initialises a cipher context with key and IV and writes its ASN.1 parameters, and a receiver initialises without key and IV, reads these parameters and sets the key, the receiver decrypts what the sender encrypts: for every parameter set with gost89/gost89-cbc and whatever the receiver's default set, for magma-cbc, for every kuznyechik-ctr message, for magma-ctr messages of at most 8192 bytes, magma-ctr-acpkm of at most 1024 and kuznyechik-ctr-acpkm of at most 4096 (longer ones if the receiver then sets the section size by EVP_CTRL_KEY_MESH). Reading succeeds exactly for well-formed parameters and otherwise changes nothing (gost89, kuznyechik). Defects: undecodable gost89 parameters crash the process, among them those the engine writes for gost89-cnt; magma-ctr reports success for every malformed input and uses a zero IV; longer ACPKM messages are decrypted wrongly.", "quantifier": "all parameter octet strings, parameter sets, keys, IVs, seeds, messages and chunkings", "why_tests_cant": "All malformed inputs, all parameter sets and all message lengths around the section size cannot be enumerated.", "anchors": ["gost_gost2015.c:gost2015_get_asn1_params", "gost_gost2015.c:gost2015_set_asn1_params", "gost_crypt.c:gost89_get_asn1_parameters", "gost_crypt.c:gost89_set_asn1_parameters", "gost_crypt.c:magma_get_asn1_parameters", "gost_grasshopper_cipher.c:gost_grasshopper_get_asn1_parameters"]}
{"id": "C45", "title": "Checksum tools: exit code 0 exactly if every entry of the list matches", "statement": "gostsum -c and gost12sum -c on a list of checksums give each entry the verdict the standard's digest of the file's content deserves, however the reads cut the file and whatever was hashed before, and exit with 0 exactly if all are good; a list printed by the tools is accepted as long as contents stay; OK is never reported for a name unless the check file contains the true digest, a space and that name. Defects: gostsum stops at the first malformed line and gost12sum skips malformed lines, in both cases with exit code 0 and the files not checked; gostsum never matches upper case digits; a missing name or an empty line leads to an invalid memory access.", "quantifier": "all check files, names, file contents, read schedules and read errors, both tools, both digest sizes", "why_tests_cant": "All malformed inputs, all contents and all ways the reads can deliver them.", "anchors": ["gostsum.c:main", "gostsum.c:get_line", "gost12sum.c:get_line"]}
{"id": "C46", "title": "Control calls on public key contexts: failures change nothing, the last accepted value counts", "statement": "For signature/key agreement contexts and for MAC contexts: a control call (numeric or by name) that reports failure leaves the context unchanged; after any history of calls the context holds the last accepted user keying material (0 to 32 bytes), parameter set, VKO digest, cipher and peer-key mark, and a digest only if it was requested and fits the key type; 'ukmhex' takes exactly the bytes written (at most 32); 'paramset' by name selects exactly the documented set (short names in either case, or registered names of the method's table), anything else is refused, and parameter generation then gives a key of the method's type on the standard curve of that name; a MAC context has a tag size within its limits, yields a key exactly if one was set (the last one), and the generated key signs with the GOST 28147-89 MAC of the configured S-box, key and size, whose announced length is the real one. Exceptions, each with a witness: 'vko' accepts texts that are no numbers; Tc26 256-bit sets B, C, D cannot be given by registered name; the numeric parameter set call accepts any curve; a parameter set is ignored if a raw key is set in the signing context itself; 'size' is reduced modulo 2^32; the Kuznyechik MAC refuses size 16 by name.", "quantifier": "all keys, contexts, histories of calls, texts, messages and divisions into updates", "why_tests_cant": "All histories.", "anchors": ["gost_pmeth.c:pkey_gost_ctrl", "gost_pmeth.c:pkey_gost_mac_ctrl", "gost_pmeth.c:pkey_gost_omac_ctrl"]}
{"id": "C47", "title": "Engine parameters: environment wins, values stay, memory is safe", "statement": "After any history of control calls, internal sets, reads and shutdowns: a read in a constant environment returns the environment's value if there is one, otherwise the value last set; a value once read or set and the pointer to it stay until the parameter is set again or the engine shut down, even if the environment changes; out-of-range numbers are refused without effect; no block is freed twice or leaked. The default cipher parameter set and the PBE PRF follow these values. Defect: the pointer returned by a read dangles after the next set of the same parameter.", "quantifier": "all histories of control calls and environments", "why_tests_cant": "All histories.", "anchors": ["gost_ctl.c:gost_set_default_param", "gost_ctl.c:get_gost_engine_param", "gost_ctl.c:gost_control_func"]}
{"id": "C48", "title": "Duplicated contexts are independent and equal", "statement": "A digest context copied with EVP_MD_CTX_copy_ex (GOST R 34.11-94, Streebog, GOST 28147-89 MAC, OMAC, OMAC-ACPKM), also over a context already in use, answers every later call exactly as the original would have at the time of the copy, and the original answers as if there had been no copy, whatever is done to other contexts, including re-keying, finishing, overwriting and freeing the original; no sequence of operations uses a freed or NULL pointer or frees twice. Known violations, shown by witness: a copied MGM cipher context goes on using the key schedule inside the original (re-keying the original re-keys the copy, freeing it leaves the copy with a dangling pointer); a duplicated provider MAC context forgets a tag length that was set.", "quantifier": "all programs of create, call, copy and free operations over any number of contexts, all keys and data", "why_tests_cant": "All interleavings of operations on original and copy; aliasing shows only in particular orders.", "anchors": ["gost_crypt.c:gost_imit_copy", "gost_md.c:gost_digest_copy", "gost_md2012.c:gost_digest_copy", "gost_omac.c:omac_imit_copy", "gost_omac_acpkm.c:omac_acpkm_imit_copy", "gost_prov_mac.c:mac_dupctx", "gost_crypt.c:magma_cipher_init_mgm", "gost_grasshopper_cipher.c:gost_grasshopper_cipher_init_mgm"]}
{"id": "C49", "title": "In-place operation equals out-of-place operation", "statement": "For every cipher mode, a data call whose output buffer is the input buffer produces the same bytes and the same context as a call between two disjoint buffers; it writes only the output buffer; disjoint input is left unchanged; an MGM call that fails writes nothing. Processing a buffer in place in any sequence of calls, then undoing it in place in any other sequence of calls with the same total length, restores all of memory. (Partial overlap is excluded: an example shows it gives other bytes.)", "quantifier": "all modes, keys, IVs, memories, buffer addresses (equal or disjoint), lengths and sequences of calls", "why_tests_cant": "Depends on the order of reads and writes for every length, position within a block and key; tests use a few fixed messages and separate buffers.", "anchors": ["gost_crypt.c:gost_cipher_do_cfb", "gost_crypt.c:gost_cipher_do_cbc", "gost_crypt.c:gost_cipher_do_cnt", "gost_crypt.c:magma_cipher_do_ctr", "gost_crypt.c:magma_cipher_do_ctr_acpkm_omac", "gost_grasshopper_cipher.c:gost_grasshopper_cipher_do_cbc", "gost_grasshopper_cipher.c:gost_grasshopper_cipher_do_cfb", "gost_gost2015.c:gost_mgm128_encrypt", "gost89.c:gost_enc_cfb"]}
{"id": "C50", "title": "Scalar multiplication", "statement": "For every parameter set, word size and scalar in range, gost_ec_point_mul gives n*G, (cofactor*m)*Q and n*G+m*Q; out-of-range scalars and the point at infinity are refused.", "quantifier": "all scalars, points, parameter sets and builds", "why_tests_cant": "2^256 scalars and points; recoding and comb edge cases (carries, zero windows, even scalars) are hit with negligible probability", "anchors": ["gost_ec_sign.c: gost_ec_point_mul", "ecp_id_*.c: scalar_rwnaf, scalar_wnaf, var_smul_rwnaf, var_smul_wnaf_two, fixed_smul_cmb, point_mul*"]}
{"id": "C51", "title": "Provider MACs return the standard tag, of the length they report", "statement": "For each MAC of the provider, a 32-byte key, any requested tag length from 1 to the MAC's maximum (or the default), and any division of the message into update calls, EVP_MAC_final returns the standard's MAC cut to that length and reports exactly that length (GOST 28147-89 MACs of 8-byte messages excepted, see C14). Known violations, shown by witness: any other length is accepted, the reported length is then not the number of bytes written (too long: trailing garbage counted as tag; 0: the final call writes 8 or 16 bytes into a buffer announced to need none); a key of length 0 is accepted and read as a structure; the key-mesh parameter together with a key crashes; a second final call on an OMAC context crashes.", "quantifier": "all MACs, keys, lengths, messages and divisions of them", "why_tests_cant": "All messages, chunkings and lengths.", "anchors": ["gost_prov_mac.c:mac_init", "gost_prov_mac.c:mac_final", "gost_prov_mac.c:mac_set_ctx_params"]}
{"id": "C52", "title": "The authenticated ciphers magma-ctr-acpkm-omac and kuznyechik-ctr-acpkm-omac", "statement": "After an init with a key, every sequence of update, final and unprotected-attribute calls on a ctr-acpkm-omac cipher context returns exactly what the cipher's definition says: the text under CTR-ACPKM with the key derived from the key and the seed by KDF_TREE, and as tag the OMAC of the whole plaintext under the other derived key, encrypted with the following key stream. What is encrypted in any chunks is recovered in any other chunks and accepted; the receiver's final call succeeds exactly for a ciphertext and tag that a sender with the same key, seed and IV produces. Through the CMS algorithm parameters this holds for messages whose length plus the tag is at most 1024 (Magma) or 4096 (Kuznyechik) bytes, and for all lengths if the receiver sets the section size itself; otherwise it fails (a genuine 1024-byte Magma message is rejected), because the receiver's keyed init resets the section size the parameters had set. Data or final calls on a context without a key kill the process.", "quantifier": "all keys, IVs, seeds, texts, chunkings, attribute lists, section sizes and call sequences", "why_tests_cant": "the tag must be rejected for every forged pair and accepted for every genuine one, over all chunkings and lengths; the section mismatch only shows beyond the first section", "anchors": ["gost_gost2015.c: gost2015_final_call, gost2015_acpkm_omac_init, gost2015_process_unprotected_attributes", "gost_crypt.c: magma_cipher_init_ctr_acpkm_omac, magma_cipher_do_ctr_acpkm_omac", "gost_grasshopper_cipher.c: gost_grasshopper_cipher_init_ctracpkm_omac, gost_grasshopper_cipher_do_ctracpkm_omac"]}
{"id": "C53", "title": "Key transport opens exactly what the standards' messages contain", "statement": "EVP_PKEY_encrypt on a GOST key emits, when it succeeds, exactly the DER of the standard's key transport message: GostR3410-KeyTransport with the CEK wrapped (RFC 4357 6.3) under the VKO key of sender and recipient (CryptoPro variant), or PSKeyTransport with KExp15 of the key under the KEG keys (2018 variant); the size announced for a null buffer is the size of that message. EVP_PKEY_decrypt returns a key exactly when the message is such a wrap of that key for the recipient's private key, so every message sent is opened by the recipient with the same key, whatever follows it in the buffer; every other message is refused. Exceptions that are proved: a CryptoPro message with a field of the wrong length ends the recipient's process; a too small output buffer frees the ephemeral key twice; a refused key is left in the caller's buffer; the CryptoPro variant ignores the key length; in the 2018 variant keys of other lengths than 32 bytes are sent but never come back and over-long UKMs in messages are ignored.", "quantifier": "all curves satisfying the group laws, all key types, private numbers, UKMs, keys, random draws, buffer sizes, and all byte strings as incoming messages", "why_tests_cant": "The acceptance condition ranges over all byte strings and keys, the round trip over all random choices of the sender, and the crash and double-free conditions over message shapes and buffer sizes no test uses.", "anchors": ["gost_ec_keyx.c:277-399 pkey_GOST_ECcp_encrypt", "gost_ec_keyx.c:405-546 pkey_gost2018_encrypt", "gost_ec_keyx.c:548-571 pkey_gost_encrypt", "gost_ec_keyx.c:577-660 pkey_GOST_ECcp_decrypt", "gost_ec_keyx.c:666-768 pkey_gost2018_decrypt", "gost_ec_keyx.c:770-792 pkey_gost_decrypt", "gost_asn1.c:14-76"]}
{"id": "C54", "title": "Point formulas are complete", "statement": "The doubling, addition and mixed addition of the eight curve files, and the conversions between the Edwards and the Weierstrass form in the two Edwards files, compute on projective coordinates the point of the curve that chord-and-tangent addition (respectively the Edwards addition law and the map of RFC 7836) prescribes, for every pair of points - equal, opposite or at infinity included - and also when the result overwrites an argument. Exception that is proved: the conversion loses the point of order two of the Edwards curves (its coordinates become zeros).", "quantifier": "all fields of characteristic not 2 (or 3), all curve constants of the stated shape, all points and all projective representations of them, all aliasings the callers use", "why_tests_cant": "the exceptional cases (P+P, P+(-P), P+0) never occur for random points on a 256-bit curve", "anchors": ["ecp_id_*.c: point_double, point_add_mixed, point_add_proj, point_legacy2edwards, point_edwards2legacy"]}
{"id": "C55", "title": "Scalar multiplication on coordinates", "statement": "For the curve y^2 = x^3 + ax + b over the field of p elements of a parameter set, gost_ec_point_mul through the generated file takes and returns affine coordinates: n*G, (cofactor*m)*Q for every point Q of the curve including those of small order, and n*G+m*Q, with the conversion to affine coordinates, infinity written and read as infinity, and out-of-range scalars and infinity as argument refused. Exception that is proved: on the two Edwards curves n*G+m*Q comes out as infinity when Q (with m>0) or the sum has order two. The constants in the files are those of the curves in gost_params.c, the inversion chains compute the inverse, and every entry (j,k) of the precomputed tables is (2k+1)*2^(5*rows*j)*G.", "quantifier": "all scalars, all points of the curve, both word sizes, all eight files, all contents of uninitialised memory", "why_tests_cant": "2^256 scalars and points; points of small order and sums at infinity are never met by chance", "anchors": ["ecp_id_*.c: fe_inv chains, precomp_wnaf, var_smul_rwnaf, fixed_smul_cmb, var_smul_wnaf_two, point_mul*, const_b, const_a, const_b3, const_d, const_S, const_T", "gost_ec_sign.c: gost_ec_point_mul", "gost_params.c: R3410_2001_paramset, R3410_2012_512_paramset"]}
{"id": "C56", "title": "Provider digests over whole histories", "statement": "Through the OpenSSL provider, whatever the interleaving of creating, initialising, updating, duplicating, finishing, re-initialising and freeing digest contexts of one or several provider instances, every finished hash is the standard's hash of exactly the bytes given to that context (or inherited by duplication) since its last initialisation; reported block and output sizes are those of the algorithm; algorithms are found by exactly their names and OIDs. Domain: pieces shorter than 2^31 bytes and no teardown of any instance while contexts exist; outside of it, wrong hashes and use of freed memory are proved to occur.", "quantifier": "all finite histories of calls, all data, all numbers of contexts and instances, all builds of the hash code", "why_tests_cant": "unboundedly many interleavings and data; 4 GiB pieces and several instances are never tested", "anchors": ["gost_prov_digest.c: digest_newctx, digest_dupctx, digest_freectx, digest_init, digest_update, digest_final, digest_get_params, GOST_prov_digests, GOST_prov_deinit_digests", "gost_md.c: GOST_init_digest, GOST_deinit_digest", "gost_md2012.c: GostR3411_2012_256_digest, GostR3411_2012_512_digest", "gost_prov.c: gost_teardown"]}
{"id": "C57", "title": "Provider ciphers over whole histories", "statement": "Through the OpenSSL provider, whatever the interleaving of creating, initialising, updating, duplicating, finishing, re-initialising and freeing cipher contexts of one or several provider instances, what the update and final calls of a context return, put together, is the standard's encryption or decryption of the bytes given to it under the key and IV it was given - with n bytes of value n as padding in ECB and CBC unless padding is switched off - however the message is cut; decryption returns the message, and is refused if the padding is not one; an update returns fewer bytes than its input plus a block and the end at most a block; reported block, key and IV sizes are those of the cipher; ciphers are found by exactly their names and OIDs, and by the engine by their numbers.", "quantifier": "all finite histories of calls, all keys, IVs, data and ways of cutting them, all numbers of contexts and instances, all 17 algorithms for descriptors and names, 13 without a tag for data", "why_tests_cant": "unboundedly many interleavings, lengths and cuts; re-used contexts, several instances and 4 GiB pieces are never tested", "anchors": ["gost_prov_cipher.c: cipher_newctx, cipher_dupctx, cipher_freectx, cipher_get_params, cipher_get_ctx_params, cipher_set_ctx_params, cipher_encrypt_init, cipher_decrypt_init, cipher_update, cipher_final, GOST_prov_ciphers, GOST_prov_deinit_ciphers", "gost_crypt.c: GOST_init_cipher, GOST_deinit_cipher, descriptors", "gost_grasshopper_cipher.c: descriptors", "gost_eng.c: gost_cipher_array, gost_ciphers, create_NIDs", "gost_prov.c: gost_teardown"]}
{"id": "C58", "title": "Algorithms and recipients in PKCS#7 and CMS messages", "statement": "In PKCS#7 and CMS messages a GOST signer is written with the digest that goes with its key and the key's algorithm, both with NULL parameters, and that digest is the default one and the only one a signing context accepts; a key transport recipient is written with exactly the object identifiers and parameters of the standards for the chosen content cipher, and a recipient that reads them back opens the encrypted key whatever its context was set to before; a key agreement message with KExp15 is opened exactly if its encrypted key is the export of a key under the keys agreed with the originator, and otherwise gives an empty key; messages with other algorithms are refused and leave the context as it was; no other request is answered.", "quantifier": "all key types, curves, content ciphers, keys, UKMs, originator keys and encrypted keys, and all key agreement messages whatever their algorithm, parameters, UKM and originator", "why_tests_cant": "the message parts are attacker-controlled and unbounded; tests cover one or two well-formed messages per key type and never a key agreement recipient, an absent optional field or a foreign originator key", "anchors": ["gost_ameth.c: pkey_ctrl_gost, gost_cms_set_kari_shared_info, gost_cms_set_ktri_shared_info, gost_cms_set_shared_info, gost_encode_cms_params, encode_gost_algor_params", "gost_ec_keyx.c: pkey_gost_ec_derive", "gost_keyexpimp.c: magma_wrap_init, magma_wrap_do, kuznyechik_wrap_init, kuznyechik_wrap_do"]}
{"id": "C59", "title": "Loading and unloading the engine", "statement": "While the engine is loaded, exactly the algorithms it lists are found, none is listed twice, and each is found as an existing object of the right kind and number, always the same one, by number and by name; a second load is refused while the engine is there; a load that fails leaves the process as if it had not been tried, except for the numbers used up; after unloading every object that was made has been freed exactly once, and the engine can be loaded again.", "quantifier": "all histories of loading (with any of the load's allocations failing), unloading, listing and looking up by number and by name, for the engine and for the provider, with one instance at a time", "why_tests_cant": "the tests load the engine once and let the process end; the order of lookups, failed loads and reloads is unbounded", "anchors": ["gost_eng.c: populate_gost_engine, create_NIDs, free_NIDs, gost_engine_destroy, gost_digests, gost_ciphers, gost_pkey_meths, gost_pkey_asn1_meths, bind_gost_engine, check_gost_engine, make_gost_engine", "gost_md.c: GOST_init_digest, GOST_deinit_digest", "gost_crypt.c: GOST_init_cipher, GOST_deinit_cipher", "gost_ameth.c: register_ameth_gost", "gost_pmeth.c: register_pmeth_gost", "gost_prov.c: provider_ctx_new, gost_teardown"]}
{"id": "C60", "title": "Objects holding keys", "statement": "An EVP_PKEY of the engine is blank, or has an algorithm, and then possibly a parameter set, and then possibly a public point or a private number. Creating, typing, generating, importing, copying parameters, comparing, checking, printing, exporting parameters and asking for sizes do to this content, and answer about it, what the names of the calls say: a generated object holds the first non-zero number drawn; two objects with key pairs are equal exactly if algorithm, parameter set and private number are; a check accepts exactly the keys in range and of the prime order; copied parameters compare equal; printed numbers can be read back; the announced size is the length of the signatures; and no call fails to return.", "quantifier": "all histories of calls on any number of objects, all algorithms and parameter sets, all random draws, all imported numbers and points, all indentations", "why_tests_cant": "tests generate and compare a few keys per parameter set; the state of an object depends on every call made on it before", "anchors": ["gost_ameth.c: pkey_bits_gost, gost_decode_nid_params, decode_gost_algor_params, gost_set_priv_key, gost_get0_priv_key, print_gost_priv, print_gost_ec_pub, print_gost_ec_param, print_gost_ec, param_missing_gost_ec, param_copy_gost_ec, param_cmp_gost_ec, pub_cmp_gost_ec, pkey_size_gost, gost2001_param_encode, gost2001_param_decode, register_ameth_gost", "gost_pmeth.c: pkey_gost_init, pkey_gost2001_paramgen, pkey_gost2012_paramgen, pkey_gost2001cp_keygen, pkey_gost2012cp_keygen, pkey_gost_check, register_pmeth_gost", "gost_ec_sign.c: gost_ec_keygen, gost_ec_compute_public"]}
{"id": "C61", "title": "Secrets are erased", "statement": "When a cipher or MAC context is cleaned up, when a key object is freed and when a key is wrapped, unwrapped or re-keyed, the memory given back (context bytes, freed blocks, local arrays) does not depend on the keys, IVs and data processed: two runs that differ only in these leave the same bytes.", "quantifier": "all cipher modes, all sequences of calls on a context (initialisation, data, meshing interval, S-box, TLS record controls), all keys, IVs, data and masks; all wrapped and unwrapped keys, accepted or refused", "why_tests_cant": "released memory is not visible through the API, and whether a secret stays depends on every call made on the context before", "anchors": ["gost_crypt.c: gost_cipher_cleanup, gost_magma_mgm_cleanup, gost_imit_cleanup", "gost_grasshopper_cipher.c: gost_grasshopper_cipher_destroy, gost_grasshopper_cipher_destroy_ctr, gost_grasshopper_cipher_cleanup, gost_grasshopper_mgm_cleanup, acpkm_next", "gost89.c: gost_destroy, acpkm_magma_key_meshing", "gost_keywrap.c: keyWrapCryptoPro, keyUnwrapCryptoPro", "gost_keyexpimp.c: gost_kexp15, gost_kimp15", "gost_ameth.c: mackey_free_gost", "gost_pmeth.c: pkey_gost_mac_cleanup"]}
{"id": "C62", "title": "Multiplication by a secret number does not show the number", "statement": "Key generation, the ephemeral number of a signature and key agreement multiply a point by a secret number: the branches taken, the loop turns, the indices of all array accesses and the order of the field routines are the same for all numbers and all points; and the result is the multiple. Authentication with MGM multiplies secret field elements; its trace must not show them either (it does).", "quantifier": "all scalars, all points, all contents of the precomputed table, all generated curve files; more generally all programs accepted by the checker and all stores with the same public part", "why_tests_cant": "timing and cache behaviour are not results of a call; one would have to compare the executions for all pairs of secrets", "anchors": ["ecp_id_*.c: scalar_get_bit, scalar_rwnaf, scalar_wnaf, precomp_wnaf, var_smul_rwnaf, fixed_smul_cmb, var_smul_wnaf_two", "gost89.c: f", "gost_crypt.c: gf64_mul", "gost_grasshopper_cipher.c: gf128_mul_uint64"]}
