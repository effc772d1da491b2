{
 "claims": [
  {
   "property": "C01",
   "status": "proved",
   "theorems": [
    "C01_add",
    "C01_sub"
   ],
   "note": "Exact for every pair of well-formed operands. The model is functional; in-place use reads each digit before writing it."
  },
  {
   "property": "C02",
   "status": "proved",
   "theorems": [
    "C02_mul",
    "C02_mul_algorithms",
    "C02_comba_no_wrap"
   ],
   "note": ""
  },
  {
   "property": "C03",
   "status": "partial",
   "theorems": [
    "C03_sqr_refuted",
    "C03_sqr_partial",
    "C03_sqr_magnitude",
    "C03_sqr_stale_sign",
    "C03_sqr_baseline"
   ],
   "note": "refuted as stated: for 1..64 digits the destination keeps its previous sign; exact for every non-negative prior destination, and the magnitude is always right."
  },
  {
   "property": "C07",
   "status": "partial",
   "theorems": [
    "C07_cmp_refuted",
    "C07_cmp_partial",
    "C07_cmp_abs"
   ],
   "note": "refuted for the negative zero that cry_mpi_shr can leave; proved for all canonical values; cmp_abs proved for all values."
  },
  {
   "property": "C08",
   "status": "proved",
   "theorems": [
    "C08_shl",
    "C08_shr"
   ],
   "note": ""
  },
  {
   "property": "C04",
   "status": "proved",
   "theorems": [
    "C04_div_abs",
    "C04_div_by_zero"
   ],
   "note": "Full digit-level algorithm (HAC 14.20), all sizes; the magnitude remainder keeps the dividend's sign when |a| < |b|."
  },
  {
   "property": "C05",
   "status": "partial",
   "theorems": [
    "C05_div_refuted",
    "C05_div_partial",
    "C05_div_outcome",
    "C05_div_null_remainder_refuted",
    "C05_div_remainder_over_divisor_refuted"
   ],
   "note": "refuted as stated (-6/2 gives 3; negative divisors wrong; NULL remainder with differing signs is undefined behaviour). Proved for b > 0 and a >= 0 or b not dividing a; the exact outcome is proved for every sign combination."
  },
  {
   "property": "C06",
   "status": "proved",
   "theorems": [
    "C06_mod",
    "C06_mod_zero"
   ],
   "note": ""
  },
  {
   "property": "C09",
   "status": "partial",
   "theorems": [
    "C09_mod_exp_refuted",
    "C09_mod_exp_partial",
    "C09_exp",
    "C09_negative_args"
   ],
   "note": "refuted at b^0 mod 1 (gives 1); proved for every other modular case and for every plain power."
  },
  {
   "property": "C10",
   "status": "partial",
   "theorems": [
    "C10_gcd_refuted",
    "C10_gcd_partial",
    "C10_gcd_zero_l",
    "C10_gcd_zero_r"
   ],
   "note": "refuted at gcd(x,0), which returns 0; proved for all positive pairs and for gcd(0,y), for every content of the uninitialised digits read."
  },
  {
   "property": "C11",
   "status": "proved",
   "theorems": [
    "C11_lcm"
   ],
   "note": ""
  },
  {
   "property": "C12",
   "status": "proved",
   "theorems": [
    "C12_inv",
    "C12_inv_none"
   ],
   "note": "Proved for every integer a and every m > 0. On failure the model returns an error and no value."
  },
  {
   "property": "C13",
   "status": "proved",
   "theorems": [
    "C13_sqrt",
    "C13_sqrt_negative"
   ],
   "note": ""
  },
  {
   "property": "C17",
   "status": "partial",
   "theorems": [
    "C17_count_bits",
    "C17_count_bytes",
    "C17_bit_test",
    "C17_bit_test_refuted"
   ],
   "note": "Bit and byte length proved for all values; the bit test is proved for all positions inside the digits in use, and refuted beyond them (the internal macro reads undefined memory there)."
  },
  {
   "property": "C63",
   "status": "proved",
   "theorems": [
    "C63_long_inv",
    "C63_long_inv_none"
   ],
   "note": "The signed accumulator wraps only in the last round, where it is not used."
  },
  {
   "property": "C14",
   "status": "proved",
   "theorems": [
    "C14_load",
    "C14_load_store",
    "C14_store_load",
    "C14_store",
    "C14_too_small"
   ],
   "note": "Byte order and padding are specified by be_val/be_bytes in BytesSpec.v. Negative integers: the sign is not stored."
  },
  {
   "property": "C15",
   "status": "proved",
   "theorems": [
    "C15_roundtrip",
    "C15_store",
    "C15_load"
   ],
   "note": "Also proved: the text written denotes the value in positional notation, without leading zeros, and every digit string of radix 2..36 loads as the value it denotes."
  },
  {
   "property": "C16",
   "status": "partial",
   "theorems": [
    "C16_set_int_refuted",
    "C16_set_int_partial",
    "C16_get_int_refuted",
    "C16_get_int_partial",
    "C16_get_int_error_partial",
    "C16_get_int_between"
   ],
   "note": "refuted at the boundary: storing LONG_MIN negates it (undefined behaviour) and values from -2^64+1 to -2^63 are returned as positive numbers instead of an error. Proved exact for every other value."
  },
  {
   "property": "C18",
   "status": "proved",
   "theorems": [
    "C18_prime_accepted",
    "C18_zero_base_refuted"
   ],
   "note": "For every prime (2 included) whenever each base is drawn without error and non-zero; a zero base makes a prime fail."
  },
  {
   "property": "C19",
   "status": "proved",
   "theorems": [
    "C19_accepted",
    "C19_small_primes",
    "C19_even_refuted"
   ],
   "note": "Beyond the statement: 4 can be accepted, since 2 is not among the trial divisors."
  },
  {
   "property": "C20",
   "status": "partial",
   "theorems": [
    "C20_rand_refuted",
    "C20_rand_partial",
    "C20_rand_range_partial",
    "C20_rand_range_normal"
   ],
   "note": "refuted: with more digits than the destination's capacity and leading zero bytes drawn, a digit outside the allocation is written. Proved in range in every other case."
  },
  {
   "property": "C21",
   "status": "proved",
   "theorems": [
    "C21_all_or_nothing"
   ],
   "note": ""
  },
  {
   "property": "C64",
   "status": "partial",
   "theorems": [
    "C64_print_refuted",
    "C64_print_hex_partial"
   ],
   "note": "refuted for radix below 16 (255 in radix 2 needs 9 bytes, 4 are allocated); proved for radix 16."
  },
  {
   "property": "C22",
   "status": "proved",
   "theorems": [
    "C22_roundtrip",
    "C22_bad_length",
    "C22_bad_character",
    "C22_legal_characters",
    "C22_empty_refuted"
   ],
   "note": "Every non-empty byte string. Beyond the statement: the empty string is undefined behaviour in both directions."
  },
  {
   "property": "C23",
   "status": "proved",
   "theorems": [
    "C23_rfc4648"
   ],
   "note": ""
  },
  {
   "property": "C24",
   "status": "proved",
   "theorems": [
    "C24_ccitt",
    "C24_ibm",
    "C24_dnp",
    "C24_eth",
    "C24_unique",
    "C24_unique_applies",
    "C24_final16",
    "C24_final32"
   ],
   "note": "The register is the remainder of the GF(2) polynomial division, shown unique."
  },
  {
   "property": "C25",
   "status": "proved",
   "theorems": [
    "C25_chunks"
   ],
   "note": ""
  },
  {
   "property": "C26",
   "status": "partial",
   "theorems": [
    "C26_memxor",
    "C26_memxor2_refuted",
    "C26_no_memory_refuted",
    "C26_memxor2_partial"
   ],
   "note": "cry_memxor proved for all placements. cry_memxor2 refuted when the destination straddles the gap between two disjoint sources, and when malloc fails; proved for every other placement."
  },
  {
   "property": "C32",
   "status": "proved",
   "theorems": [
    "C32_involution",
    "C32_chunks",
    "C32_permutation"
   ],
   "note": "Every non-empty key (with a zero-length key the code reads outside the key)."
  },
  {
   "property": "C35",
   "status": "partial",
   "theorems": [
    "C35_affine",
    "C35_long_roundtrip",
    "C35_long_key_refuted"
   ],
   "note": "Proved for keys of 1..32 bytes; keys over 32 bytes are silently cut, so an even multiplier beyond byte 32 is accepted (refuted there); round trip holds for them too."
  },
  {
   "property": "C65",
   "status": "proved",
   "theorems": [
    "C65_rc4",
    "C65_every_key"
   ],
   "note": ""
  },
  {
   "property": "C37",
   "status": "partial",
   "theorems": [
    "C37_spec",
    "C37_roundtrip",
    "C37_encrypt_pieces",
    "C37_decrypt_pieces",
    "C37_empty_refuted"
   ],
   "note": "Proved for every non-empty whole-block message, power-of-two block size up to 16, any cipher; refuted for decrypting an empty message (length underflow)."
  },
  {
   "property": "C38",
   "status": "partial",
   "theorems": [
    "C38_encrypt_is_cfb",
    "C38_cfb_refuted",
    "C38_tail_refuted",
    "C38_cfb_partial",
    "C38_cfb8_spec",
    "C38_cfb8_roundtrip",
    "C38_cfb8_continue_refuted"
   ],
   "note": "refuted for full-block CFB of two or more blocks (decryption feeds back its own output); 8-bit CFB round-trips."
  },
  {
   "property": "C39",
   "status": "partial",
   "theorems": [
    "C39_stream",
    "C39_blocks",
    "C39_involution",
    "C39_pieces",
    "C39_inplace_refuted",
    "C39_one_byte_refuted",
    "C39_overflow_refuted"
   ],
   "note": "Proved for 16-byte blocks in every way, for 2..15-byte blocks out of place, and in place below 64 bytes when the counter blocks fit the buffer of 64 bytes; refuted in place for 8-byte blocks from 64 bytes on, and for 13-byte blocks from 53 bytes on, where the buffer overflows."
  },
  {
   "property": "C40",
   "status": "proved",
   "theorems": [
    "C40_roundtrip"
   ],
   "note": "any block cipher with 16-byte blocks, any IV length, additional data and text cut anywhere at multiples of 16"
  },
  {
   "property": "C41",
   "status": "partial",
   "theorems": [
    "C41_standard",
    "C41_field",
    "C41_field_remainder",
    "C41_long_refuted"
   ],
   "note": "SP 800-38D for IV, additional data and text below 2^29 bytes each; refuted for longer ones (the length field is cut to 32 bits)"
  },
  {
   "property": "C42",
   "status": "proved",
   "theorems": [
    "C42_cmac",
    "C42_cut_irrelevant"
   ],
   "note": "RFC 4493 for every message and every cut"
  },
  {
   "property": "C27",
   "status": "proved",
   "theorems": [
    "C27_roundtrip",
    "C27_cipher"
   ],
   "note": "all keys of 16 bytes or more (the first 16, 24 or 32 count), all data in whole blocks"
  },
  {
   "property": "C28",
   "status": "proved",
   "theorems": [
    "C28_fips197"
   ],
   "note": "key schedule, cipher and inverse cipher equal FIPS 197's for every key and block; the tables are checked entry by entry against the field definition"
  },
  {
   "property": "C29",
   "status": "partial",
   "theorems": [
    "C29_reuse_refuted",
    "C29_one_turn_partial"
   ],
   "note": "refuted: after a decryption the same context encrypts wrongly (InvMixColumns is applied to the round keys a second time). Proved: any number of encryptions followed by any number of decryptions"
  },
  {
   "property": "C45",
   "status": "proved",
   "theorems": [
    "C45_md5",
    "C45_any_piece"
   ],
   "note": "RFC 1321 for every message and partition with pieces below 2^32 bytes (the property's own bound); C45_any_piece says exactly what larger pieces give. T[i] is specified from the sine series"
  },
  {
   "property": "C46",
   "status": "partial",
   "theorems": [
    "C46_sha1",
    "C46_any_piece"
   ],
   "note": "FIPS 180-4 for every message and partition with pieces below 2^32 bytes; for larger pieces the length field counts each piece modulo 2^32 (C46_any_piece)"
  },
  {
   "property": "C47",
   "status": "proved",
   "theorems": [
    "C47_sha256",
    "C47_cut_irrelevant"
   ],
   "note": "every message, every partition. SHA-224 is not in the code"
  },
  {
   "property": "C48",
   "status": "partial",
   "theorems": [
    "C48_last_block_refuted",
    "C48_sha512_partial",
    "C48_other_lengths"
   ],
   "note": "refuted when the length modulo 128 is 112..127: the length is never processed. Proved for all other lengths (pieces below 2^32 bytes); C48_other_lengths gives what the code computes otherwise"
  },
  {
   "property": "C43",
   "status": "partial",
   "theorems": [
    "C43_hmac_sha256",
    "C43_hmac_sha1",
    "C43_hmac_md5",
    "C43_hmac_any",
    "C43_hmac_sha512_refuted"
   ],
   "note": "RFC 2104 for every hash with 64-byte blocks; refuted for SHA-512, whose block is 128 bytes (the code always uses 64). A NULL init pointer and the context left by a digest: C84"
  },
  {
   "property": "C30",
   "status": "proved",
   "theorems": [
    "C30_dec_enc",
    "C30_enc_dec",
    "C30_cipher"
   ],
   "note": "every key and every message of whole blocks; other message sizes wrap the size counter (undefined behaviour)"
  },
  {
   "property": "C31",
   "status": "proved",
   "theorems": [
    "C31_des",
    "C31_tdea",
    "C31_other_sizes"
   ],
   "note": "8-byte keys give DES, 24 bytes or more TDEA (first 24 bytes). C31_other_sizes: any other size silently uses single DES on the first 8 bytes, zero padded"
  },
  {
   "property": "C33",
   "status": "proved",
   "theorems": [
    "C33_history",
    "C33_roundtrip",
    "C33_cut",
    "C33_cut_refuted"
   ],
   "note": "The output depends on key and IV only, whatever the context held before, and encrypting twice from the same key and IV restores the message. Cutting a message at a multiple of 4 bytes is invisible; C33_cut_refuted shows that cutting elsewhere loses key stream, so the decrypting side must use the same pieces."
  },
  {
   "property": "C34",
   "status": "proved",
   "theorems": [
    "C34_trivium"
   ],
   "note": "The 32-bit-parallel code equals the bit-serial eSTREAM specification. The first key stream bit of each 32 is the top bit of the little-endian word, the original submission's ordering, not the later one."
  },
  {
   "property": "C51",
   "status": "proved",
   "theorems": [
    "C51_rsa",
    "C51_rsa_none",
    "C51_short_modulus",
    "C51_eleven"
   ],
   "note": "every valid two-prime key with a modulus of at least 12 bytes, every message of 1 to modulus length - 11 bytes, every generator output. Findings: with a modulus under 11 bytes the size check wraps (out-of-bounds write), with exactly 11 bytes the loop does not end; without padding the message comes back left justified with trailing zeros. Key generation is not modelled"
  },
  {
   "property": "C52",
   "status": "partial",
   "theorems": [
    "C52_blocks_partial",
    "C52_multi_wrong",
    "C52_refuted"
   ],
   "note": "refuted: each decrypted block is written at the start of the output, so for every key and every message longer than one block the tail of the output is memory never written. Encryption is right: each block decrypts to its piece (C52_blocks_partial)"
  },
  {
   "property": "C53",
   "status": "partial",
   "theorems": [
    "C53_sign_verify",
    "C53_sound",
    "C53_one_message",
    "C53_multi_wrong",
    "C53_none_prefix",
    "C53_refuted"
   ],
   "note": "proved for padded messages of one block; refuted for longer messages (never accepted) and without padding (accepted for every prefix, the empty message included)"
  },
  {
   "property": "C54",
   "status": "proved",
   "theorems": [
    "C54_dh"
   ],
   "note": "every modulus, base and pair of exponents, through the exported tokens; output buffers at least as long as the modulus"
  },
  {
   "property": "C55",
   "status": "proved",
   "theorems": [
    "C55_dsa",
    "C55_sign"
   ],
   "note": "valid domain parameters with q below 2^512 (the capacity of a fresh object), every private key, draw and message; key generation is not modelled"
  },
  {
   "property": "C56",
   "status": "partial",
   "theorems": [
    "C56_verify_partial",
    "C56_forgery",
    "C56_refuted",
    "C56_malleable"
   ],
   "note": "refuted: an s that is not invertible modulo q, for instance 0, is accepted for every message and public key, because the error code is lost in CRY_CHK (dsa.c:5). For invertible s the result is that of FIPS 186-4 except for the missing range checks (C56_malleable)"
  },
  {
   "property": "C57",
   "status": "proved",
   "theorems": [
    "C57_elgamal",
    "C57_elgamal_bytes",
    "C57_succeeds",
    "C57_verify"
   ],
   "note": "every prime, base, private key, message and sequence of draws; r and s are not range checked by the verifier"
  },
  {
   "property": "C36",
   "status": "partial",
   "theorems": [
    "C36_init",
    "C36_random",
    "C36_dimension",
    "C36_roundtrip",
    "C36_block",
    "C36_whole",
    "C36_empty_refuted",
    "C36_overrun_refuted",
    "C36_ikey_refuted"
   ],
   "note": "proved for every key of at least one byte with the inverse computed by the library, all messages (completed by zeros to whole blocks). Refuted at the edges: an empty key is accepted and encryption then never ends; a partial last block writes beyond the message length; a caller supplied inverse is not checked"
  },
  {
   "property": "C44",
   "status": "proved",
   "theorems": [
    "C44_roundtrip",
    "C44_sound",
    "C44_failure",
    "C44_exact",
    "C44_short_refuted"
   ],
   "note": "all keys of 16 bytes or more, all data of one block or more, with or without an incomplete last block (which is copied in clear). Unwrapping fewer than 16 bytes reads an unwritten buffer (C44_short_refuted)"
  },
  {
   "property": "C66",
   "status": "partial",
   "theorems": [
    "C44_rfc3394",
    "C44_rfc3394_unwrap",
    "C44_rfc3394_refuted",
    "C44_exact"
   ],
   "note": "proved up to 42 blocks; refuted from 43 blocks on, where the step counter exceeds the one byte it is added to"
  },
  {
   "property": "C49",
   "status": "proved",
   "theorems": [
    "C49_stream",
    "C49_unseeded"
   ],
   "note": "all seeds, all sequences of request sizes; the stream is the counter mode stream of FIPS 197"
  },
  {
   "property": "C50",
   "status": "partial",
   "theorems": [
    "C50_keeps",
    "C50_stream",
    "C50_request",
    "C50_init_partial",
    "C50_full_seed",
    "C50_init_refuted",
    "C50_short_seed_refuted",
    "C50_long_seed_refuted",
    "C50_cut_refuted"
   ],
   "note": "generation keeps the documented minimum and word requests read one stream: proved. Refuted: seeding compares with the minimum minus one, and one 16 byte seed gives only zeros for ever"
  },
  {
   "property": "C58",
   "status": "partial",
   "theorems": [
    "C58_add_partial",
    "C58_dbl_partial",
    "C58_neutral",
    "C58_inverse_partial",
    "C58_comm",
    "C58_assoc_partial",
    "C58_group",
    "C58_order2",
    "C58_refuted"
   ],
   "note": "refuted: doubling a point of order two (y = 0) fails instead of giving infinity, so P + (-P) fails for such P. Proved for every other pair of points of every non-singular curve over a prime field p > 2, stored tables of a included; the law itself is proved to be a commutative group (associativity included)."
  },
  {
   "property": "C59",
   "status": "partial",
   "theorems": [
    "C59_mul_partial",
    "C59_mul_any",
    "C59_mul_plain",
    "C59_repeated",
    "C59_refuted"
   ],
   "note": "refuted for points with a multiple of order two (the window 8P..15P cannot be built, already for k = 1); proved for every other point, in particular of odd order, and every k; a negative k acts as its absolute value"
  },
  {
   "property": "C60",
   "status": "proved",
   "theorems": [
    "C60_ecdh"
   ],
   "note": "every non-singular curve, every base point of odd order, every pair of private scalars. That the base points of the named curves have odd order is not proved here (n is odd and n G = O was only computed outside Coq)"
  },
  {
   "property": "C61",
   "status": "partial",
   "theorems": [
    "C61_ecdsa_partial",
    "C61_sign_value",
    "C61_verify",
    "C61_verify_err",
    "C61_keygen",
    "C61_zero_nonce",
    "C61_nine_digits",
    "C61_refuted",
    "C61_zero_nonce_refuted"
   ],
   "note": "refuted: r is the x coordinate not reduced modulo n, so a signature with x >= n is rejected; the nonce 0 is reported as success with a stale s; with an order of nine digits (secp521r1) some draws write outside the nonce. Proved otherwise, for all domain parameters, keys, nonces and messages."
  },
  {
   "property": "C62",
   "status": "proved",
   "theorems": [
    "C62_named",
    "C62_other"
   ],
   "note": "all eleven curves. The numbers the loaded groups are compared with were converted from the library's own tables, except the closed-form primes and a of the eight secp curves: agreement of b, G, n and the brainpool parameters with SEC 2 / RFC 5639 is not checked. That p and n are prime and n G is infinity is not part of the claim and not proved"
  },
  {
   "property": "C67",
   "status": "proved",
   "theorems": [
    "C67_bases",
    "C67_round",
    "C67_test"
   ],
   "note": "the quarter is proved for all bases below n; because the generator sets the top bit of the draw only about half of the bases can be drawn, which gives 129/256 per round over the byte strings"
  },
  {
   "property": "C68",
   "status": "partial",
   "theorems": [
    "C68_success_partial",
    "C68_rounds",
    "C68_search",
    "C68_none",
    "C68_product",
    "C68_short_refuted",
    "C68_last_refuted",
    "C68_endless_refuted"
   ],
   "note": "refuted: a draw starting with a whole digit of zeros loses the top bits (72 bits asked for, 3 delivered), the value 1 does not end, a prime found at the last allowed try is reported as failure. Proved: success means odd, below 2^bits and accepted by the test, and of the exact size if the draw does not start with a digit of zeros; the search returns the first number accepted"
  },
  {
   "property": "C69",
   "status": "partial",
   "theorems": [
    "C69_keygen_partial",
    "C69_valid",
    "C69_private_refuted",
    "C69_even_refuted",
    "C69_size_refuted",
    "C69_same_refuted"
   ],
   "note": "refuted: d is never computed; after 10000 rejected rounds success is reported (even e, odd size, p = q). Proved: success means a good key or 10000 rejected rounds, and for a good key with p and q prime an inverse d exists. Primality is acceptance by the test"
  },
  {
   "property": "C70",
   "status": "partial",
   "theorems": [
    "C70_keygen_partial",
    "C70_domain",
    "C70_order",
    "C70_sign",
    "C70_large_refuted",
    "C70_zero_refuted"
   ],
   "note": "refuted for the private key, which is drawn below (p-1)/q: it can be 0 or exceed q. The rest is proved for every run: p and q accepted by the test, 2q divides p-1, g = h^((p-1)/q) mod p different from 1, y = g^x; if p and q are prime then g has order q and signatures verify. Sizes are upper bounds only, and 512+64l is computed modulo 2^32"
  },
  {
   "property": "C71",
   "status": "partial",
   "theorems": [
    "C71_copy",
    "C71_abs",
    "C71_add",
    "C71_sub",
    "C71_shr",
    "C71_shr_neg",
    "C71_shr_zero_partial",
    "C71_shr_zero_refuted",
    "C71_shr_in_place",
    "C71_shl_partial",
    "C71_memory",
    "C71_shl_refuted"
   ],
   "note": "refuted for a left shift into another object: when the second allocation is refused the destination has already been overwritten by a copy of the operand. Everything else is proved for all aliasing patterns, buffer contents and refused allocations; right shifts of negative numbers are exact towards zero, except that a result of zero may carry a minus sign (C71_shr_zero_refuted)"
  },
  {
   "property": "C72",
   "status": "partial",
   "theorems": [
    "C72_mul",
    "C72_mul_unchanged",
    "C72_mul_dig",
    "C72_sqr_partial",
    "C72_sqr_refuted",
    "C72_mul_dig_refuted"
   ],
   "note": "multiplication is proved for all operands and all three algorithms; with an operand of at most 300 digits the destination is even unchanged on failure. refuted for squaring into another object that holds a negative number (the result is negative) and for the digit 0 times a number into such an object (minus zero)"
  },
  {
   "property": "C73",
   "status": "partial",
   "theorems": [
    "C73_div",
    "C73_div_neg_partial",
    "C73_div_signs_partial",
    "C73_mod",
    "C73_zero",
    "C73_memory",
    "C73_null_refuted",
    "C73_alias_refuted",
    "C73_lost_refuted",
    "C73_unchanged_refuted"
   ],
   "note": "refuted for operands of different sign: a missing remainder is dereferenced, a remainder stored over the divisor is 0, and a refused allocation can be reported as success with quotient 0 instead of -1. With a dividend below the divisor a failing call has already cleared the quotient. Proved for all non-negative dividends and, within those limits, for negative ones; C73_div_signs_partial gives the exact outcome for every pair of signs"
  },
  {
   "property": "C74",
   "status": "partial",
   "theorems": [
    "C74_exp_partial",
    "C74_exp_neg",
    "C74_gcd",
    "C74_lcm",
    "C74_sqrt",
    "C74_sqrt_neg",
    "C74_inv_partial",
    "C74_inv_endless_refuted",
    "C74_exp_refuted",
    "C74_gcd_unchanged_refuted",
    "C74_lcm_refuted",
    "C74_inv_lost_refuted",
    "C74_inv_alias_refuted"
   ],
   "note": "refuted: exponentiation uses an uninitialised object if its first allocation is refused; a failing gcd can overwrite its destination; the lcm of operands of different sign dereferences a missing remainder; inversion ignores return codes, so that one refused allocation gives a wrong inverse with code 0, running out of memory makes it loop for ever, and an inverse stored over the modulus is wrong. Proved: the square root for all patterns; exponentiation once its first allocation is granted; gcd and lcm of non-negative operands (second one positive, or both zero for gcd); inversion while no allocation is refused and the destination is not the modulus"
  },
  {
   "property": "C75",
   "status": "proved",
   "theorems": [
    "C75_domain",
    "C75_order",
    "C75_add",
    "C75_mul",
    "C75_ecdh",
    "C75_ecdh_peer",
    "C75_ecdsa",
    "C75_verify"
   ],
   "note": "proved for the six curves; primality and order by certificates checked inside Coq. secp384r1, secp521r1 and the brainpool curves are not covered here"
  },
  {
   "property": "C76",
   "status": "partial",
   "theorems": [
    "C76_sign_partial",
    "C76_refuted"
   ],
   "note": "refuted: the hash is cut to whole 64-bit digits of the order, so that on secp224r1 and secp224k1 a 32-byte hash gives a signature that is not the standard's, with every key and nonce. Proved when the order's length is a multiple of 64 bits or the hash is not longer than the order"
  },
  {
   "property": "C77",
   "status": "partial",
   "theorems": [
    "C77_dbl_partial",
    "C77_add_partial",
    "C77_mul_partial",
    "C77_init",
    "C77_ctx_init",
    "C77_ctx_clear",
    "C77_mul_refuted",
    "C77_add_refuted",
    "C77_dbl_refuted"
   ],
   "note": "refuted: when the memory for the table of multiples is refused, cry_ecp_mul returns 0 and leaves the destination as it was, for every point and scalar; with one refused allocation inside the inversion, addition and doubling return 0 with a wrong point, which need not be on the curve. Proved while no allocation is refused: addition, doubling and multiplication with any aliasing of whole points; with any allocations refused: initialisation of points and of ECDSA contexts without a named curve. "
  },
  {
   "property": "C78",
   "status": "partial",
   "theorems": [
    "C78_agree_partial",
    "C78_final_partial",
    "C78_load_bin",
    "C78_rand_range",
    "C78_sign_partial",
    "C78_verify_partial",
    "C78_verify_no_partial",
    "C78_keygen_partial",
    "C78_forged_refuted",
    "C78_verify_refuted",
    "C78_sign_refuted",
    "C78_ecdh_refuted",
    "C78_ecdh_init_refuted"
   ],
   "note": "refuted: with two refused allocations cry_ecdsa_verify accepts a signature that does not satisfy the equation; with another one its clean-up reads coordinates that were never initialised; cry_ecdsa_sign, cry_ecdh_agree, cry_ecdh_final and cry_ecdh_init return 0 after a refused allocation without a result. Proved while no allocation is refused: the results, the caller's other objects and the release of temporaries; reading bytes and drawing a random number with any allocations refused"
  },
  {
   "property": "C79",
   "status": "partial",
   "theorems": [
    "C79_rsa_partial",
    "C79_rsa_sign_partial",
    "C79_rsa_accept",
    "C79_dh_agree_partial",
    "C79_dh_secret_partial",
    "C79_elgamal_verify_partial",
    "C79_dh_refuted",
    "C79_elgamal_refuted",
    "C79_rsa_refuted"
   ],
   "note": "refuted: the exponentiation of C74 uses an uninitialised object when its first allocation is refused, and so do, for every key and input, Diffie-Hellman (first allocation), ElGamal verification (third) and RSA decryption and verification (the first allocation of the exponentiation). Proved for every pattern of refused allocations: the outcome is that undefined behaviour, only after a refusal, or the exact result, or an error after a refusal; RSA accepts nothing but an e-th root of the padded message. RSA statements are for messages of one block with padding 1.5; byte buffers are not objects of the model, so their release is not seen"
  },
  {
   "property": "C80",
   "status": "partial",
   "theorems": [
    "C80_dsa_sign_partial",
    "C80_dsa_partial",
    "C80_dsa_verify_partial",
    "C80_elgamal_sign_partial",
    "C80_elgamal_partial",
    "C80_dsa_verify_refuted",
    "C80_dsa_sign_refuted"
   ],
   "note": "refuted: dsa.c drops the return codes of everything after the initialisation of its locals, so that with memory running out there cry_dsa_verify accepts every signature of every message under every key, and cry_dsa_sign returns 0 with the signature untouched. Proved while no allocation is refused: both signatures are the specified ones, are accepted, change nothing else and leak nothing; for ElGamal verification may then meet any refusals. Order q below 2^512; ElGamal draws whose top digit is not zero. Missing: signing when an allocation is refused, beyond the counterexample (it calls the inversion of C74)"
  },
  {
   "property": "C81",
   "status": "partial",
   "theorems": [
    "C81_sign_partial",
    "C81_verify_partial",
    "C81_refuted"
   ],
   "note": "refuted: the hash is cut to whole 64-bit digits of q. For every prime q below 2^512 whose length is not a multiple of 64 bits (160 or 224 bits, for example) and every length of hash greater than that of q there is a hash for which no signature is the one of the standard, whatever the key and nonce. Proved to be the standard's in all other cases, for signing and verification"
  },
  {
   "property": "C82",
   "status": "partial",
   "theorems": [
    "C82_blocks",
    "C82_cbc_encrypt",
    "C82_cbc_decrypt",
    "C82_cfb",
    "C82_cfb8_encrypt",
    "C82_cfb8_decrypt",
    "C82_ctr",
    "C82_gcm_encrypt",
    "C82_gcm_decrypt",
    "C82_arc4",
    "C82_above_refuted",
    "C82_below_refuted",
    "C82_gcm_refuted"
   ],
   "note": "refuted for some overlaps: block encryption, CBC and CFB encryption give other bytes when the destination starts one byte above the source; CBC decryption and CTR when it starts one byte below; GCM when it starts less than a block below. Proved for every memory, length and cipher when the destination is the source or apart from it, when it is below the source with any overlap (blocks, CBC encryption, CFB, CFB-8, ARC4), or at least a block below (GCM). The cipher is an arbitrary function on blocks that reads a whole block before it writes one; GCM and ARC4 contexts are values"
  },
  {
   "property": "C83",
   "status": "partial",
   "theorems": [
    "C83_div",
    "C83_mul",
    "C83_sqr",
    "C83_inv",
    "C83_point",
    "C83_inv_loops_refuted",
    "C83_inv_refuted",
    "C83_sqr_refuted",
    "C83_point_refuted"
   ],
   "note": "refuted for inversion without CRY_MPI_INV_EUCLID: for a multiple of the modulus the call never ends, for every other operand without inverse it returns 0 and a number that is no inverse where the shipped build returns -1; for squaring into an object holding a negative number; and for points with a multiple of order two, where only the build without the window may succeed. Proved equal, for all operands: magnitude division, multiplication under all eight settings, squaring into a non-negative object, inversion of everything that has an inverse modulo m > 1, and multiples of points without multiple of order two. A build with CRY_ECP_MUL_WIN and not CRY_ECP_MUL_SLIDING_WIN is not modelled: it does not compile"
  },
  {
   "property": "C84",
   "status": "partial",
   "theorems": [
    "C84_sha256",
    "C84_sha1",
    "C84_md5",
    "C84_sha512",
    "C84_sha256_no_init",
    "C84_hmac_sha256",
    "C84_hmac_sha1",
    "C84_hmac_md5",
    "C84_hmac_null_init",
    "C84_sha256_no_init_refuted",
    "C84_digest_twice_refuted",
    "C84_hmac_null_init_refuted"
   ],
   "note": "refuted for a second digest call without init (another value, for all four hashes), for SHA-256 without any init (an out-of-bounds store if the stale count is 64 or more), and for HMAC with the optional init entry left out, where the outer hash starts from what clear or digest left. Proved for every sequence of calls: each digest after init and updates is the hash of those updates; HMAC over a reused context is RFC 2104 for every series of messages. SHA-512 and SHA-384 only for message lengths where C48 holds; with SHA-1 and MD5 pieces are below 2^32 bytes"
  },
  {
   "property": "C85",
   "status": "partial",
   "theorems": [
    "C85_encrypt",
    "C85_decrypt",
    "C85_locked",
    "C85_first",
    "C85_dsa_nonce",
    "C85_ecdsa_nonce",
    "C85_decrypt_refuted",
    "C85_mixed_refuted",
    "C85_same_refuted",
    "C85_block_refuted",
    "C85_read_refuted",
    "C85_init_refuted"
   ],
   "note": "refuted: two threads decrypting with a fresh AES context can both turn the key round, which makes both results and later ones wrong; a thread decrypting beside one that encrypts can make the latter read past the round keys; two threads drawing from the AES generator can get the same bytes, for every seed and size, and can read past the kept block; two first requests can both initialise it and get the same bytes. Proved for every schedule: threads that all encrypt, or all decrypt with a context that has decrypted before; and for every order of requests under a lock, with the generator initialised or not. C85_dsa_nonce and C85_ecdsa_nonce show what two equal draws cost: the private key. The interleavings are over steps that may do several accesses, so the positive results assume sequentially consistent memory; by the C standard every unsynchronised write is a data race"
  },
  {
   "property": "C86",
   "status": "partial",
   "theorems": [
    "C86_exact",
    "C86_forge_refuted",
    "C86_exist_refuted",
    "C86_message_refuted"
   ],
   "note": "refuted: r is not checked to be below p, so from the public key alone a signature of any message can be computed for cry_elgamal_verify2 (C86_forge_refuted, for every prime, public key and message); the message is not hashed, so the public key also yields a message with an accepted signature through cry_elgamal_verify, all numbers in range (C86_exist_refuted); and messages with the same number modulo p - 1 share their signatures (C86_message_refuted). Proved: for r = g^k mod p and g a primitive root, a signature is accepted exactly if it solves the signing equation"
  },
  {
   "property": "C87",
   "status": "partial",
   "theorems": [
    "C87_dh",
    "C87_ecdh",
    "C87_dh_refuted",
    "C87_trivial_refuted",
    "C87_ecdh_refuted",
    "C87_p256_refuted",
    "C87_zero_refuted"
   ],
   "note": "refuted: no check of what the peer sends. A number of prime order q in Diffie-Hellman, and a point of prime order m on a curve with another coefficient b in ECDH, are used; the result takes q or m values and determines the private key modulo q or m. C87_p256_refuted gives a point of order 3 for secp256r1 as loaded. The point at infinity and the numbers 0 and 1 give constants. Proved: the result is the power of the received number (C87_dh), and for the six certified named curves the multiple of every point that is on the curve (C87_ecdh)"
  },
  {
   "property": "C88",
   "status": "partial",
   "theorems": [
    "C88_numeral",
    "C88_letters",
    "C88_exact",
    "C88_hex",
    "C88_refuted",
    "C88_hex_refuted",
    "C88_empty_refuted",
    "C88_zero_refuted",
    "C88_endless_refuted",
    "C88_sign_refuted"
   ],
   "note": "refuted: a character that is neither letter nor digit counts as 0 in every radix, radix 16 rejects nothing, and a text without digits is 0; a lone such character gives a zero that is not recognised as zero, and dividing by it never ends. Proved: every numeral is read with its value; outside radix 16 a text of letters and digits is accepted exactly when it is a numeral; and what is returned for every text (radix 16: for texts without letters beyond f)"
  },
  {
   "property": "C89",
   "status": "partial",
   "theorems": [
    "C89_exact",
    "C89_short_refuted",
    "C89_twin_refuted",
    "C89_exist_refuted",
    "C89_blocks_refuted",
    "C89_mixed_refuted",
    "C89_empty_refuted"
   ],
   "note": "refuted: fewer than eight padding bytes are accepted; the signature is not checked to be below the modulus, so adding the modulus gives a second accepted string (where it fits the length); without padding every string of the modulus length is a signature of the message computed from it, and any block may precede a signature; two signatures in a row make the comparison read memory never written; an empty signature gives a result never set. Proved: with PKCS#1 v1.5 padding, a string of the modulus length is accepted for a message exactly if its e-th power is a type 1 block of the message with some number of padding bytes"
  },
  {
   "property": "C90",
   "status": "partial",
   "theorems": [
    "C90_full",
    "C90_one",
    "C90_two",
    "C90_refuted",
    "C90_joined_refuted",
    "C90_equals_refuted",
    "C90_gap_refuted"
   ],
   "note": "refuted: unused bits before padding are not checked, so all bytes whose number is not a multiple of three have another text; padding in the middle is accepted and decoding goes on; '=' at the first two places of a group counts as 'A', at the third place alone it drops a byte. Proved: a text without padding decodes only to the bytes it encodes, and with padding at the end exactly if the unused bits are 0. Length and foreign characters are C22"
  },
  {
   "property": "C91",
   "status": "partial",
   "theorems": [
    "C91_exact",
    "C91_range_refuted",
    "C91_opposite_refuted",
    "C91_negative_refuted",
    "C91_message_refuted",
    "C91_exist_refuted",
    "C91_key_refuted"
   ],
   "note": "refuted: s is taken modulo n and with either sign, r with either sign; (-r, s) is accepted for every message whose number is the opposite modulo n of that of a message signed with (r, s); messages with the same number modulo n share signatures; the input is not hashed, so the public key yields signed numbers, the empty message among them; the point at infinity as public key lets anyone sign. That s and n - s are both accepted, and that unhashed input can be forged, holds of ECDSA as published too. Proved: for a key pair exactly the solutions of the signing equation are accepted (C91_exact)"
  },
  {
   "property": "C92",
   "status": "partial",
   "theorems": [
    "C92_init",
    "C92_named",
    "C92_unknown",
    "C92_clear",
    "C92_history",
    "C92_ecdh_partial",
    "C92_ecdh_refuted",
    "C92_load",
    "C92_load_refuted",
    "C92_table_refuted"
   ],
   "note": "Refuted for ECDH contexts and for named curves. cry_ecdh_init reports success although a request for memory was refused, and clearing the context then reads members that were never written (C92_ecdh_refuted; C92_ecdh_partial: it is right when every request is granted). cry_ecp_grp_load over a curve that was set up loses its seven buffers for good (C92_load_refuted; C92_load: it is right on a curve that holds none), and a loaded curve cannot be given other parameters, since making room passes a constant table to realloc (C92_table_refuted). Proved for every other context, for every pattern of refused requests and every history. Digits, used and sign are left out of this model (LifeModel.v); that each function of the library issues only calls that obey the rules of allowed_run is not proved here."
  },
  {
   "property": "C93",
   "status": "partial",
   "theorems": [
    "C93_reuse",
    "C93_second_refuted",
    "C93_cmac_second_refuted",
    "C93_aad_refuted",
    "C93_text_refuted",
    "C93_iv_refuted",
    "C93_wrap_refuted",
    "C93_mask_refuted",
    "C93_pieces_refuted",
    "C93_order_refuted"
   ],
   "note": "refuted: under every key, 2^29 zero bytes in front of the additional data, of a ciphertext without additional data, or of an IV not of 12 bytes change neither tag nor run; text is encrypted as at the start after 2^36 bytes, and the block before that shows what hides the tag; pieces that are not whole blocks are each filled with zeros, so differently cut data shares a tag; additional data is taken after the text; a second cry_gcm_digest or cry_cmac_digest gives another tag. The repetition after 2^36 bytes belongs to GCM itself, whose specification limits the length of a text; the library does not check it. Proved: setting an IV after any history gives the context of a fresh key (C93_reuse). For pieces of whole blocks below 2^29 bytes the tag is the specified one (C41_standard)"
  },
  {
   "property": "C94",
   "status": "partial",
   "theorems": [
    "C94_parity",
    "C94_compat",
    "C94_complement",
    "C94_complement3",
    "C94_weak_refuted",
    "C94_semi_refuted"
   ],
   "note": "refuted for weak keys: cry_des_key_set returns nothing and takes the four weak keys and the six semi-weak pairs like any other, so that encrypting twice gives back every message (C94_weak_refuted, C94_semi_refuted). The keys' property belongs to DES itself. Proved: parity bits have no effect for keys of any length, equal neighbours in a triple key cancel, and the complement relation for single and triple DES; all for messages of any number of whole blocks"
  },
  {
   "property": "C95",
   "status": "partial",
   "theorems": [
    "C95_exact",
    "C95_negative_refuted",
    "C95_message_refuted",
    "C95_exist_refuted",
    "C95_key_refuted"
   ],
   "note": "refuted: besides the solutions of the signing equation everything with s = 0 modulo q is accepted (see C56); r may have either sign, and (-r, -s) is accepted for every message whose number is the opposite modulo q of that of a message signed with (r, s); messages with the same number modulo q share signatures; the input is not hashed, so the public key yields signed numbers; the public key 1 lets anyone sign. That unhashed input can be forged holds of DSA as published too. Proved: for a key pair the exact set of accepted pairs (C95_exact)"
  },
  {
   "property": "C96",
   "status": "partial",
   "theorems": [
    "C96_aes",
    "C96_arc4",
    "C96_aes_refuted",
    "C96_arc4_repeat_refuted",
    "C96_arc4_long_refuted",
    "C96_hmac_zeros_refuted",
    "C96_hmac_long_refuted"
   ],
   "note": "refuted: an AES key of 17 to 23, 25 to 31 or over 32 bytes is cut to 16, 24 or 32 bytes without a word (the function returns nothing); an ARC4 key and its repetitions are the same key and bytes after the 256th are dropped; zeros at the end of an HMAC key within a block change nothing and a longer key is the same as its digest (shown for SHA-256). The ARC4 and HMAC facts belong to the algorithms as published, the cutting of AES keys does not. Proved: AES keys of at least 16 bytes give the same context exactly if the bytes in use are the same (C96_aes), and a sufficient condition for ARC4 (C96_arc4). That ARC4 or HMAC keys outside these cases differ is not claimed"
  }
 ]
}