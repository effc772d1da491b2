{"id": "C01", "title": "Big-integer addition and subtraction are exact", "statement": "For any two multi-precision integers a and b (any sign, any length), cry_mpi_add and cry_mpi_sub succeed and leave in the destination the integer a+b (resp. a-b), in normal form, also when the destination is one of the operands.", "quantifier": "all pairs of integers of unbounded size and any sign, any normalised representation", "why_tests_cant": "carry/borrow chains have unbounded length and depend on the relative lengths and signs of the operands; tests sample a few sizes", "anchors": ["src/mpi/mpi_add.c:cry_mpi_add", "src/mpi/mpi_sub.c:cry_mpi_sub", "src/mpi/mpi_add_abs.c", "src/mpi/mpi_sub_abs.c"]}
{"id": "C02", "title": "Big-integer multiplication is exact whichever algorithm is selected", "statement": "cry_mpi_mul(r,a,b) leaves a*b in r for all a, b; the schoolbook, Comba, Karatsuba and Toom-3 routines all compute |a|*|b| for every operand size, so crossing a size cutoff never changes a result.", "quantifier": "all pairs of integers of unbounded size and sign; every algorithm the dispatcher can pick, including recursive use", "why_tests_cant": "the fast algorithms only start at 65 and 301 digits, and their carries/recombinations depend on all digits", "anchors": ["src/mpi/mpi_mul.c:cry_mpi_mul", "src/mpi/mpi_mul_abs.c", "src/mpi/mpi_mul_baseline.c", "src/mpi/mpi_mul_comba.c", "src/mpi/mpi_mul_karatsuba.c", "src/mpi/mpi_mul_toom3.c"]}
{"id": "C03", "title": "Big-integer squaring equals multiplication by itself", "statement": "cry_mpi_sqr(r,a) leaves a*a in r for every a, whatever value r held before the call.", "quantifier": "all integers a of unbounded size; every prior content of the destination", "why_tests_cant": "depends on the history of the destination object and on unbounded carry chains", "anchors": ["src/mpi/mpi_sqr.c:cry_mpi_sqr", "src/mpi/mpi_sqr_baseline.c", "src/mpi/mpi_sqr_comba.c", "src/mpi/mpi_sqr_karatsuba.c"]}
{"id": "C04", "title": "Division of magnitudes satisfies the Euclidean law", "statement": "For b != 0 the unsigned division behind cry_mpi_div yields q, r with |a| = q|b| + r and 0 <= r < |b|; b = 0 is reported as an error.", "quantifier": "all dividends and divisors of unbounded size", "why_tests_cant": "the quotient-digit estimate and its add-back correction are exercised with probability about 2^-63 per digit by random operands", "anchors": ["src/mpi/mpi_div_abs.c:cry_mpi_div_abs", "src/mpi/mpi_div.c:cry_mpi_div"]}
{"id": "C05", "title": "Signed division floors", "statement": "cry_mpi_div(q,r,a,b) with b != 0 leaves q = floor(a/b) and r = a - q*b.", "quantifier": "all sign combinations of a and b != 0, all sizes, exact and inexact divisions", "why_tests_cant": "four sign combinations times exact/inexact times unbounded sizes", "anchors": ["src/mpi/mpi_div.c:cry_mpi_div"]}
{"id": "C06", "title": "Modulo returns the least non-negative residue", "statement": "For every integer a (negative included) and m > 0, cry_mpi_mod(r,a,m) succeeds, r is in [0,m) and r is congruent to a modulo m; m = 0 is an error.", "quantifier": "all integers a, all m > 0, unbounded size", "why_tests_cant": "every public-key routine relies on it for negative intermediate values of any size", "anchors": ["include/cry/mpi.h:cry_mpi_mod", "src/mpi/mpi_div.c:cry_mpi_div"]}
{"id": "C07", "title": "Comparison is the order of the integers", "statement": "cry_mpi_cmp returns the sign of a-b for every pair of values any library call can produce, and cry_mpi_cmp_abs the sign of |a|-|b|.", "quantifier": "all pairs of values reachable through the API", "why_tests_cant": "depends on every representation the other operations can leave behind", "anchors": ["src/mpi/mpi_cmp.c:cry_mpi_cmp", "src/mpi/mpi_cmp_abs.c:cry_mpi_cmp_abs", "src/mpi/mpi_shr.c:cry_mpi_shr"]}
{"id": "C08", "title": "Shifts are multiplication and division by powers of two", "statement": "cry_mpi_shl(a,n) is a*2^n; cry_mpi_shr(a,n) is a divided by 2^n truncated toward zero, for every shift count including multiples of the digit size and counts beyond the length.", "quantifier": "all integers, all shift counts", "why_tests_cant": "word-boundary crossings at every offset and every length", "anchors": ["src/mpi/mpi_shl.c", "src/mpi/mpi_shr.c"]}
{"id": "C09", "title": "Modular exponentiation is exact", "statement": "For e >= 0 and m > 0, cry_mpi_mod_exp(r,b,e,m) leaves b^e mod m; with no modulus it leaves b^e; negative exponent or modulus is an error.", "quantifier": "all bases, exponents and moduli", "why_tests_cant": "an exponent has unbounded length; each bit chooses a path", "anchors": ["src/mpi/mpi_mod_exp.c:cry_mpi_mod_exp", "src/mpi/mpi_exp.c:cry_mpi_exp"]}
{"id": "C10", "title": "Greatest common divisor", "statement": "cry_mpi_gcd(r,x,y) leaves gcd(x,y) for all non-negative x, y.", "quantifier": "all pairs of non-negative integers, zero included", "why_tests_cant": "binary GCD iterates a data-dependent number of times; the zero cases are boundary cases", "anchors": ["src/mpi/mpi_gcd.c:cry_mpi_gcd"]}
{"id": "C11", "title": "Least common multiple", "statement": "cry_mpi_lcm(r,x,y) leaves lcm(x,y) for all positive x and y.", "quantifier": "all pairs of positive integers", "why_tests_cant": "unbounded operands", "anchors": ["src/mpi/mpi_lcm.c:cry_mpi_lcm"]}
{"id": "C12", "title": "Modular inverse", "statement": "For a >= 0 and m > 1, cry_mpi_inv(r,a,m) succeeds exactly when gcd(a,m)=1, and then 0 <= r < m and a*r = 1 mod m; otherwise it reports an error and does not touch r.", "quantifier": "all a >= 0, all m > 1, unbounded size", "why_tests_cant": "termination, sign handling and the Bezout invariant over an unbounded number of Euclid steps", "anchors": ["src/mpi/mpi_inv.c:cry_mpi_inv"]}
{"id": "C13", "title": "Integer square root", "statement": "For a >= 0, cry_mpi_sqrt(r,a) leaves the unique r >= 0 with r^2 <= a < (r+1)^2; negative a is an error.", "quantifier": "all non-negative integers", "why_tests_cant": "Newton iteration count and rounding depend on all digits", "anchors": ["src/mpi/mpi_sqrt.c:cry_mpi_sqrt"]}
{"id": "C14", "title": "Binary import/export round-trips", "statement": "Loading a big-endian byte string and storing it back with padding to the same length returns the same bytes; storing a non-negative integer and loading it back returns the same integer; a too small buffer is reported as an error and never written.", "quantifier": "all byte strings and all non-negative integers, all buffer sizes", "why_tests_cant": "every length modulo the digit size, any number of leading zero bytes", "anchors": ["src/mpi/mpi_bin.c:cry_mpi_load_bin", "src/mpi/mpi_bin.c:cry_mpi_store_bin"]}
{"id": "C15", "title": "Textual import/export round-trips", "statement": "For radix 2..16, storing an integer as text and loading the text back in the same radix returns the same integer.", "quantifier": "all integers, all supported radices", "why_tests_cant": "unbounded number of text digits, separate code paths for radix 16", "anchors": ["src/mpi/mpi_str.c:cry_mpi_load_str", "src/mpi/mpi_str.c:cry_mpi_store_str"]}
{"id": "C16", "title": "Machine-integer import/export", "statement": "cry_mpi_set_int stores exactly the given long, and cry_mpi_get_int returns exactly the stored integer when it fits a long and an error otherwise.", "quantifier": "all long values; all multi-precision integers", "why_tests_cant": "boundary values of a 64-bit type", "anchors": ["src/mpi/mpi_core.c:cry_mpi_set_int", "src/mpi/mpi_core.c:cry_mpi_get_int"]}
{"id": "C17", "title": "Bit length, and bit tests", "statement": "cry_mpi_count_bits returns the position of the highest set bit plus one (0 for zero), testing bit i of a returns bit i of |a|; cry_mpi_count_bytes is the rounded-up byte length.", "quantifier": "all integers, all bit positions", "why_tests_cant": "all lengths and positions", "anchors": ["src/mpi/mpi_core.c:cry_mpi_count_bits", "src/mpi/mpi_pvt.h:cry_mpi_is_bit_set", "src/mpi/mpi_gcd.c:cry_mpi_lsb"]}
{"id": "C18", "title": "A prime is never rejected by the primality test", "statement": "For every odd prime p, cry_mpi_is_prime answers 'prime' whatever non-zero random bases the generator supplies.", "quantifier": "all odd primes, all random streams yielding non-zero bases", "why_tests_cant": "Fermat/Miller-Rabin completeness is a theorem about all primes and all bases", "anchors": ["src/mpi/mpi_prime.c:cry_mpi_is_prime"]}
{"id": "C19", "title": "Every number accepted by the primality test is at least free of small factors", "statement": "If cry_mpi_is_prime accepts p > 1009 then no prime from 3 to 1009 divides p, whatever the random stream; and every accepted p passes the Miller-Rabin congruence for each base used.", "quantifier": "all p, all random streams", "why_tests_cant": "holds for all inputs and random streams", "anchors": ["src/mpi/mpi_prime.c:is_obviously_not_prime", "src/mpi/mpi_prime.c:passes_miller_rabin"]}
{"id": "C20", "title": "Random integers are in range", "statement": "cry_mpi_rand_range(r,max) leaves a value in [0,max) for every max > 0 and every random stream; cry_mpi_rand(r,bits) leaves a value below 2^bits.", "quantifier": "all bounds, all random streams", "why_tests_cant": "all random streams", "anchors": ["src/mpi/mpi_rand.c:cry_mpi_rand", "src/mpi/mpi_rand.c:cry_mpi_rand_range"]}
{"id": "C21", "title": "Initialising a list of integers is all-or-nothing", "statement": "If any allocation in a list initialisation fails, every element that had been initialised by the call is cleared again exactly once, no other element is touched, and an error is returned.", "quantifier": "all list lengths, every failing allocation point", "why_tests_cant": "allocation failures can strike at every point of a list of any length", "anchors": ["src/mpi/mpi_list.c", "src/ecp/ecp_list.c", "src/misc.h"]}
{"id": "C22", "title": "Base64 decoding inverts encoding", "statement": "For every non-empty byte string, decoding the encoder's output returns the original bytes, and the output length is 4*ceil(len/3).", "quantifier": "all byte strings of any positive length", "why_tests_cant": "three length classes and all byte values at each position", "anchors": ["src/crypt/base64.c:cry_base64_encode", "src/crypt/base64.c:cry_base64_decode"]}
{"id": "C23", "title": "Base64 encoding is RFC 4648", "statement": "The encoder's output is the RFC 4648 encoding of the input bit string: 6-bit groups most significant first, zero-padded, '=' filled.", "quantifier": "all byte strings of any positive length", "why_tests_cant": "all inputs", "anchors": ["src/crypt/base64.c:cry_base64_encode"]}
{"id": "C24", "title": "CRC tables implement the polynomial division", "statement": "CRC-16 (IBM) and CRC-32 updates, computed by table lookup, equal the bit-serial division by the reflected polynomial for every message and every starting register; the CCITT variant likewise.", "quantifier": "all messages, all starting register values", "why_tests_cant": "all messages of all lengths", "anchors": ["src/crc/crc16.c", "src/crc/crc32.c", "src/crc/crc16_ccitt.c", "src/crc/crc16_ibm.c"]}
{"id": "C25", "title": "CRC is independent of how the message is split", "statement": "Updating with m1 then m2 equals updating with m1||m2, for any split into any number of chunks.", "quantifier": "all messages and all partitions", "why_tests_cant": "exponentially many partitions", "anchors": ["src/crc/crc16.c", "src/crc/crc32.c"]}
{"id": "C26", "title": "Overlap-safe XOR", "statement": "cry_memxor(dst,src,n) and cry_memxor2(dst,a,b,n) leave in dst the byte-wise XOR of the operand bytes as they were before the call and modify nothing outside dst[0..n), for every relative placement of the buffers.", "quantifier": "all lengths, all relative offsets including overlaps, all memory contents", "why_tests_cant": "overlap patterns form an unbounded family", "anchors": ["src/crypt/memxor.c:cry_memxor", "src/crypt/memxor.c:cry_memxor2"]}
{"id": "C27", "title": "AES decryption inverts encryption", "statement": "After setting any 16-, 24- or 32-byte key, cry_aes_decrypt applied to the output of cry_aes_encrypt returns the original data, for any number of whole blocks.", "quantifier": "all keys, all data of length a multiple of 16", "why_tests_cant": "2^128 blocks times 2^256 keys", "anchors": ["src/crypt/aes.c:cry_aes_key_set", "src/crypt/aes.c:cry_aes_encrypt", "src/crypt/aes.c:cry_aes_decrypt", "src/crypt/aes.c:key_invert"]}
{"id": "C28", "title": "AES is FIPS-197", "statement": "cry_aes_encrypt with any 16-, 24- or 32-byte key computes the FIPS-197 Cipher (SubBytes/ShiftRows/MixColumns over GF(2^8)) and cry_aes_decrypt its InvCipher, on every block.", "quantifier": "all keys and blocks", "why_tests_cant": "table entries and key schedule must be right for all inputs", "anchors": ["src/crypt/aes.c"]}
{"id": "C29", "title": "An AES context can be reused in any order", "statement": "Any sequence of encrypt and decrypt calls on one context gives each call the result it would have on a context freshly keyed with the same key.", "quantifier": "all sequences of calls, all keys", "why_tests_cant": "depends on the history of calls", "anchors": ["src/crypt/aes.c:key_invert", "src/crypt/aes.c:cry_aes_encrypt", "src/crypt/aes.c:cry_aes_decrypt"]}
{"id": "C30", "title": "DES and triple-DES decryption inverts encryption", "statement": "For every key accepted by cry_des_key_set and all data of length a multiple of 8, cry_des_decrypt(cry_des_encrypt(x)) = x.", "quantifier": "all keys of any length, all data of whole blocks", "why_tests_cant": "2^64 blocks times 2^168 keys", "anchors": ["src/crypt/des.c"]}
{"id": "C31", "title": "DES is FIPS 46-3", "statement": "The single-key block transformation equals the FIPS 46-3 permutation/S-box network for all keys and blocks.", "quantifier": "all keys and blocks", "why_tests_cant": "all inputs", "anchors": ["src/crypt/des.c"]}
{"id": "C32", "title": "ARC4 is self-inverse and stream-consistent", "statement": "Encrypting twice from the same key restores the data; processing a message in any chunks equals processing it at once; the internal table stays a permutation of 0..255 forever.", "quantifier": "all non-empty keys, all messages, all partitions", "why_tests_cant": "unbounded histories", "anchors": ["src/crypt/arc4.c"]}
{"id": "C33", "title": "Trivium keystream depends only on key and IV, and decryption inverts encryption", "statement": "After cry_trivium_iv_set the produced keystream is a function of the key and IV bytes only, never of what the context was used for before; applying it twice from the same setup restores the data.", "quantifier": "all keys, IVs, prior histories, messages", "why_tests_cant": "unbounded histories of context reuse", "anchors": ["src/crypt/trivium.c"]}
{"id": "C34", "title": "Trivium is the eSTREAM specification", "statement": "The word-parallel implementation produces exactly the keystream of the bit-serial three-register specification.", "quantifier": "all keys, IVs and keystream lengths", "why_tests_cant": "all states", "anchors": ["src/crypt/trivium.c"]}
{"id": "C35", "title": "Affine cipher round-trips and rejects bad keys", "statement": "cry_affine_init succeeds exactly when every multiplier byte is odd, and then decrypting an encrypted message restores it.", "quantifier": "all keys of length >= 1, all messages", "why_tests_cant": "all keys and messages", "anchors": ["src/crypt/affine.c", "src/misc.c:cry_long_inv"]}
{"id": "C36", "title": "Hill cipher round-trips and rejects singular keys", "statement": "cry_hill_init accepts exactly the keys whose matrix is invertible modulo 256; decrypting an encrypted message of whole blocks restores it.", "quantifier": "all key matrices up to 10x10, all whole-block messages", "why_tests_cant": "all matrices", "anchors": ["src/crypt/hill.c"]}
{"id": "C37", "title": "CBC round-trips, in place or not, in any chunks", "statement": "With any block cipher whose decrypt inverts encrypt, CBC decryption of a CBC encryption under the same IV restores the data; splitting at block boundaries does not matter; in-place operation gives the same result.", "quantifier": "all ciphers, IVs, messages of whole blocks, partitions", "why_tests_cant": "all block ciphers and histories", "anchors": ["src/crypt/cbc.c"]}
{"id": "C38", "title": "CFB round-trips", "statement": "cry_cfb_decrypt undoes cry_cfb_encrypt under the same key and IV; the 8-bit variants likewise.", "quantifier": "all ciphers, IVs and messages", "why_tests_cant": "all messages of all lengths", "anchors": ["src/crypt/cfb.c", "include/cry/cfb.h"]}
{"id": "C39", "title": "CTR keystream: self-inverse, consecutive counters, any whole-block chunks, in place or not", "statement": "CTR output is the XOR of the data with the encryptions of iv, iv+1, iv+2, ... (big-endian, modulo 2^(8*len)); the same call decrypts; whole-block chunking and in-place operation give the same bytes.", "quantifier": "all ciphers, IVs, messages, partitions", "why_tests_cant": "counter carries and chunk histories are unbounded", "anchors": ["src/crypt/ctr.c"]}
{"id": "C40", "title": "GCM round-trips and authenticates consistently", "statement": "GCM decryption under the same key, IV and AAD restores the plaintext, and the decrypting side computes the same tag as the encrypting side.", "quantifier": "all ciphers, keys, IVs of any length, AAD, messages", "why_tests_cant": "all inputs", "anchors": ["src/crypt/gcm.c"]}
{"id": "C41", "title": "GCM is SP 800-38D", "statement": "GHASH multiplication is multiplication in GF(2^128) modulo the GCM polynomial, and ciphertext and tag equal the SP 800-38D definition.", "quantifier": "all inputs below the 2^32-bit limit of the length fields", "why_tests_cant": "field arithmetic over 2^256 pairs", "anchors": ["src/crypt/gcm.c:gcm_gf_mul", "src/crypt/gcm.c:gcm_hash"]}
{"id": "C42", "title": "CMAC does not depend on chunking and is RFC 4493", "statement": "Any partition of the message into updates yields the same tag as RFC 4493 on the whole message.", "quantifier": "all messages, partitions, block ciphers with 16-byte blocks", "why_tests_cant": "exponentially many partitions", "anchors": ["src/crypt/cmac.c"]}
{"id": "C43", "title": "HMAC is RFC 2104", "statement": "For any hash with a 64-byte block, the tag equals H((K xor opad) || H((K xor ipad) || m)) for all keys (longer keys hashed first), in any chunks; for SHA-384/512 the block size is 128 bytes.", "quantifier": "all keys, messages and partitions; every hash shipped", "why_tests_cant": "key-length boundary and partitions", "anchors": ["src/crypt/hmac.c", "include/cry/hmac.h"]}
{"id": "C44", "title": "AES key wrap round-trips and rejects modified data", "statement": "cry_aes_unwrap(cry_aes_wrap(k)) = k for every key of n >= 1 whole 8-byte blocks; unwrap succeeds only if its input is the wrapping of what it returns, and on failure the output is all zero.", "quantifier": "all KEKs, all payloads of whole 64-bit blocks, all candidate ciphertexts", "why_tests_cant": "all inputs", "anchors": ["src/utils/aes_wrap.c"]}
{"id": "C45", "title": "MD5 is RFC 1321 in any chunks", "statement": "For every message of less than 2^32 bytes per update, fed in any partition, the digest is the RFC 1321 digest.", "quantifier": "all messages and partitions", "why_tests_cant": "padding boundaries times partitions", "anchors": ["src/hash/md5.c"]}
{"id": "C46", "title": "SHA-1 is FIPS 180-4 in any chunks", "statement": "For every message fed in any partition, the digest is the FIPS 180-4 SHA-1 digest.", "quantifier": "all messages and partitions", "why_tests_cant": "padding boundaries times partitions", "anchors": ["src/hash/sha1.c"]}
{"id": "C47", "title": "SHA-256 and SHA-224 are FIPS 180-4 in any chunks", "statement": "For every message fed in any partition, the digest is the FIPS 180-4 digest.", "quantifier": "all messages and partitions", "why_tests_cant": "padding boundaries times partitions", "anchors": ["src/hash/sha256.c"]}
{"id": "C48", "title": "SHA-512 and SHA-384 are FIPS 180-4 in any chunks", "statement": "For every message fed in any partition, the digest is the FIPS 180-4 digest.", "quantifier": "all messages and partitions", "why_tests_cant": "padding boundaries times partitions", "anchors": ["src/hash/sha512.c"]}
{"id": "C49", "title": "The AES generator is one stream however it is read", "statement": "The bytes produced by a sequence of requests are the consecutive bytes of one stream determined by the seed, whatever the request sizes.", "quantifier": "all seeds, all sequences of request sizes", "why_tests_cant": "unbounded request histories", "anchors": ["src/prng/prng_aes.c"]}
{"id": "C50", "title": "The LFSR113 generator never degenerates", "statement": "After initialisation each of the four registers satisfies the documented minimum (z1>1, z2>7, z3>15, z4>127), and generation keeps it so; requests of multiples of four bytes read one stream.", "quantifier": "all seeds, all numbers of draws", "why_tests_cant": "unbounded number of steps", "anchors": ["src/prng/prng_lfsr113.c"]}
{"id": "C51", "title": "RSA decryption inverts encryption (single block)", "statement": "With n = p*q for distinct primes and e*d = 1 mod lcm(p-1,q-1), cry_rsa_decrypt(cry_rsa_encrypt(m)) = m for every non-empty message m that fits one block under PKCS#1 v1.5 padding, whatever the random padding.", "quantifier": "all RSA keys, all messages up to modulus length minus 11, all random streams", "why_tests_cant": "all keys, messages, random streams", "anchors": ["src/crypt/rsa.c"]}
{"id": "C52", "title": "RSA decryption inverts encryption for multi-block messages", "statement": "Messages longer than one block are restored by cry_rsa_decrypt as well.", "quantifier": "all RSA keys, all messages", "why_tests_cant": "all message lengths", "anchors": ["src/crypt/rsa.c:decrypt"]}
{"id": "C53", "title": "RSA signatures verify, and only for the signed message", "statement": "cry_rsa_verify accepts cry_rsa_sign(m) for m, and an accepted single-block signature determines the message: it cannot be accepted for two different messages.", "quantifier": "all keys, messages and candidate signatures", "why_tests_cant": "all inputs", "anchors": ["src/crypt/rsa.c:cry_rsa_sign", "src/crypt/rsa.c:cry_rsa_verify"]}
{"id": "C54", "title": "Diffie-Hellman agreement", "statement": "Both parties compute the same shared secret for every group (p,g) and every pair of private exponents, through the exported tokens.", "quantifier": "all p > 1, g, exponents", "why_tests_cant": "all parameters", "anchors": ["src/crypt/dh.c"]}
{"id": "C55", "title": "DSA: genuine signatures verify", "statement": "With valid domain parameters, a signature produced by cry_dsa_sign is accepted by cry_dsa_verify for the same message, for every private key and every usable random k.", "quantifier": "all valid domain parameters, keys, digests, nonces", "why_tests_cant": "all parameters", "anchors": ["src/crypt/dsa.c"]}
{"id": "C56", "title": "DSA: malformed signatures are rejected", "statement": "cry_dsa_verify rejects a signature whose s is not invertible modulo q (for example s = 0), and never accepts because of an internal error.", "quantifier": "all signatures, messages, public keys", "why_tests_cant": "error paths are reached only by crafted inputs", "anchors": ["src/crypt/dsa.c:cry_dsa_verify", "src/misc.h:CRY_CHK"]}
{"id": "C57", "title": "ElGamal signatures verify", "statement": "A signature made by the ElGamal signing calls is accepted by the corresponding verification for the same message.", "quantifier": "all primes p, generators, private keys, digests, nonces", "why_tests_cant": "all parameters", "anchors": ["src/crypt/elgamal.c"]}
{"id": "C58", "title": "Elliptic-curve point operations stay on the curve and follow the group law", "statement": "Adding or doubling points of the curve yields points of the curve given by the chord-and-tangent law; the point at infinity is neutral; P + (-P) is infinity; addition is commutative.", "quantifier": "all short Weierstrass curves over a prime field, all points", "why_tests_cant": "all curves and points", "anchors": ["src/ecp/ecp_add.c", "src/ecp/ecp_dbl.c"]}
{"id": "C59", "title": "Scalar multiplication is repeated addition", "statement": "cry_ecp_mul(P,k) is P added to itself k times, for every k >= 0.", "quantifier": "all scalars of any length", "why_tests_cant": "sliding-window recoding of unbounded scalars", "anchors": ["src/ecp/ecp_mul.c"]}
{"id": "C60", "title": "ECDH agreement", "statement": "Both parties compute the same point for every pair of private scalars.", "quantifier": "all private scalars", "why_tests_cant": "all scalars", "anchors": ["src/crypt/ecdh.c"]}
{"id": "C61", "title": "ECDSA: genuine signatures verify", "statement": "A signature produced by cry_ecdsa_sign is accepted by cry_ecdsa_verify for the same digest.", "quantifier": "all keys, digests, nonces", "why_tests_cant": "all parameters", "anchors": ["src/crypt/ecdsa.c"]}
{"id": "C62", "title": "Shipped curve parameters are sane", "statement": "For every named curve, the base point lies on the curve and the discriminant is non-zero modulo p.", "quantifier": "all shipped curves", "why_tests_cant": "finite, but never checked by the library", "anchors": ["src/ecp/ecp_curves.c"]}
{"id": "C63", "title": "Word-size modular inverse", "statement": "cry_long_inv(v,m) returns the inverse of v modulo m when it exists.", "quantifier": "all v, m within the type's range", "why_tests_cant": "Euclid over all pairs", "anchors": ["src/misc.c:cry_long_inv"]}
{"id": "C64", "title": "Printing an integer never overflows its buffer", "statement": "cry_mpi_print allocates enough space for the text of the integer in the requested radix.", "quantifier": "all integers, all supported radices", "why_tests_cant": "all lengths and radices", "anchors": ["src/mpi/mpi_print.c:cry_mpi_print", "src/mpi/mpi_str.c:cry_mpi_store_str"]}
{"id": "C65", "title": "ARC4 is the published RC4 generator", "statement": "For every non-empty key the bytes XORed into the data by cry_arc4_crypt are the key stream of the published RC4 key schedule and generator.", "quantifier": "all non-empty keys, all message lengths", "why_tests_cant": "A test compares a few published vectors; agreement for every key needs a proof that the table updates are the published swaps.", "anchors": ["src/crypt/arc4.c:cry_arc4_key_set", "src/crypt/arc4.c:cry_arc4_crypt"]}
{"id": "C66", "title": "AES key wrap is RFC 3394", "statement": "cry_aes_wrap and cry_aes_unwrap compute the key wrap and unwrap of RFC 3394 with AES.", "quantifier": "all keys of 16 bytes or more, all data of whole 8-byte blocks", "why_tests_cant": "Published vectors have two to four blocks; the step counter only shows a difference for long data.", "anchors": ["src/utils/aes_wrap.c:cry_aes_wrap", "src/utils/aes_wrap.c:cry_aes_unwrap"]}
{"id": "C67", "title": "Few random choices make the primality test accept a composite number", "statement": "For every odd composite number, at most (129/256)^5 of the five-tuples of byte strings the generator can supply make cry_mpi_is_prime accept it; at most a quarter of all bases make one Miller-Rabin round accept it.", "quantifier": "all odd composite numbers, all outcomes of the random generator", "why_tests_cant": "The statement counts over all random choices for every composite number; a test draws a few.", "anchors": ["src/mpi/mpi_prime.c:cry_mpi_is_prime", "src/mpi/mpi_prime.c:passes_miller_rabin", "src/mpi/mpi_rand.c:cry_mpi_rand_range"]}
{"id": "C68", "title": "Generated primes have the requested size", "statement": "When cry_mpi_prime reports success the number is odd, was accepted by the primality test and has exactly the requested number of bits, the two top ones set; when it finds none within the allowed tries it reports that, and otherwise it returns the first one found.", "quantifier": "all sizes, all iteration limits, all outcomes of the random generator", "why_tests_cant": "A test sees a few random streams; short draws and the last allowed try are rare events.", "anchors": ["src/mpi/mpi_prime.c:cry_mpi_prime", "src/mpi/mpi_rand.c:cry_mpi_rand"]}
{"id": "C69", "title": "RSA key generation delivers a usable key", "statement": "When cry_rsa_keygen reports success, n is the product of two different numbers accepted as prime, has the requested number of bits, e is the requested exponent and invertible modulo the totient, and d is its inverse.", "quantifier": "all sizes, all public exponents, all outcomes of the random generator", "why_tests_cant": "Depends on every random stream and on the 10000-round limit, which tests do not reach.", "anchors": ["src/crypt/rsa.c:cry_rsa_keygen"]}
{"id": "C70", "title": "DSA key generation delivers valid domain parameters and keys", "statement": "When cry_dsa_keygen reports success, q divides p-1, g has order q modulo p, the private key x satisfies 0 < x < q, the public key is g^x mod p, and signatures made with the key verify.", "quantifier": "all size parameters, all outcomes of the random generator", "why_tests_cant": "Depends on every random stream; a private key of 0 or above q needs a special draw.", "anchors": ["src/crypt/dsa.c:cry_dsa_keygen"]}
{"id": "C71", "title": "Big-number copy, addition, subtraction and shifts survive aliasing and memory exhaustion", "statement": "cry_mpi_copy, cry_mpi_abs, cry_mpi_add, cry_mpi_sub, cry_mpi_shl and cry_mpi_shr never access memory outside a buffer and their result never depends on digits that were not written, even when the destination is an operand; they either return 0 with the exact result in the destination, or return -1 after a refused allocation and leave the destination as it was; no other object changes and no buffer is leaked.", "quantifier": "all operand values, all aliasing patterns, all buffer sizes and contents of unused digits, all patterns of refused allocations", "why_tests_cant": "The combinations of aliasing, capacity and the point at which memory runs out are unbounded.", "anchors": ["src/mpi/mpi_core.c:cry_mpi_copy", "src/mpi/mpi_core.c:cry_mpi_grow", "src/mpi/mpi_add.c:cry_mpi_add", "src/mpi/mpi_sub.c:cry_mpi_sub", "src/mpi/mpi_shl.c:cry_mpi_shl", "src/mpi/mpi_shr.c:cry_mpi_shr", "src/mpi/mpi_abs.c:cry_mpi_abs"]}
{"id": "C72", "title": "Big-number multiplication and squaring survive aliasing and memory exhaustion", "statement": "cry_mpi_mul, cry_mpi_mul_dig and cry_mpi_sqr never access memory outside a buffer, even when the destination is an operand; they either return 0 with the exact result, or return -1 after a refused allocation with the destination still a valid number; no other object changes and every temporary is released on every path.", "quantifier": "all operand values, all three multiplication algorithms, all aliasing patterns, all buffer contents, all patterns of refused allocations", "why_tests_cant": "A multiplication of large operands makes thousands of allocations; a test refuses a few of them.", "anchors": ["src/mpi/mpi_mul.c:cry_mpi_mul", "src/mpi/mpi_mul.c:cry_mpi_mul_dig", "src/mpi/mpi_mul_karatsuba.c:cry_mpi_mul_karatsuba", "src/mpi/mpi_mul_toom3.c:cry_mpi_mul_toom3", "src/mpi/mpi_mul_comba.c:cry_mpi_mul_comba", "src/mpi/mpi_sqr.c:cry_mpi_sqr"]}
{"id": "C73", "title": "Big-number division and reduction survive aliasing, missing results and memory exhaustion", "statement": "cry_mpi_div and cry_mpi_mod never access memory outside a buffer, even when quotient or remainder is an operand or not asked for; they either return 0 with exact quotient and remainder, or return -1 because the divisor is zero or after a refused allocation; in that case the destinations are still valid numbers (unchanged if the dividend is not below the divisor); no other object changes and every temporary is released on every path.", "quantifier": "all operand values, all aliasing patterns and missing results, all buffer contents, all patterns of refused allocations", "why_tests_cant": "The quotient-digit corrections, the normalisation and the points at which memory can run out combine without bound.", "anchors": ["src/mpi/mpi_div.c:cry_mpi_div", "src/mpi/mpi_div_abs.c:cry_mpi_div_abs", "include/cry/mpi.h:cry_mpi_mod"]}
{"id": "C74", "title": "Big-number power, gcd, lcm, square root and inverse survive aliasing and memory exhaustion", "statement": "cry_mpi_mod_exp, cry_mpi_exp, cry_mpi_gcd, cry_mpi_lcm, cry_mpi_sqrt and cry_mpi_inv never access memory outside a buffer or an object that was not initialised, even when the destination is an operand; they end; they either return 0 with the exact result, or return -1 because there is none or after a refused allocation, leaving the destination as it was; no other object changes and every temporary is released on every path.", "quantifier": "all operand values, all aliasing patterns, all buffer contents, all patterns of refused allocations", "why_tests_cant": "The number of allocations grows with the operands and each of them can be the one that is refused.", "anchors": ["src/mpi/mpi_mod_exp.c:cry_mpi_mod_exp", "src/mpi/mpi_gcd.c:cry_mpi_gcd", "src/mpi/mpi_lcm.c:cry_mpi_lcm", "src/mpi/mpi_sqrt.c:cry_mpi_sqrt", "src/mpi/mpi_inv.c:cry_mpi_inv"]}
{"id": "C75", "title": "The secp curves of up to 256 bits are groups of prime order, and ECDH and ECDSA work on all of their points", "statement": "For secp192r1, secp224r1, secp256r1, secp192k1, secp224k1 and secp256k1 as loaded by the library: the field modulus and the order are prime, k G is the point at infinity exactly for the multiples k of the order; adding, doubling and multiplying give the group operation for all points of the curve without exception; both sides of an ECDH exchange get the same point; a generated ECDSA key makes signatures that verify unless the nonce or s is zero or the coordinate is not below the order; and verification decides exactly by the verification equation.", "quantifier": "the six curves, all points on them, all scalars, private keys, random draws and messages", "why_tests_cant": "A group has about 2^192 to 2^256 points; that the parameters are right is a theorem of number theory, and tests add a few points.", "anchors": ["src/ecp/ecp_curves.c:cry_ecp_grp_load", "src/ecp/ecp_add.c:cry_ecp_add", "src/ecp/ecp_dbl.c:cry_ecp_dbl", "src/ecp/ecp_mul.c:cry_ecp_mul", "src/crypt/ecdh.c:cry_ecdh_final", "src/crypt/ecdsa.c:cry_ecdsa_sign", "src/crypt/ecdsa.c:cry_ecdsa_verify"]}
{"id": "C76", "title": "ECDSA signs the leftmost bits of the hash, as FIPS 186-4 prescribes", "statement": "The number signed is that of the leftmost N bits of the hash, where N is the bit length of the order, so that signatures are those of the standard and can be exchanged with other implementations.", "quantifier": "the named curves up to 256 bits, all keys, nonces and hashes of any length", "why_tests_cant": "Library-to-library tests agree with themselves whatever bits are taken; the deviation needs a hash longer than the order.", "anchors": ["src/crypt/ecdsa.c:cry_ecdsa_sign", "src/crypt/ecdsa.c:cry_ecdsa_verify"]}
{"id": "C77", "title": "Point addition, doubling and multiplication survive aliasing and memory exhaustion", "statement": "cry_ecp_dbl, cry_ecp_add and cry_ecp_mul never access memory outside a buffer or a coordinate that was not initialised, even when the destination is an operand or the group's base point; they return 0 with the sum, double or multiple in the destination, or a nonzero code after a refused allocation; no other object changes and every temporary is released on every path. Initialisation of a point or an ECDSA context either succeeds or leaves nothing allocated.", "quantifier": "all curves, points and scalars, all aliasing patterns, all buffer contents, all patterns of refused allocations", "why_tests_cant": "One multiplication makes hundreds to thousands of allocations, each of which can be the one that is refused.", "anchors": ["src/ecp/ecp_dbl.c:cry_ecp_dbl", "src/ecp/ecp_add.c:cry_ecp_add", "src/ecp/ecp_mul.c:cry_ecp_mul", "src/ecp/ecp_core.c:cry_ecp_init", "src/crypt/ecdsa.c:cry_ecdsa_init"]}
{"id": "C78", "title": "ECDH and ECDSA never report success, and never accept a signature, because memory ran out", "statement": "cry_ecdh_init, cry_ecdh_agree, cry_ecdh_final, cry_ecdsa_sign, cry_ecdsa_verify and cry_ecdsa_keygen return 0 only with the specified result; a refused allocation gives a nonzero code, touches no object that was not initialised, and no signature is accepted that does not satisfy the verification equation; the objects of the caller other than the results do not change and every temporary is released.", "quantifier": "all curves, keys, messages, random draws, and patterns of refused allocations", "why_tests_cant": "Whether a forged signature is accepted depends on which of some thousand allocations are refused; tests never refuse one.", "anchors": ["src/crypt/ecdh.c:cry_ecdh_init", "src/crypt/ecdh.c:cry_ecdh_agree", "src/crypt/ecdh.c:cry_ecdh_final", "src/crypt/ecdsa.c:cry_ecdsa_sign", "src/crypt/ecdsa.c:cry_ecdsa_verify", "src/crypt/ecdsa.c:cry_ecdsa_keygen", "src/mpi/mpi_bin.c:cry_mpi_load_bin", "src/mpi/mpi_rand.c:cry_mpi_rand_range"]}
{"id": "C79", "title": "RSA, Diffie-Hellman and ElGamal verification survive memory exhaustion", "statement": "cry_rsa_encrypt, cry_rsa_decrypt, cry_rsa_sign, cry_rsa_verify, cry_dh_agree, cry_dh_finalize and cry_elgamal_verify2 never use an object that was not initialised; they give their specified result or an error code, the latter only after a refused allocation or if the input is bad; no signature is accepted that does not satisfy the verification equation; no object of the caller other than the result changes and every temporary number is released.", "quantifier": "all keys, messages, ciphertexts and signatures, all buffer contents, all patterns of refused allocations", "why_tests_cant": "One exponentiation makes hundreds of allocations, each of which can be the one that is refused; tests never refuse one.", "anchors": ["src/crypt/rsa.c:cry_rsa_encrypt", "src/crypt/rsa.c:cry_rsa_decrypt", "src/crypt/rsa.c:cry_rsa_sign", "src/crypt/rsa.c:cry_rsa_verify", "src/crypt/dh.c:cry_dh_agree", "src/crypt/dh.c:cry_dh_finalize", "src/crypt/elgamal.c:cry_elgamal_verify2"]}
{"id": "C80", "title": "DSA and ElGamal signatures: what is signed verifies, and running out of memory neither forges nor loses a signature", "statement": "cry_dsa_sign and cry_elgamal_sign2 return 0 only with a signature in place that verification accepts; cry_dsa_verify returns 0 only if the signature satisfies the verification equation; a refused allocation gives a nonzero code; no object of the caller other than the signature changes and every temporary is released.", "quantifier": "all domain parameters, keys, messages and random draws, all placements of the signature outside the key, all patterns of refused allocations", "why_tests_cant": "Whether a signature is accepted depends on which of some thousand allocations are refused; tests never refuse one.", "anchors": ["src/crypt/dsa.c:cry_dsa_sign", "src/crypt/dsa.c:cry_dsa_verify", "src/crypt/elgamal.c:cry_elgamal_sign2", "src/crypt/elgamal.c:cry_elgamal_verify2"]}
{"id": "C81", "title": "DSA signs the leftmost bits of the hash, as FIPS 186-4 prescribes", "statement": "The number signed and verified is that of the leftmost N bits of the hash, where N is the bit length of q, so that signatures are those of the standard and can be exchanged with other implementations.", "quantifier": "all domain parameters, keys, nonces and hashes of any length", "why_tests_cant": "Library-to-library tests agree with themselves whatever bits are taken; the deviation needs a hash longer than q and a q whose length is not a multiple of 64 bits.", "anchors": ["src/crypt/dsa.c:cry_dsa_sign", "src/crypt/dsa.c:cry_dsa_verify"]}
{"id": "C82", "title": "Every mode of operation gives the same bytes wherever its buffers lie", "statement": "Block encryption, CBC, CFB, CFB-8, CTR, GCM and ARC4 write to the destination exactly the bytes that the mode yields on the source as it was before the call, leave the chaining value for the next call in the context, and change no other byte of memory than their own local buffers, whether the destination is the source, apart from it, or overlaps it.", "quantifier": "every block cipher of the block length, every memory content, every pair of addresses of destination and source, every length, every answer of malloc", "why_tests_cant": "An overlap of some distance corrupts only some blocks, and only for certain lengths; the number of placements is unbounded.", "anchors": ["src/crypt/cbc.c:cry_cbc_decrypt", "src/crypt/cfb.c:cry_cfb8_decrypt", "src/crypt/ctr.c:cry_ctr_encrypt", "src/crypt/gcm.c:cry_gcm_encrypt", "src/crypt/arc4.c:cry_arc4_crypt", "src/crypt/aes.c:cry_aes_encrypt"]}
{"id": "C83", "title": "The build options do not change what the arithmetic returns", "statement": "Whichever of the options for division, multiplication, squaring, modular inversion and multiplication of a point the library is built with, each call returns the same status and the same number or point, and ends.", "quantifier": "all operands of any size, all moduli, all curves and points; every setting of CRY_MPI_DIV_SMALL, CRY_MPI_MUL_TOOM3, CRY_MPI_MUL_KARATSUBA, CRY_MPI_MUL_COMBA, CRY_MPI_INV_EUCLID and CRY_ECP_MUL_SLIDING_WIN", "why_tests_cant": "The tests are run with one setting; the options differ in how they treat operands without an inverse and points of even order, which no vector of the test suite can enumerate.", "anchors": ["src/mpi/mpi_div_abs.c:cry_mpi_div_abs", "src/mpi/mpi_mul_abs.c:cry_mpi_mul_abs", "src/mpi/mpi_sqr.c:cry_mpi_sqr", "src/mpi/mpi_inv.c:cry_mpi_inv", "src/ecp/ecp_mul.c:cry_ecp_mul", "config/config.mk:CRY_MPI_DIV_SMALL"]}
{"id": "C84", "title": "A hash context and an HMAC over it can be used again and again", "statement": "A digest call that follows an init call with only update calls between them writes the hash of exactly those updates, whatever the context held before and whatever calls were made on it earlier; a second digest call repeats the digest. HMAC over one hash context is right for every message of a series, also when the optional entries of the hash interface are left out.", "quantifier": "all sequences of init, update, digest and clear calls with all data, all contents of the context, all series of keys and messages", "why_tests_cant": "State left over from an earlier call shows only after certain histories; the histories are unbounded.", "anchors": ["include/cry/hash.h:cry_hash_itf", "src/crypt/hmac.c:cry_hmac_init", "src/crypt/hmac.c:cry_hmac_digest", "src/hash/sha256.c:cry_sha256_digest", "src/hash/sha1.c:cry_sha1_digest", "src/hash/md5.c:cry_md5_digest", "src/hash/sha512.c:cry_sha512_digest"]}
{"id": "C85", "title": "Threads inside the library at the same time get what some order of the calls would give", "statement": "Threads that encrypt or decrypt with one AES context, or that draw random bytes, at the same time each get the result of some order of the calls; in particular no two draws share a byte of the stream, and the context is good for later calls.", "quantifier": "any number of threads, all keys, seeds, sources and request sizes, all interleavings of the accesses to what is shared", "why_tests_cant": "A race shows only under certain interleavings; their number is unbounded and a test has no control over them.", "anchors": ["src/crypt/aes.c:cry_aes_encrypt", "src/crypt/aes.c:cry_aes_decrypt", "src/prng/prng_aes.c:cry_prng_aes_rand", "src/prng/prng_aes.c:cry_prng_aes_init", "src/crypt/dsa.c:cry_dsa_sign", "src/crypt/ecdsa.c:cry_ecdsa_sign"]}
{"id": "C86", "title": "ElGamal signatures cannot be made from the public key", "statement": "cry_elgamal_verify and cry_elgamal_verify2 accept only signatures that satisfy the signing equation for the private key, with both numbers in their range, and a signature is accepted for one message only.", "quantifier": "all primes, generators, public keys, messages and signature numbers", "why_tests_cant": "A verifier has to reject all forgeries; tests try a few valid and a few damaged signatures.", "anchors": ["src/crypt/elgamal.c:cry_elgamal_verify2", "src/crypt/elgamal.c:cry_elgamal_verify"]}
{"id": "C87", "title": "Key agreement does not give the private key away to a peer that sends a bad value", "statement": "cry_dh_finalize and cry_ecdh_final either fail or use a value of the agreed group: a number or point sent by the peer that is not in the group generated by the base does not lead to a result from which part of the private key can be read.", "quantifier": "all groups and curves, all private keys, all values and points a peer can send", "why_tests_cant": "The bad values are chosen by an attacker; tests let two honest parties agree.", "anchors": ["src/crypt/dh.c:cry_dh_finalize", "src/crypt/dh.c:cry_dh_set_tok", "src/crypt/ecdh.c:cry_ecdh_final", "src/ecp/ecp_mul.c:cry_ecp_mul"]}
{"id": "C88", "title": "Text that is not a numeral is rejected, never read as another number", "statement": "Reading an integer from text in a radix from 2 to 36 accepts exactly an optional sign followed by one or more digits of that radix, gives the value of that numeral, and reports an error for every other text.", "quantifier": "every radix from 2 to 36 and every text without a 0 byte", "why_tests_cant": "A test tries a few malformed texts; which of all texts slip through, and as what number, is a statement over every text and radix", "anchors": ["src/mpi/mpi_str.c:cry_mpi_load_str", "src/mpi/mpi_str.c:load_str_hex", "src/mpi/mpi_str.c:ASC_TO_RAW_CHAR", "src/mpi/mpi_str.c:cry_mpi_init_str"]}
{"id": "C89", "title": "Only what the private key signed verifies, and in one form only", "statement": "RSA verification accepts a signature for a message exactly if it is the value the signing function gives for that message; every other string, including other encodings of a genuine signature and several put together, is rejected.", "quantifier": "every valid key, padding mode, signature string and message", "why_tests_cant": "Tests check a genuine signature and a few corrupted ones; which of all strings are accepted is a statement over all of them, and forgeries are by nature not in the test vectors", "anchors": ["src/crypt/rsa.c:cry_rsa_verify", "src/crypt/rsa.c:decrypt", "src/crypt/rsa.c:decrypt_block", "src/crypt/rsa.c:padding_del"]}
{"id": "C90", "title": "Base64 decoding accepts only encodings", "statement": "Decoding succeeds exactly for the texts that encoding can produce, so that two different texts never decode to the same bytes and padding appears only at the end.", "quantifier": "every text of any length", "why_tests_cant": "A test tries a few malformed texts; which of all texts of legal characters are accepted, and which share their result, is a statement over every text", "anchors": ["src/crypt/base64.c:cry_base64_decode", "src/crypt/base64.c:unbase64"]}
{"id": "C91", "title": "ECDSA accepts only signatures in range, one message at a time, and only for a real public key", "statement": "Verification accepts a pair exactly if both numbers lie between 1 and n - 1 and the pair satisfies the signing equation for the given message and key; no accepted pair for one message yields one for another, and an unusable public key makes every signature fail.", "quantifier": "every domain of prime order, public key, message and pair of integers", "why_tests_cant": "Forged, negative and out-of-range pairs are not in test vectors; that none is accepted, or which are, is a statement over all pairs, messages and keys", "anchors": ["src/crypt/ecdsa.c:cry_ecdsa_verify"]}
{"id": "C92", "title": "Digit buffers have exactly one owner, and contexts give back what they take", "statement": "Setting up a DH, DSA, RSA, ElGamal or ECDSA context, a point or a curve either gives every number in it a buffer of its own and returns 0, or fails and leaves no buffer in use; clearing gives back exactly the buffers held, whatever the numbers went through since, and may be repeated. Through any history of initialise, grow, swap, clear and load-from-table calls that obeys the obvious rules, no buffer is freed twice, no constant table is freed or resized, and no buffer is lost. The same is expected of ECDH contexts and of loading a named curve.", "quantifier": "every starting state in which buffers have exactly one owner, every pattern of refused allocations, every history of calls, every placement of the objects", "why_tests_cant": "Leaks, double frees and frees of constant data depend on which allocation is refused and on the order of calls; a test run with enough memory sees none of them.", "anchors": ["src/misc.c:cry_list_init", "src/mpi/mpi_core.c:cry_mpi_clear", "src/mpi/mpi_core.c:cry_mpi_grow", "src/ecp/ecp_core.c:cry_ecp_grp_init", "src/ecp/ecp_curves.c:cry_ecp_grp_load", "src/crypt/ecdsa.c:cry_ecdsa_init", "src/crypt/ecdh.c:cry_ecdh_init", "src/crypt/dh.c:cry_dh_init", "src/crypt/rsa.c:cry_rsa_clear"]}
{"id": "C93", "title": "GCM tags depend on all of the data, key stream is not repeated, and contexts can be used again", "statement": "Under one key and IV, different additional data or ciphertexts do not share a tag whatever the key is; different IVs give different runs; the calls are taken in the order additional data, text, tag, and data may be given in pieces of any size; no part of the key stream, nor the block that hides the tag, is used twice in one text. After setting a new IV nothing of earlier use remains, and asking for the tag again gives the same tag.", "quantifier": "every block cipher and key, IV, additional data and text of any length, every history of calls", "why_tests_cant": "The colliding inputs start at half a gigabyte or depend on how the caller cuts the data; tests use short vectors in one piece, each on a fresh context.", "anchors": ["src/crypt/gcm.c:cry_gcm_iv_set", "src/crypt/gcm.c:cry_gcm_update", "src/crypt/gcm.c:cry_gcm_encrypt", "src/crypt/gcm.c:cry_gcm_decrypt", "src/crypt/gcm.c:cry_gcm_digest", "src/crypt/cmac.c:cry_cmac_digest"]}
{"id": "C94", "title": "DES keys: parity bits have no effect, triple DES contains single DES, weak keys are not taken", "statement": "The last bit of each byte of a DES key has no effect on any result. A triple key whose first two or last two parts are equal works as single DES under the remaining part. Inverting every bit of key and text inverts every bit of the ciphertext. A key under which encrypting twice gives the text back is refused.", "quantifier": "every key, of eight or twenty-four bytes or, for parity, of any length, and every message of whole blocks", "why_tests_cant": "Test vectors fix a handful of keys; relations between the results under two different keys hold, or fail, for all keys and texts.", "anchors": ["src/crypt/des.c:cry_des_key_set", "src/crypt/des.c:cry_des_encrypt", "src/crypt/des.c:cry_des_decrypt", "src/crypt/des.c:des_block_operate"]}
{"id": "C95", "title": "DSA accepts only signatures made with the private key, one message at a time, and only for a real public key", "statement": "Verification accepts a pair exactly if both numbers lie between 1 and q - 1 and the pair satisfies the signing equation for the given message and key; no accepted pair for one message yields one for another, none can be computed from the public key, and an unusable public key makes every signature fail.", "quantifier": "every valid set of parameters, public key, message and pair of integers", "why_tests_cant": "Forged and negative pairs are not in test vectors; which of all pairs are accepted is a statement over all pairs, messages and keys.", "anchors": ["src/crypt/dsa.c:cry_dsa_verify"]}
{"id": "C96", "title": "Two different keys are different keys", "statement": "For AES, ARC4 and HMAC, setting two different keys never gives the same cipher or the same codes; a key whose length the algorithm does not have is not silently cut.", "quantifier": "every pair of keys of any length, every hash, and every message", "why_tests_cant": "Tests try some keys; that two keys never, or always, behave alike is a statement over all pairs of keys and all messages.", "anchors": ["src/crypt/aes.c:cry_aes_key_set", "src/crypt/arc4.c:cry_arc4_key_set", "src/crypt/hmac.c:cry_hmac_init"]}
