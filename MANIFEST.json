{
 "claims": [
  {
   "property": "C01",
   "status": "proved",
   "theorems": [
    "C01_fixed_width_roundtrip"
   ],
   "note": "All four widths, any surrounding content."
  },
  {
   "property": "C02",
   "status": "proved",
   "theorems": [
    "C02_varint_roundtrip",
    "C02_varint_minimal",
    "C02_varint_prefix_free"
   ],
   "note": "Round trip, reported length, shortest form, prefix-freeness."
  },
  {
   "property": "C03",
   "status": "proved",
   "theorems": [
    "C03_buffer_is_a_queue",
    "C03_in_turns"
   ],
   "note": "For every sequence of typed writes whose total size is at most 2^48 bytes (address space). C03_in_turns: also when one buffer, reset from any state, is written and read in turns."
  },
  {
   "property": "C04",
   "status": "partial",
   "theorems": [
    "C04_read_untrusted_refuted",
    "C04_varbytes_panics_iff",
    "C04_read_untrusted_partial"
   ],
   "note": "False as stated: ReadVarBytes panics on a declared length of 2^63 or more (refuted theorem, nine 0xff bytes). Proved: exact condition for the panic, and panic-freedom of every read sequence whose lengths do not come from the input."
  },
  {
   "property": "C05",
   "status": "proved",
   "theorems": [
    "C05_base58_decode_encode",
    "C05_base58_encode_decode",
    "C05_base58_other_characters"
   ],
   "note": "Both directions for strings of any length, and rejection of other characters."
  },
  {
   "property": "C06",
   "status": "proved",
   "theorems": [
    "C06_check_roundtrip",
    "C06_check_iff",
    "C06_check_never_panics"
   ],
   "note": "For every 32-byte hash function; concrete SHA-256 shows the hypothesis is met."
  },
  {
   "property": "C07",
   "status": "proved",
   "theorems": [
    "C07_bech32_encode_decode"
   ],
   "note": "Total length at most 90."
  },
  {
   "property": "C08",
   "status": "proved",
   "theorems": [
    "C08_bech32_canonical",
    "C08_bech32_same_decoding",
    "C08_bech32_never_panics"
   ],
   "note": "Full characterisation; never panics."
  },
  {
   "property": "C09",
   "status": "proved",
   "theorems": [
    "C09_substitution_rejected",
    "C09_one_detected",
    "C09_four_detected"
   ],
   "note": "Up to four replaced characters (the distance of the code is 5 for 89 symbols: errors are eliminated pairwise by linear algebra over GF(2), computed once for all patterns); one replaced symbol at any length. Replacements exclude the separator '1', which moves the human-readable part (C120)."
  },
  {
   "property": "C10",
   "status": "proved",
   "theorems": [
    "C10_witness_roundtrip"
   ],
   "note": "The encoding always succeeds; its length is pinned between two bounds; decoding holds whenever it fits 90 characters."
  },
  {
   "property": "C11",
   "status": "partial",
   "theorems": [
    "C11_decode_never_panics_refuted",
    "C11_witness_panics_iff",
    "C11_address_panics_iff"
   ],
   "note": "False as stated: WitnessDecode and DecodeAddress panic on bc1gmk9yu (empty data part). Proved: the exact condition for the panic of both functions."
  },
  {
   "property": "C12",
   "status": "proved",
   "theorems": [
    "C12_id_roundtrip",
    "C12_id_from_string",
    "C12_id_reject",
    "C12_id_text_reversed"
   ],
   "note": "Both directions, rejection, and the byte order of the text."
  },
  {
   "property": "C13",
   "status": "proved",
   "theorems": [
    "C13_address_roundtrip"
   ],
   "note": "Four kinds, two networks."
  },
  {
   "property": "C14",
   "status": "proved",
   "theorems": [
    "C14_one_network",
    "C14_other_network_refused"
   ],
   "note": "Stronger form: no string at all is accepted by both networks."
  },
  {
   "property": "C15",
   "status": "proved",
   "theorems": [
    "C15_recognised_iff_template",
    "C15_script_to_address",
    "C15_address_to_script",
    "C15_different_addresses_different_scripts"
   ],
   "note": "Exact recognition of the four templates, both directions of the address correspondence, injectivity. Scripts up to 2^48 bytes (address space)."
  },
  {
   "property": "C16",
   "status": "proved",
   "theorems": [
    "C16_number_roundtrip",
    "C16_accepted_is_canonical"
   ],
   "note": "All int64 except the minimum (see C17); every accepted string up to 8 bytes is canonical."
  },
  {
   "property": "C17",
   "status": "partial",
   "theorems": [
    "C17_number_never_panics_refuted",
    "C17_number_never_panics_partial"
   ],
   "note": "False as stated: ScriptNum(-2^63).Bytes() panics (refuted theorem). Proved: that is the only value."
  },
  {
   "property": "C18",
   "status": "partial",
   "theorems": [
    "C18_pushes_data_refuted",
    "C18_pushes_data_refuted_unreadable",
    "C18_pushes_data_partial"
   ],
   "note": "False as stated: AddData of the one-byte string 00 pushes the empty string, and 81 gives the unreadable opcode 4f (refuted theorems). Proved for every other string."
  },
  {
   "property": "C19",
   "status": "partial",
   "theorems": [
    "C19_pushes_integer_refuted",
    "C19_pushes_integer_refuted_panics",
    "C19_pushes_integer_partial"
   ],
   "note": "False as stated: AddInt64(-1) gives an unreadable script and AddInt64(-2^63) panics (refuted theorems). Proved for every other value."
  },
  {
   "property": "C20",
   "status": "proved",
   "theorems": [
    "C20_parse_is_the_format",
    "C20_reserialise",
    "C20_concatenation",
    "C20_never_panics"
   ],
   "note": "Parsing is exactly the wire format; reserialisation, concatenation and absence of panics for scripts up to 2^48 bytes."
  },
  {
   "property": "C21",
   "status": "partial",
   "theorems": [
    "C21_codeseparator_refuted",
    "C21_codeseparator_never_removed",
    "C21_removes_exactly_partial"
   ],
   "note": "False for OP_CODESEPARATOR, which is never removed because the reader does not know it (refuted theorem). Proved for every parsable script and opcode."
  },
  {
   "property": "C22",
   "status": "partial",
   "theorems": [
    "C22_never_panics_refuted",
    "C22_panics_iff_partial",
    "C22_verify_panics_partial",
    "C22_steps_bounded_partial"
   ],
   "note": "False as stated: CHECKMULTISIG panics on a negative count or an empty signature (refuted theorem). Proved: exact condition for a panic, and at most one step per byte of each executed script."
  },
  {
   "property": "C23",
   "status": "proved",
   "theorems": [
    "C23_data_opcodes",
    "C23_effect_deterministic"
   ],
   "note": "All 27 data opcodes, any stack, error exactly when the documented effect is undefined."
  },
  {
   "property": "C24",
   "status": "proved",
   "theorems": [
    "C24_checkmultisig_iff_matched",
    "C24_more_signatures_than_keys"
   ],
   "note": "For non-empty signatures, m <= n, counts encoded as script numbers, oracles that return."
  },
  {
   "property": "C25",
   "status": "partial",
   "theorems": [
    "C25_needs_signature_refuted",
    "C25_needs_signature_partial"
   ],
   "note": "False as stated: unlocking script 00 63 spends any P2PKH output (refuted theorem). Proved for unlocking scripts that leave no conditional open."
  },
  {
   "property": "C26",
   "status": "proved",
   "theorems": [
    "C26_p2pkh_iff"
   ],
   "note": "Any push form for the signature and the key."
  },
  {
   "property": "C27",
   "status": "partial",
   "theorems": [
    "C27_runs_redeem_refuted",
    "C27_p2sh_iff_partial"
   ],
   "note": "False as stated: with at most one further stack item the redeem script is never run (refuted theorem). Proved: exact acceptance condition when no conditional is left open."
  },
  {
   "property": "C28",
   "status": "proved",
   "theorems": [
    "C28_conditionals"
   ],
   "note": "Any nesting, any stack, any plain instruction; success and final stack agree with structured execution."
  },
  {
   "property": "C29",
   "status": "partial",
   "theorems": [
    "C29_return_fails_refuted",
    "C29_return_is_noop_partial"
   ],
   "note": "False as stated: OP_RETURN is a no-op (refuted theorem). Proved: every OP_RETURN can be erased without changing the run."
  },
  {
   "property": "C30",
   "status": "proved",
   "theorems": [
    "C30_legacy_roundtrip"
   ],
   "note": "For every transaction in range, with or without witness inputs, and any trailing bytes; total size at most 2^48 bytes (address space)."
  },
  {
   "property": "C31",
   "status": "proved",
   "theorems": [
    "C31_witness_roundtrip"
   ],
   "note": "Witness stacks and trailing bytes included; total size at most 2^48 bytes."
  },
  {
   "property": "C32",
   "status": "partial",
   "theorems": [
    "C32_rewrite_refuted",
    "C32_rewrite_strips_partial",
    "C32_rewrite_legacy_partial"
   ],
   "note": "False as stated: Deserialize leaves WitnessScriptCode nil, so writing back drops the witness (refuted theorem). Proved: exactly what comes back for every witness transaction, and byte preservation for the legacy format."
  },
  {
   "property": "C33",
   "status": "partial",
   "theorems": [
    "C33_no_panic_refuted",
    "C33_panics_only_on_huge_counts_partial"
   ],
   "note": "False as stated: huge counts make the allocation panic (refuted theorem). Proved: for every byte string a panic implies the input contains a 9-byte count above 2^43."
  },
  {
   "property": "C34",
   "status": "proved",
   "theorems": [
    "C34_id_covers_body",
    "C34_id"
   ],
   "note": "Both directions, on the hashed bytes and on the id for a hash that does not collide on the two encodings."
  },
  {
   "property": "C35",
   "status": "partial",
   "theorems": [
    "C35_sizes_refuted",
    "C35_base_size_partial",
    "C35_size_partial",
    "C35_no_witness_sizes_partial",
    "C35_unsigned_base_size_partial"
   ],
   "note": "False as stated in all three parts (refuted theorem). Proved: the exact difference for every transaction, and equality without witness inputs."
  },
  {
   "property": "C36",
   "status": "proved",
   "theorems": [
    "C36_legacy_all_digest",
    "C36_legacy_all_commits"
   ],
   "note": "The digest hashes exactly the SIGHASH_ALL preimage, and the preimage determines every field."
  },
  {
   "property": "C37",
   "status": "partial",
   "theorems": [
    "C37_other_types_commit_refuted",
    "C37_other_types_partial"
   ],
   "note": "False as stated for every type other than ALL (refuted theorem, two transactions sharing no coin and no output). Proved: such digests depend on version, lock time and type only."
  },
  {
   "property": "C38",
   "status": "proved",
   "theorems": [
    "C38_bip143_all",
    "C38_bip143_all_commits"
   ],
   "note": "Digest equals BIP143's; with no collision among the hashed strings the digest determines the whole transaction."
  },
  {
   "property": "C39",
   "status": "partial",
   "theorems": [
    "C39_history_refuted",
    "C39_stale_outputs_partial",
    "C39_history_partial"
   ],
   "note": "False as stated (refuted theorem: stale and poisoned caches). Proved: independence of every history of digests whose types have neither ANYONECANPAY nor bit 1."
  },
  {
   "property": "C40",
   "status": "partial",
   "theorems": [
    "C40_bip143_types_refuted",
    "C40_outputs_ignored_partial",
    "C40_bip143_types_partial"
   ],
   "note": "False as stated for SINGLE (refuted theorem). Proved: BIP143 for all types except SINGLE with a matching output and types 6, 7, ... with bit 1 set but not NONE/SINGLE; those ignore the outputs."
  },
  {
   "property": "C41",
   "status": "proved",
   "theorems": [
    "C41_p2pkh_signed_verifies"
   ],
   "note": "All inputs P2PKH, any number, any starting caches, any type byte used for all inputs; hashes and signature scheme abstract."
  },
  {
   "property": "C42",
   "status": "proved",
   "theorems": [
    "C42_p2wpkh_signed_verifies"
   ],
   "note": "One input in any transaction."
  },
  {
   "property": "C43",
   "status": "proved",
   "theorems": [
    "C43_multisig_signed_verifies"
   ],
   "note": "P2SH and P2WSH; up to 2^20 keys; m >= 1."
  },
  {
   "property": "C44",
   "status": "partial",
   "theorems": [
    "C44_sign_leaves_signature_refuted",
    "C44_sign_leaves_signature_partial"
   ],
   "note": "False as stated (refuted theorem: EmbedIdxSignature swallows the redeem mismatch of P2WSH). Proved: in every other case script and witness hold the signatures."
  },
  {
   "property": "C45",
   "status": "partial",
   "theorems": [
    "C45_p2wsh_own_script_refuted",
    "C45_p2wsh_own_script_partial"
   ],
   "note": "False as stated for every P2WSH output (refuted theorem, no signature needed). Proved: with the right script registered, push-only unlocking scripts reveal a script with its Hash160."
  },
  {
   "property": "C46",
   "status": "proved",
   "theorems": [
    "C46_value_conserved"
   ],
   "note": "For every sequence of builder calls. Amounts non-negative and totals below 2^63 (int64); fee pinned to SendFees or to EstimateFees of the estimated size."
  },
  {
   "property": "C47",
   "status": "partial",
   "theorems": [
    "C47_never_overpays_refuted",
    "C47_never_overpays_partial"
   ],
   "note": "Refuted: SendFees(2^64-1) becomes a fee of -1, and To(2^64-1) counts as -1. For totals below 2^63 the outputs exceed the inputs exactly when the fee is negative."
  },
  {
   "property": "C48",
   "status": "proved",
   "theorems": [
    "C48_layout",
    "C48_change",
    "C48_coins"
   ],
   "note": "For every sequence of calls: inputs, payments, change, data in order; change present exactly when something is left. C48_coins: the coin list keeps the coins in the order they were added."
  },
  {
   "property": "C49",
   "status": "partial",
   "theorems": [
    "C49_size_estimate_refuted",
    "C49_size_estimate_exact_partial",
    "C49_size_estimate_partial",
    "C49_counts_exact_partial",
    "C49_counts_refuted"
   ],
   "note": "Refuted: the output scripts' length prefixes and all witness data are left out. The exact difference is proved for transactions without witness inputs, for the estimate from the transaction and the one from counts (C49_counts_...: short exactly when there are more outputs than inputs, with unlocking scripts of 107 bytes)."
  },
  {
   "property": "C50",
   "status": "partial",
   "theorems": [
    "C50_multisig_recognised",
    "C50_recognised_iff",
    "C50_malformed_rejected_refuted",
    "C50_too_few_keys_rejected_partial"
   ],
   "note": "Recognition and uniqueness proved for 1-16 keys; 'malformed parameters are rejected' refuted (m = 0, m < 0, 17 keys, any key length)."
  },
  {
   "property": "C51",
   "status": "partial",
   "theorems": [
    "C51_root_is_bitcoins_refuted",
    "C51_root_is_bitcoins_partial",
    "C51_root_exact"
   ],
   "note": "Refuted at six leaves for every hash function (up to a collision among the strings hashed): an even level that is not full gets a node made of two nils. Proved for every count whose levels are full or odd, and the exact root is given for every count. Counts up to 2^40; math.Log2/Ceil/Pow trusted."
  },
  {
   "property": "C52",
   "status": "proved",
   "theorems": [
    "C52_leaves_have_proofs",
    "C52_others_do_not"
   ],
   "note": "Every list without nil entries, up to 2^40 leaves; also path length, and that other leaves get no path."
  },
  {
   "property": "C53",
   "status": "partial",
   "theorems": [
    "C53_proof_proves_membership_refuted",
    "C53_proof_proves_membership_partial",
    "C53_verify_climbs"
   ],
   "note": "Refuted: zero hash proved in a six-leaf tree; bytes beyond the 32nd of the leaf ignored. For 32-byte leaves and full-depth paths: member, or an explicit collision, or (only for counts that do not fit) the zero hash or a preimage of it."
  },
  {
   "property": "C54",
   "status": "proved",
   "theorems": [
    "C54_roundtrip"
   ],
   "note": "C54_roundtrip, for every 32-byte hash and every pair of version strings; secrets up to 2^256 - 1 and every point of the curve. The point at infinity, which is not a valid point, does not survive."
  },
  {
   "property": "C55",
   "status": "partial",
   "theorems": [
    "C55_agree",
    "C55_always_refuted"
   ],
   "note": "C55_agree holds for every key, index, HMAC and hash provided the left half of the HMAC is not a multiple of the order. C55_always_refuted: in that case the private side returns the parent's secret as the child and the public side fails."
  },
  {
   "property": "C56",
   "status": "proved",
   "theorems": [
    "C56_hardened",
    "C56_stays_public"
   ],
   "note": "C56_hardened for one step; C56_stays_public along any path. No assumption on the HMAC."
  },
  {
   "property": "C57",
   "status": "partial",
   "theorems": [
    "C57_steps",
    "C57_accepts",
    "C57_panics",
    "C57_ill_formed_refuted",
    "C57_apostrophe_refuted"
   ],
   "note": "C57_steps: paths of numbers below 2^31 mean their steps. C57_accepts: exactly what is accepted and what it means. C57_panics: exactly when it panics. The rest of the statement is false of the code: C57_ill_formed_refuted (m/ panics), C57_apostrophe_refuted (numbers from 2^31 wrap, so an apostrophe can select an ordinary child and no apostrophe a hardened one). strings.Split and strconv.ParseUint are modelled from their documentation."
  },
  {
   "property": "C58",
   "status": "proved",
   "theorems": [
    "C58_mnemonic_roundtrip",
    "C58_word_lists"
   ],
   "note": "Any 32-byte hash, any list of 2048 distinct space-free words; the three shipped lists are shown to be such lists. Entropy's random source not modelled."
  },
  {
   "property": "C59",
   "status": "proved",
   "theorems": [
    "C59_only_valid_checksums"
   ],
   "note": "For EntropyFromMnemonic, any string."
  },
  {
   "property": "C60",
   "status": "proved",
   "theorems": [
    "C60_roundtrip",
    "C60_roundtrip_mu",
    "C60_refuted"
   ],
   "note": "crypto/rand and rand.Prime are arguments (primes p, q and blinding factor r). C60_roundtrip is the claim; C60_roundtrip_mu extends it to any two distinct primes whose key has a mu. C60_refuted: getRandom does not check that r is coprime to N, and then decryption can give another message. Two-bit primes have no mu (ex_two_bits) and equal primes fail (ex_equal_primes)."
  },
  {
   "property": "C61",
   "status": "proved",
   "theorems": [
    "C61_encrypt_good",
    "C61_decrypt_total",
    "C61_add",
    "C61_add_plaintext",
    "C61_mult_plaintext",
    "C61_sub",
    "C61_div_plaintext",
    "C61_any_ciphertext_refuted"
   ],
   "note": "For ciphertexts coprime to N, which every encryption with a coprime blinding factor is (C61_encrypt_good) and every result of these operations is again. DivPlaintext divides modulo N and panics when k has no inverse. C61_any_ciphertext_refuted: the laws are false of arbitrary positive numbers."
  },
  {
   "property": "C62",
   "status": "partial",
   "theorems": [
    "C62_always_valid_refuted",
    "C62_run",
    "C62_run_2048"
   ],
   "note": "C62_run: for honest parties with any Paillier keys large enough for the plaintext, both obtain the same DER signature, low-s, satisfying the ECDSA equation for the product key and nonce; C62_run_2048 for the program's key size. C62_always_valid_refuted: the program does not reduce the x coordinate of R modulo the order, so for a nonce point whose x is at least the order the two parties obtain a signature that does not verify. Malicious parties are outside the statement."
  },
  {
   "property": "C63",
   "status": "partial",
   "theorems": [
    "C63_recover",
    "C63_recover_only",
    "C63_run",
    "C63_published_refuted"
   ],
   "note": "C63_recover, C63_run: the phase-5 numbers of an honest run give back the secret exactly, modulo the order, for every key, nonce and secret that is a unit. C63_recover_only: the value recovered is determined by those numbers. C63_published_refuted: from the signature actually published, whose s is normalised to the lower half, the recovered value is the secret or its negation, so the statement as written holds only up to sign."
  },
  {
   "property": "C64",
   "status": "proved",
   "theorems": [
    "C64_verify",
    "C64_sign",
    "C64_sign_verify",
    "C64_sign_equation"
   ],
   "note": "Every key D >= 0, hash of any length, every HMAC. The standard library's ecdsa.Verify is modelled as its published generic algorithm over the repository's curve methods."
  },
  {
   "property": "C65",
   "status": "proved",
   "theorems": [
    "C65_nonce",
    "C65_range"
   ],
   "note": "For every HMAC with 32-byte output; the function takes no extra data. HMAC-SHA256 is a parameter."
  },
  {
   "property": "C66",
   "status": "partial",
   "theorems": [
    "C66_sign_valid",
    "C66_sign_total",
    "C66_sign_verify_exact",
    "C66_sign_verify_refuted",
    "C66_verify",
    "C66_verify_refuted",
    "C66_wire"
   ],
   "note": "Signatures are valid by the BIP for every hash (C66_sign_valid); Verify accepts them exactly when the challenge is not zero (C66_sign_verify_exact) and agrees with the BIP off s = n (C66_verify). The claim as stated is refuted for a hash with a zero challenge, and Verify accepts s = n."
  },
  {
   "property": "C67",
   "status": "partial",
   "theorems": [
    "C67_run_exact",
    "C67_refuted"
   ],
   "note": "Refuted: Phase4 hashes the party's own R instead of the shared one. C67_run_exact gives the exact condition for acceptance."
  },
  {
   "property": "C68",
   "status": "proved",
   "theorems": [
    "C68_add",
    "C68_add_unique",
    "C68_double",
    "C68_on_curve",
    "C68_inverse"
   ],
   "note": "Add, Double and IsOnCurve modelled line by line on Z; chord-and-tangent law stated in congruences (SecpSpec.v); group laws proved via complete projective formulas; P proved prime. Axiom-free. math/big ModInverse is modelled by extended Euclid."
  },
  {
   "property": "C69",
   "status": "proved",
   "theorems": [
    "C69_scalar_mult",
    "C69_leading_zeros",
    "C69_homomorphism",
    "C69_homomorphism_any",
    "C69_compose"
   ],
   "note": "ScalarMult modelled bit by bit; k-fold sum stated as an inductive relation; homomorphism modulo N uses N*G = 0, checked by a chain of 297 verified steps."
  },
  {
   "property": "C70",
   "status": "partial",
   "theorems": [
    "C70_parse_exact",
    "C70_total",
    "C70_roundtrip",
    "C70_standard_only_refuted"
   ],
   "note": "C70_parse_exact states exactly what is accepted, C70_roundtrip and C70_total hold; 'only the standard prefixes' is refuted: 05 is accepted as 04 (C70_standard_only_refuted)."
  },
  {
   "property": "C71",
   "status": "partial",
   "theorems": [
    "C71_der_encode",
    "C71_der_decode_exact",
    "C71_der_decode_total",
    "C71_der_roundtrip",
    "C71_der_trailing",
    "C71_der_unique_refuted",
    "C71_der_unique_partial",
    "C71_sign_verify",
    "C71_verify_malleable",
    "C71_schnorr_roundtrip",
    "C71_schnorr_decode_exact",
    "C71_schnorr_unique_partial",
    "C71_schnorr_second_encoding",
    "C71_schnorr_unique_refuted"
   ],
   "note": "encoding/asn1 is modelled for a SEQUENCE of two INTEGERs. Serialize writes the one DER encoding (C71_der_encode), Deserialize inverts it (C71_der_roundtrip) and never panics; the strings it accepts are characterised exactly (C71_der_decode_exact). Uniqueness is false: bytes after s inside the SEQUENCE and after it are ignored (C71_der_unique_refuted, C71_verify_malleable: EcdsaVerify accepts any extension); the shortest string that decodes to a signature is its encoding (C71_der_unique_partial). Schnorr: exact, unique among 64-byte strings, refuted for others, panics below 32 bytes. Numbers are limited to 2^29 bytes where encoding matters, because asn1 refuses lengths of 2^31 and more."
  },
  {
   "property": "C72",
   "status": "proved",
   "theorems": [
    "C72_any_calls",
    "C72_digest"
   ],
   "note": "C72_any_calls: after any sequence of Write, Sum and Reset calls, Sum returns the digest of the bytes written since the last Reset, no panic, the state unchanged. C72_digest: the digest is 20 bytes and is RIPEMD-160 as given by an independent transcription of the paper, including the compression function and padding. The length in the padding is modulo 2^64 bits, as in the paper."
  },
  {
   "property": "C73",
   "status": "proved",
   "theorems": [
    "C73_key",
    "C73_low_count",
    "C73_negative",
    "C73_counter_wraps"
   ],
   "note": "C73_key: for every PRF with output of hLen bytes, password, salt, count of at least one and length up to 2^48 - hLen (the allocation limit), Key is the RFC 8018 value. C73_low_count, C73_negative: what happens outside that range. C73_counter_wraps: INT(i) is four octets and wraps after 2^32 blocks, where the RFC asks for an error."
  },
  {
   "property": "C74",
   "status": "partial",
   "theorems": [
    "C74_messages_roundtrip_refuted",
    "C74_messages_roundtrip_partial"
   ],
   "note": "Refuted: ports above 65535 are cut off; NewMsgReject for a tx or block cannot be decoded as it has no hash; a getheaders stop hash is not decoded. Proved for all messages whose fields fit the wire (a stop hash cannot be set from outside)."
  },
  {
   "property": "C75",
   "status": "partial",
   "theorems": [
    "C75_size_refuted",
    "C75_size_partial",
    "C75_reject_size"
   ],
   "note": "Refuted for verack, reject, unhandled and getheaders without locators. Proved for the other types, and the exact error for reject."
  },
  {
   "property": "C76",
   "status": "partial",
   "theorems": [
    "C76_sequences_arrive_partial",
    "C76_all_sequences",
    "C76_sequences_arrive_refuted"
   ],
   "note": "Refuted for ping and pong, which arrive without their nonces. Proved for all sequences of other messages and every way the network cuts the bytes, through bufio's buffering and io.ReadFull."
  },
  {
   "property": "C77",
   "status": "partial",
   "theorems": [
    "C77_checksum",
    "C77_read_sound",
    "C77_magic_refuted"
   ],
   "note": "The checksum half is proved. The magic half is refuted: ReadMessage never looks at it."
  },
  {
   "property": "C78",
   "status": "partial",
   "theorems": [
    "C78_getdata_limit",
    "C78_limits_refuted",
    "C78_limits_partial",
    "C78_room"
   ],
   "note": "Proved for getdata. Refuted for inv and headers, whose checks count one item per call, and for decoding headers. Overshoot bounded by the items per call. C78_room: with room the items are appended, without it the call is an error."
  },
  {
   "property": "C79",
   "status": "partial",
   "theorems": [
    "C79_frames_contiguous",
    "C79_delivered",
    "C79_send_progress_refuted",
    "C79_send_progress_partial"
   ],
   "note": "First half proved for every schedule, any number of goroutines and failing writes. Second half refuted: ReadMessage holds the mutex while waiting for the peer. No deadlock, given the read's deadline. Fairness of sync.Mutex not modelled."
  },
  {
   "property": "C80",
   "status": "partial",
   "theorems": [
    "C80_canonical_address_refuted",
    "C80_accepted_forms"
   ],
   "note": "False as stated: a Bech32 string whose human-readable part is 'bc1x' decodes as a main-net address. Proved: every accepted string is canonical or of that form."
  },
  {
   "property": "C81",
   "status": "proved",
   "theorems": [
    "C81_wire_format"
   ],
   "note": "Both formats, all counts and lengths."
  },
  {
   "property": "C82",
   "status": "proved",
   "theorems": [
    "C82_signed_transaction_verifies",
    "C82_new_inputs"
   ],
   "note": "Any mix of the four kinds."
  },
  {
   "property": "C83",
   "status": "partial",
   "theorems": [
    "C83_fee_is_rate_times_size_refuted",
    "C83_fee_is_rate_times_size_partial"
   ],
   "note": "Refuted: 100 bytes at 290 give 28, not 29. Off by at most one satoshi, and only at exact multiples. Uses Flocq and the standard library's real number axioms."
  },
  {
   "property": "C84",
   "status": "proved",
   "theorems": [
    "C84_built_transaction_verifies",
    "C84_signing_succeeds"
   ],
   "note": "For any signature scheme whose signatures verify and any hash functions of the right length."
  },
  {
   "property": "C85",
   "status": "partial",
   "theorems": [
    "C85_decoders_agree_partial",
    "C85_decoders_agree_more_partial",
    "C85_decoders_agree_refuted"
   ],
   "note": "Refuted: a trailing space is accepted by one and not the other. Proved for every string strings.Split and strings.Fields split alike, in particular single-spaced sentences."
  },
  {
   "property": "C86",
   "status": "partial",
   "theorems": [
    "C86_peer_cannot_crash_refuted",
    "C86_peer_cannot_crash_partial"
   ],
   "note": "Refuted: a 33-byte frame with a reject message crashes the process. Only version and reject messages holding a length above 2^48 can."
  },
  {
   "property": "C87",
   "status": "partial",
   "theorems": [
    "C87_wire_format_refuted",
    "C87_wire_format_partial"
   ],
   "note": "Refuted: the ports of a version message are little-endian. The rest is proved, as is the framing."
  },
  {
   "property": "C88",
   "status": "proved",
   "theorems": [
    "C88_add_group"
   ],
   "note": "Group laws of EcGroup.v transported to Add through the Jacobian formulas."
  },
  {
   "property": "C89",
   "status": "proved",
   "theorems": [
    "C89_parameters",
    "C89_base_order",
    "C89_base_injective"
   ],
   "note": "Pocklington certificates for P and N; N*G = 0 by a verified addition chain."
  },
  {
   "property": "C90",
   "status": "proved",
   "theorems": [
    "C90_every_point_a_multiple",
    "C90_order"
   ],
   "note": "By counting: at most 2P+1 points, no point of order two, 3N > 2P+1."
  },
  {
   "property": "C91",
   "status": "proved",
   "theorems": [
    "C91_malleable"
   ],
   "note": ""
  },
  {
   "property": "C92",
   "status": "partial",
   "theorems": [
    "C92_nonce_any_order",
    "C92_nonce_any_order_refuted"
   ],
   "note": "Refuted for orders whose bit length is 1 to 7 above a multiple of 256 (e.g. 257 bits): one block too few is generated. Proved for all other orders."
  },
  {
   "property": "C93",
   "status": "proved",
   "theorems": [
    "C93_add",
    "C93_serialize"
   ],
   "note": "PrvKey.Add against PubKey.Add for all byte strings; Serialize round trip for keys of at most 32 bytes."
  },
  {
   "property": "C94",
   "status": "proved",
   "theorems": [
    "C94_phase4_repeat"
   ],
   "note": "SPhase4 called twice on the party it returns; the extraction of the key is proved for every hash and non-zero challenge."
  },
  {
   "property": "C95",
   "status": "partial",
   "theorems": [
    "C95_master",
    "C95_private",
    "C95_public",
    "C95_invalid_refuted"
   ],
   "note": "C95_master, C95_private, C95_public: the formulas for every seed, key and index; CKDpub fails when the left half is a multiple of the order. C95_invalid_refuted: secrets of zero and left halves of the order or more are returned where BIP 32 says the key is invalid."
  },
  {
   "property": "C96",
   "status": "partial",
   "theorems": [
    "C96_exact",
    "C96_total",
    "C96_version_refuted",
    "C96_secret_refuted"
   ],
   "note": "C96_exact gives exactly what is accepted; C96_total: no panic. C96_version_refuted: the version is ignored. C96_secret_refuted: secrets 0 and n are accepted."
  },
  {
   "property": "C97",
   "status": "proved",
   "theorems": [
    "C97_signed_verifies",
    "C97_built_verifies",
    "C97_key_hash"
   ],
   "note": "First part of C82/C84 with every parameter of the scheme replaced by the models of xcrypto: the hypotheses scheme_ok and hashes_ok are theorems here (WholeProofs.scheme, hashes). SHA-256 is any function with 32 byte digests, HMAC any function; the nonce loop has fuel. Says nothing about signing succeeding (it fails for nonces giving r = 0 or s = 0)."
  },
  {
   "property": "C98",
   "status": "partial",
   "theorems": [
    "C98_p2pkh_spend",
    "C98_p2wpkh_spend_partial",
    "C98_multisig_spend_refuted",
    "C98_multisig_spend_partial"
   ],
   "note": "Proved for P2PKH; for P2WPKH if no earlier input is a witness input and the caches are empty (C39). For multisig refuted: the redeem script alone is accepted, for every multisig script, by P2SH and by P2WSH (consequence of C27). With two further items at least the P2SH claim is proved, for items whose last one does not collide with the redeem script under Hash160. Trailing bytes after the DER signature and the 05 key prefix are accepted (C70, C71), as the statement allows."
  },
  {
   "property": "C99",
   "status": "partial",
   "theorems": [
    "C99_execute_partial",
    "C99_true_on_top_refuted",
    "C99_verdict_partial"
   ],
   "note": "False as stated: a run that ends with an empty stack succeeds (C99_true_on_top_refuted). C99_verdict_partial is the exact verdict for every run, C99_execute_partial for the method Execute."
  },
  {
   "property": "C100",
   "status": "proved",
   "theorems": [
    "C100_checksig",
    "C100_checksigverify",
    "C100_too_few_items",
    "C100_checkmultisigverify"
   ],
   "note": "For all inputs; sizes as in C24 for the multisig opcode."
  },
  {
   "property": "C101",
   "status": "proved",
   "theorems": [
    "C101_embedded_verifies",
    "C101_two_party_spend"
   ],
   "note": "For all inputs.  Conditions on the runs are those of C62 and C63 (R.x below the group order, plaintexts fit)."
  },
  {
   "property": "C102",
   "status": "proved",
   "theorems": [
    "C102_watch_only",
    "C102_held",
    "C102_spend"
   ],
   "note": "For all inputs; a derived point at infinity is no key (P <> (0, 0))."
  },
  {
   "property": "C103",
   "status": "partial",
   "theorems": [
    "C103_seed",
    "C103_wallet",
    "C103_no_panic",
    "C103_checked_partial",
    "C103_checked_refuted"
   ],
   "note": "Proved for all inputs: the seed (C103_seed), the chain entropy - mnemonic - seed - master key (C103_wallet), absence of panics (C103_no_panic), and acceptance exactly of BIP 39 sentences among the strings that strings.Split and strings.Fields cut alike (C103_checked_partial). For all strings the last part is false: C103_checked_refuted shows a twelve-word string with a wrong checksum behind three spaces that passes. NFKD normalisation, which BIP 39 asks for and the code does not do, is not modelled."
  },
  {
   "property": "C104",
   "status": "partial",
   "theorems": [
    "C104_chosen_plaintext_refuted",
    "C104_chosen_plaintext_2048_refuted",
    "C104_honest_refuted"
   ],
   "note": "The claim is false. C104_chosen_plaintext_2048_refuted: with the program's 2048-bit Paillier keys a partner who encrypts 2^512 in place of the own key computes the honest private key from one phase 4 answer, for every key, message and nonce. C104_chosen_plaintext_refuted is the same for any number and key sizes under size conditions. C104_honest_refuted: an honest partner finds the key among a list of candidates."
  },
  {
   "property": "C105",
   "status": "partial",
   "theorems": [
    "C105_rogue_key_refuted"
   ],
   "note": "The claim is false for every honest key. C105_rogue_key_refuted: the answer x*G minus the honest public key is a point of the curve, the honest party then computes x*G as the shared key, and every signature made with x verifies under it (outside challenge zero, see C66)."
  },
  {
   "property": "C106",
   "status": "partial",
   "theorems": [
    "C106_two_sessions_refuted"
   ],
   "note": "The claim is false for every key. C106_two_sessions_refuted: two runs on one message give the key whenever the difference of the two challenges (their sum when the joint nonces have opposite signs) does not vanish modulo the order; the proof gives the formula."
  },
  {
   "property": "C107",
   "status": "partial",
   "theorems": [
    "C107_assemble",
    "C107_sound_partial",
    "C107_sound_refuted",
    "C107_no_panic_partial",
    "C107_no_panic_refuted",
    "C107_blanks_refuted"
   ],
   "note": "C107_assemble: a text made of words with a meaning (an independent grammar in AsmSpec) assembles to the concatenation of the meanings. C107_sound_partial: conversely, if every quoted word is hex. C107_sound_refuted: '12zz' is accepted as 0x12, because the decoding error of a quoted word is dropped. C107_no_panic_partial: only the number -2^63 panics (C107_no_panic_refuted). C107_blanks_refuted: a trailing newline, two blanks or an empty text are errors."
  },
  {
   "property": "C108",
   "status": "partial",
   "theorems": [
    "C108_listing_injective",
    "C108_roundtrip_partial",
    "C108_roundtrip_refuted",
    "C108_every_script_has_a_text"
   ],
   "note": "C108_listing_injective: equal listings, equal scripts. C108_roundtrip_partial: scripts of opcodes without data reassemble. C108_roundtrip_refuted: 01 10 is listed as OP_DATA_1 10, which assembles to 01 5a, a different valid script. C108_every_script_has_a_text: Load can express every script, so only the listing's format is at fault."
  },
  {
   "property": "C109",
   "status": "partial",
   "theorems": [
    "C109_new",
    "C109_every_entropy_refuted",
    "C109_two_wallets_refuted",
    "C109_sizes"
   ],
   "note": "C109_new: the mnemonic has twelve words of the list and decodes to the sixteen drawn octets. C109_every_entropy_refuted: math/rand reduces its seed to 31 bits, so for every generator at most 2^31 - 2 of the 2^128 entropies occur, and some entropy never does. C109_two_wallets_refuted: two calls whose clocks differ by a multiple of 2147483647 ns give the same wallet. The generator after seeding is an argument; the seed reduction is taken from math/rand. C109_sizes: exactly the five sizes of BIP 39 are drawn."
  },
  {
   "property": "C110",
   "status": "partial",
   "theorems": [
    "C110_stays_valid_partial",
    "C110_stays_valid_refuted"
   ],
   "note": "C110_stays_valid_partial: as long as no call changes the language, for every sequence of later calls. C110_stays_valid_refuted: for all clocks, languages and generators, one NewBIP39 in another language makes the mnemonic invalid and undecodable, because the word list is package-wide."
  },
  {
   "property": "C111",
   "status": "partial",
   "theorems": [
    "C111_count",
    "C111_hash",
    "C111_no_panic_partial",
    "C111_no_panic_refuted",
    "C111_own_answer_refuted"
   ],
   "note": "C111_count, C111_hash: the result is returned exactly when the answer is well typed, has no error and its last result field has the right type. C111_no_panic_partial: the client panics exactly on answers with neither result nor error; C111_no_panic_refuted: null, {} and result null. C111_own_answer_refuted: the id and the HTTP status are ignored. JSON syntax trees and the stores of encoding/json are modelled; its parser and GetBlock's nested result are not."
  },
  {
   "property": "C112",
   "status": "partial",
   "theorems": [
    "C112_absent_fields",
    "C112_neighbour_text",
    "C112_header_fields",
    "C112_neighbours_refuted"
   ],
   "note": "C112_header_fields: strings and integers are those of the answer. C112_neighbours_refuted: previousblockhash and nextblockhash are declared []byte, so encoding/json reads the 64 hex digits as base64; for every answer the field has 48 octets and is never the hash. C112_absent_fields: fields missing in the answer are empty, 0 or nil. C112_neighbour_text: what is read as a neighbour's hash is base64 text."
  },
  {
   "property": "C113",
   "status": "proved",
   "theorems": [
    "C113_accepts_exactly",
    "C113_one_reading",
    "C113_unique_bytes_refuted",
    "C113_one_format_refuted"
   ],
   "note": "Both directions, for each reader, against an inductive grammar that does not mention the reader; readings are unique. Refuted: that a transaction has one encoding (a compact size may be written longer than needed, and anything may follow the lock time), and that a string has one format (both readers accept the same string with different results)."
  },
  {
   "property": "C114",
   "status": "proved",
   "theorems": [
    "C114_decodes_exactly",
    "C114_reads_exactly",
    "C114_counts_refuted",
    "C114_stop_hash_refuted"
   ],
   "note": "Both directions, against an inductive grammar of the payloads that does not mention the decoders. The grammar is the accepted one; where it differs from Bitcoin's is refuted separately: counts from 2^63 are read as empty lists, and the stop hash of getheaders is optional and lost. (Ports are C87, the magic is C77.)"
  },
  {
   "property": "C115",
   "status": "partial",
   "theorems": [
    "C115_embed_value",
    "C115_bech32_value",
    "C115_verify_value",
    "C115_embed_effect",
    "C115_bech32_effect",
    "C115_verify_effect",
    "C115_others_keep_partial",
    "C115_full_slice_partial",
    "C115_signature_lost",
    "C115_verify_twice_refuted",
    "C115_caller_refuted"
   ],
   "note": "False in general: append writes into spare capacity (C115_caller_refuted; C115_signature_lost: embedding one signature destroys the one stored behind it; C115_verify_twice_refuted: two calls of Verify on the same slices give different verdicts). True for slices without spare capacity and for all data outside the spare room; C115_*_effect says exactly which bytes change and C115_*_value that results depend on contents only."
  },
  {
   "property": "C116",
   "status": "proved",
   "theorems": [
    "C116_push",
    "C116_nip",
    "C116_copy_independent",
    "C116_saved_stack"
   ],
   "note": "Slices as array/offset/length/capacity in a heap, append with any allocation policy; both directions of independence, and agreement with the list model of the engine."
  },
  {
   "property": "C117",
   "status": "partial",
   "theorems": [
    "C117_verdict",
    "C117_verify_verdict",
    "C117_execute_verdict",
    "C117_quiet",
    "C117_rows",
    "C117_verify_rows",
    "C117_stack_text_partial",
    "C117_stack_text_refuted",
    "C117_executed_refuted"
   ],
   "note": "Debug mode never changes a verdict or a final state (C117_verdict, C117_verify_verdict, C117_execute_verdict), and records nothing while it is off or while the unlocking script runs alone (C117_quiet). With it on, a well-formed script leaves one row per instruction that returns, numbered consecutively, with name, stack and listing of the rest (C117_rows); Verify records the rows of both scripts together and then those of the redeem script, with one number left out between them (C117_verify_rows). False: instructions of a branch not taken have rows too (C117_executed_refuted), and the empty stack looks like a stack with one empty item (C117_stack_text_refuted); other stacks are told apart (C117_stack_text_partial)."
  },
  {
   "property": "C118",
   "status": "partial",
   "theorems": [
    "C118_writers",
    "C118_contents",
    "C118_kept_partial",
    "C118_reset_overwrites",
    "C118_kept_refuted"
   ],
   "note": "C118_contents: any number of buffers used in any order hold what lists would hold. C118_kept_partial: returned bytes keep their contents as long as the buffer they came from is not reset afterwards. Otherwise false: C118_reset_overwrites (after Reset, new content of at most the same length always overwrites the bytes returned before, whatever the allocator does), C118_kept_refuted (two locking scripts from one builder: both slices hold the second). C118_writers ties the chunks written to the value model of the buffer."
  },
  {
   "property": "C119",
   "status": "proved",
   "theorems": [
    "C119_nonce",
    "C119_nonce_value",
    "C119_key",
    "C119_key_value",
    "C119_memory"
   ],
   "note": "The nonce and the key computed in memory, with append behaving as the runtime's, are those of the RFCs (for the order of the curve; for other moduli, those of the value model); arrays that existed are unchanged. hmac is any function of key and message with sums of the right length."
  },
  {
   "property": "C120",
   "status": "partial",
   "theorems": [
    "C120_mistyped_refuted",
    "C120_mistyped_panics",
    "C120_mistyped_form",
    "C120_mistyped_refused"
   ],
   "note": "False: DecodeAddress compares only the text before the first '1' with the network prefix and drops the human-readable part WitnessDecode returns, so an 'l' misread as '1' can turn a P2WSH address into another, P2WPKH address (witness, one character), or make the decoder panic (witness). Proved: that place (character 22 of a P2WSH string) is the only one where it can happen for up to four wrong characters, and every other mistyped witness address is refused."
  },
  {
   "property": "C121",
   "status": "partial",
   "theorems": [
    "C121_insertion_detected_refuted",
    "C121_inserted_iff"
   ],
   "note": "False of the format, and so of this code: a valid string ending in p stays valid when any number of q are inserted before the p. Proved: such insertions are accepted exactly when the string ends in p. Insertions elsewhere are not treated."
  },
  {
   "property": "C122",
   "status": "partial",
   "theorems": [
    "C122_share",
    "C122_failed_refuted",
    "C122_overwritten_refuted",
    "C122_schnorr_key_refuted"
   ],
   "note": "False in two ways: a Phase2 that fails after storing the hash leaves the old nonce with the new message (witness), and the hash is kept as the caller's slice, so writing to the buffer before Phase4 changes the message signed with that nonce (witness); in the Schnorr protocol two such shares give the key away (for every key). Proved for every call sequence in which every Phase2 answered and the current buffer was left alone. The nonce is any function of key and hash."
  },
  {
   "property": "C123",
   "status": "proved",
   "theorems": [
    "C123_forgets",
    "C123_harmless",
    "C123_schnorr_forgets",
    "C123_schnorr_no_share",
    "C123_close_ok"
   ],
   "note": "Equal answers for every pair of objects that differ only in their secrets; Phase3 of an ECDSA party is the only one that still answers something, with scalar 0. Go's memory holding old copies of the numbers is outside the model."
  },
  {
   "property": "C124",
   "status": "partial",
   "theorems": [
    "C124_received_verifies_partial",
    "C124_whole_partial",
    "C124_many_keys_refuted",
    "C124_signed_twice_refuted"
   ],
   "note": "Proved for transactions without cached digests and witness multisig scripts of at most 16 keys, also with the program's own ECDSA and hashes. Refuted beyond: a P2WSH multisig of 17 or more keys verifies for the signer and is refused for every receiver (isMultiSig does not recognise it); sign, AddOutput, sign again verifies for the signer only (stale caches)."
  },
  {
   "property": "C125",
   "status": "partial",
   "theorems": [
    "C125_key_form_refuted",
    "C125_key_form_partial"
   ],
   "note": "Refuted for every correctly signed transaction: any signature script and any further witness items may be added to any such input and Verify still accepts, while the identifier computed after SetTxIn is not that of the transaction that arrived. Proved: the first two items are a signature by the key over the BIP 143 digest with the amount that was looked up."
  },
  {
   "property": "C126",
   "status": "partial",
   "theorems": [
    "C126_complete_panics_iff",
    "C126_no_panic_refuted"
   ],
   "note": "Exact condition proved: it panics iff the index is out of range or the output is a witness key hash output and the witness has fewer than two items. Hence refuted: any transaction whose witness was stripped on the way crashes the receiver."
  },
  {
   "property": "C127",
   "status": "partial",
   "theorems": [
    "C127_reads_partial",
    "C127_kept_outputs_refuted",
    "C127_stale_digests_refuted"
   ],
   "note": "Proved for everything but the cached digests when there is at least one input and output. Refuted otherwise: empty lists leave the old ones in place; and after the verification of a transaction whose inputs all spend witness key hash outputs, the same inputs with ANY other outputs, read into the same object, are accepted by Verify (for every hash function and signature scheme)."
  },
  {
   "property": "C128",
   "status": "partial",
   "theorems": [
    "C128_read_again_refuted",
    "C128_truncated",
    "C128_usable_refuted"
   ],
   "note": "Proved: every truncation gives an error. Exact condition proved for the object: it holds nil pointers, on which ID and Serialize panic, iff the data end inside the list of inputs or of outputs; hence refuted for every transaction. C128_read_again_refuted: reading data without inputs into such an object panics."
  },
  {
   "property": "C129",
   "status": "partial",
   "theorems": [
    "C129_options_partial",
    "C129_lost_refuted"
   ],
   "note": "Proved for sequences where no option comes before a coin in its group: the transaction is the one built without Sign, whose inputs carry the redeem scripts said, signed input by input with the keys, key form and type said.  Refuted in general: AddCoin resets the key form and the type, so SetSigHashType or SetPubKeyUncompressed before AddCoin leaves no trace (the builder's state is the same as without the call); the same for a coin or payment followed by another in the same group."
  },
  {
   "property": "C130",
   "status": "partial",
   "theorems": [
    "C130_witness_ids_partial",
    "C130_extra_push_refuted",
    "C130_negated_refuted"
   ],
   "note": "Proved when every input is a witness input: the identifier depends only on what is signed.  Refuted for key hash inputs without witness, for every accepted transaction: a push of 1 to 75 bytes in front of the signature script is accepted and gives another identifier (the engine asks for a true value on top, not for a stack of one), and the program accepts the signature (r, N-s) for (r, s)."
  },
  {
   "property": "C131",
   "status": "partial",
   "theorems": [
    "C131_prints_partial",
    "C131_unsigned_refuted"
   ],
   "note": "Exact condition: ToString panics if and only if an input with a witness script code has no witness items.  Refuted for every transaction the builder makes without Sign from a coin locked by a witness key hash."
  },
  {
   "property": "C132",
   "status": "partial",
   "theorems": [
    "C132_text_shows_partial",
    "C132_fee_line",
    "C132_timing_refuted",
    "C132_witness_refuted"
   ],
   "note": "Proved: equal texts imply equal outputs and, per input, equal outpoint, amount, scripts, redeem script, signature hash, script code and first witness item.  Refuted: version, lock time and sequence numbers appear in no text, and further witness items do not appear either."
  },
  {
   "property": "C133",
   "status": "partial",
   "theorems": [
    "C133_block_partial",
    "C133_stale_refuted",
    "C133_no_panic_partial"
   ],
   "note": "C133_block_partial and C133_no_panic_partial give the exact result for blocks in the best chain and the exact panic condition; C133_stale_refuted: every answer with -1 confirmations is an error, because BlockResult.Confirmations is uint64. C133_said shows that the answers of the example meet the hypotheses."
  },
  {
   "property": "C134",
   "status": "proved",
   "theorems": [
    "C134_tells_apart"
   ],
   "note": "C134_tells_apart; the amounts go through strconv's exact path, modelled, and are within half a satoshi (near). The axioms are those of the real numbers."
  },
  {
   "property": "C135",
   "status": "proved",
   "theorems": [
    "C135_builds_iff",
    "C135_signed_builds_iff"
   ],
   "note": "Fixed fee (no relay rate); sums below 2^63, as int64 arithmetic wraps beyond (C47)."
  },
  {
   "property": "C136",
   "status": "proved",
   "theorems": [
    "C136_outputs_can_be_spent"
   ],
   "note": "Signature scheme, hashes and their properties are hypotheses; C97 has them for secp256k1."
  },
  {
   "property": "C137",
   "status": "partial",
   "theorems": [
    "C137_never_held_back_refuted",
    "C137_lock_time_refuted",
    "C137_lock_time_partial"
   ],
   "note": "C137_never_held_back_refuted: NewTxIn always writes sequence 0xffffffff, so every built transaction is final in every block whatever SetLockTime was given. C137_lock_time_partial: with another sequence number at one input before signing, it is held back exactly until its lock time and verifies; missing is a way to ask the builder for it."
  },
  {
   "property": "C138",
   "status": "partial",
   "theorems": [
    "C138_amount_free_refuted",
    "C138_fee_refuted",
    "C138_amount_signed_partial"
   ],
   "note": "C138_amount_free_refuted: for an input without witness the verdict does not depend on the amount, so Fees of an accepted transaction is not established (C138_fee_refuted). C138_amount_signed_partial: for a P2WPKH input two accepted amounts give one signature valid for the digests of two different strings; missing: P2WSH inputs, and infeasibility, which is a matter of cryptography."
  },
  {
   "property": "C139",
   "status": "partial",
   "theorems": [
    "C139_network_accepts_partial",
    "C139_built_accepted_partial",
    "C139_uncompressed_refuted",
    "C139_large_redeem_refuted",
    "C139_stray_redeem_refuted"
   ],
   "note": "Proved for signatures of type ALL within the limits (compressed keys in witnesses, redeem scripts of at most 520 bytes, at most 20 keys, no redeem script noted with a P2PKH output), for SignIndex over all inputs and for BuildTransaction. Refuted outside them: the library signs and verifies an uncompressed key in a witness, a 1-of-16 P2SH script, and a P2PKH input with a redeem script set, and the network takes none of the three."
  },
  {
   "property": "C140",
   "status": "partial",
   "theorems": [
    "C140_one_hash_refuted",
    "C140_two_hashes_partial",
    "C140_four_hashes_partial"
   ],
   "note": "False: with the private key a second number, -e-2rd, is signed by the same signature (C140_one_hash_refuted builds the hash). For r of at least p-n it is the only other one (C140_two_hashes_partial is an equivalence); whatever r is, at most four numbers fit (C140_four_hashes_partial)."
  },
  {
   "property": "C141",
   "status": "partial",
   "theorems": [
    "C141_network_verified_partial",
    "C141_many_keys_refuted"
   ],
   "note": "Proved for every transaction meeting the rules of NetSpec (the four standard kinds, type ALL), made by anyone, with witness scripts of at most 16 keys; the receiver must be told the script behind a script hash, which SetTxIn takes as an argument. Refuted for witness scripts of 17 to 20 keys: the network takes the transaction and Verify refuses it, since WitnessToUnlockingScriptBytes does not recognise the script."
  },
  {
   "property": "C142",
   "status": "proved",
   "theorems": [
    "C142_joint_accepted"
   ],
   "note": "End to end from the two parties' shares to the rules of NetSpec; type ALL, compressed shared key, no redeem script noted with the inputs (C139 shows why). The conditions on the run of the protocol are those of C62/C63 (Paillier moduli large enough, r below the order)."
  },
  {
   "property": "C143",
   "status": "proved",
   "theorems": [
    "C143_same_verdict"
   ],
   "note": "Hypotheses: the form (net_form), SHA-256 with 32-byte results, sizes that fit a machine. The rules are NetSpec (signature type ALL). Off the form the verdicts differ: see C27, C45, C98, C130, C141."
  },
  {
   "property": "C144",
   "status": "partial",
   "theorems": [
    "C144_one_key_refuted",
    "C144_two_keys_partial"
   ],
   "note": "False as stated: C144_one_key_refuted gives the second key for every valid signature. C144_two_keys_partial: no third key if r is at least p - n (missing: the r below, of which there are about 2^128 among 2^256)."
  },
  {
   "property": "C145",
   "status": "partial",
   "theorems": [
    "C145_any_order_refuted",
    "C145_exact_order_partial"
   ],
   "note": "False as stated: C145_any_order_refuted, 2 of 2 with the keys reversed. C145_exact_order_partial: the input verifies exactly if the keys are in the order of the script, as long as no signature fits a foreign key of the script by chance (C144)."
  },
  {
   "property": "C146",
   "status": "partial",
   "theorems": [
    "C146_any_order_refuted",
    "C146_any_order_partial",
    "C146_again"
   ],
   "note": "False for mixed types: C146_any_order_refuted (ALL|ANYONECANPAY and ALL, two witness inputs; the two orders give different signatures and the library verifies only one). C146_any_order_partial: every permutation of calls of one type, or of types without NONE, SINGLE and ANYONECANPAY, gives the same transaction. C146_again: repeating a call changes nothing, for every type."
  },
  {
   "property": "C147",
   "status": "partial",
   "theorems": [
    "C147_moved_refuted",
    "C147_moved_partial",
    "C147_witness_partial",
    "C147_witness_refuted"
   ],
   "note": "Refuted for types other than ALL on key hash outputs without witness: the accepted unlocking script of one input verifies in every transaction of the same version and lock time whose inputs all spend outputs of that key, whatever the outpoints and outputs. Proved for type ALL: two accepting transactions agree in place of the input, version, lock time, links of inputs and outputs, unless the signature fits the digests of two different messages (no assumption that the hash is injective). Witness key hashes: C147_witness_partial is the same for type ALL, with the amount, as long as no input before is a witness input and the transactions keep no digests; C147_witness_refuted: with a type of bit 1, so also SINGLE, all outputs can be replaced."
  },
  {
   "property": "C148",
   "status": "partial",
   "theorems": [
    "C148_parent_refuted",
    "C148_parent_exact_refuted",
    "C148_hardened_partial"
   ],
   "note": "Refuted for children that are not hardened, as BIP 32 itself warns: way_down is computed from the extended public key alone and the parent's secret is the child's less it, modulo the order, after any number of steps. For hardened children: every secret below the order is the child's under some HMAC equal to the given one except at the message with the parent's secret, with all derivations from extended public keys unchanged; one step, and no statement about computing power."
  },
  {
   "property": "C149",
   "status": "partial",
   "theorems": [
    "C149_schnorr_refuted",
    "C149_ecdsa_refuted"
   ],
   "note": "The claim is false for every key. C149_schnorr_refuted: a signature made alone and the share of one run on the same message, with whatever key and nonce the partner sent, give the key unless the difference (or sum, for opposite signs) of the two challenges vanishes. C149_ecdsa_refuted: the signature made alone and the joint signature give the key to the partner who knows the own key and nonce, by one division, trying both signs of the two s, unless the divisor vanishes."
  },
  {
   "property": "C150",
   "status": "partial",
   "theorems": [
    "C150_key_hash_refuted",
    "C150_script_hash_refuted",
    "C150_builder_partial"
   ],
   "note": "False of SignIndex. C150_key_hash_refuted: signing any input that pays to a key's hash with no keys panics, in every transaction. C150_script_hash_refuted: for every one-input transaction that spends a script's hash, signing with no keys succeeds and the library's Verify accepts the transaction, which carries no signature (the flaw of C98). C150_builder_partial: after any calls that ask for signing and never add keys, the builder never returns a transaction, and returns the error for missing keys whenever it would have built otherwise. Missing there: relay fee rates above zero, and AddKeys with an empty slice, which reaches SignIndex (C150_example)."
  },
  {
   "property": "C151",
   "status": "partial",
   "theorems": [
    "C151_received_refuted",
    "C151_unsigned_refuted",
    "C151_wtxid_partial",
    "C151_covers_partial"
   ],
   "note": "False of received and of unsigned transactions. C151_received_refuted: for every transaction that carries a witness, what the receiver computes is the id without the witness, hence not the wtxid unless the hash collides. C151_unsigned_refuted: a witness input not signed yet is hashed in the new format although there is no witness. C151_wtxid_partial and C151_covers_partial: for transactions in which some input spends a witness program exactly when some witness is present, the value is the wtxid, and of two such transactions with witness inputs equal values mean equal contents, witnesses included."
  },
  {
   "property": "C152",
   "status": "partial",
   "theorems": [
    "C152_password_partial",
    "C152_words_alone_refuted"
   ],
   "note": "C152_words_alone_refuted: Seed uses the fixed password TREZOR; with a concrete keyed hash, every new mnemonic's seed differs from the one of the same words without a password. C152_password_partial: for every hash, the seed is the BIP 39 seed of the words under the password TREZOR, and no other password finds it unless PBKDF2 collides."
  },
  {
   "property": "C153",
   "status": "proved",
   "theorems": [
    "C153_setters",
    "C153_received"
   ],
   "note": "For both formats, every transaction and every value. C153_received covers transactions with a witness input, the form Deserialize reads."
  },
  {
   "property": "C154",
   "status": "partial",
   "theorems": [
    "C154_steps_partial",
    "C154_root_refuted"
   ],
   "note": "C154_root_refuted: the depth is a byte that wraps, so every child (number above 0) of every private key of depth 255 has depth 0 with a parent; its string is written and read back without complaint, though BIP 32 calls it invalid. C154_steps_partial: along any path the depth is the number of steps modulo 256, hence right for up to 255 steps."
  },
  {
   "property": "C155",
   "status": "partial",
   "theorems": [
    "C155_answers_partial",
    "C155_answers_refuted"
   ],
   "note": "False (C155_answers_refuted): Sub checks nothing and panics when its second argument shares a factor with N; MultPlaintext of such a number and a negative one is nil without an error; DivPlaintext panics for divisors that share a factor with N; Add of two positive numbers may be 0, which the other functions refuse. C155_answers_partial says exactly what every function but Sub does, for all inputs and keys of two different primes of one length."
  },
  {
   "property": "C156",
   "status": "partial",
   "theorems": [
    "C156_coordinates_partial",
    "C156_coordinates_refuted"
   ],
   "note": "False (C156_coordinates_refuted): leading zeros are left out, so the key with x = 1 has an XBytes of one byte. C156_coordinates_partial: the numbers are right, the forms are the shortest, they have 32 bytes exactly from 256^31 on, and padded they make up the uncompressed encoding. Nothing in the library calls the two functions."
  },
  {
   "property": "C157",
   "status": "partial",
   "theorems": [
    "C157_witness_partial",
    "C157_multisig_partial",
    "C157_single_refuted",
    "C157_legacy_refuted"
   ],
   "note": "False (C157_single_refuted, C157_legacy_refuted): a witness input signed with SINGLE, and an input without witness signed with ALL|ANYONECANPAY, pass Verify and are signed for no digest of the network; with C37 no type but ALL works without a witness. C157_witness_partial and C157_multisig_partial: for witness inputs of a transaction that has kept no digests, all known types except SINGLE with an output in the place of the input give signatures for the BIP 143 digest, in strict DER with low s and their type at the end, and the witness has the network's form, for key hashes and for multisig scripts of up to 20 compressed keys."
  },
  {
   "property": "C158",
   "status": "partial",
   "theorems": [
    "C158_last_byte_partial",
    "C158_wide_type_refuted"
   ],
   "note": "False (C158_wide_type_refuted): asked for type 0x101 all inputs are signed without an error, and the result does not verify. C158_last_byte_partial: whatever the type, the digest that is signed is the one of the whole number and the last byte of the signature its low byte, so the two are the same exactly if the type fits in a byte; C82 and C97 show that signatures of such types verify."
  },
  {
   "property": "C159",
   "status": "proved",
   "theorems": [
    "C159_addresses",
    "C159_extended_keys"
   ],
   "note": "C159_addresses covers the four kinds of address on both networks (the length of main network key hash addresses is left open, it varies), C159_extended_keys private and public extended keys on both."
  },
  {
   "property": "C160",
   "status": "proved",
   "theorems": [
    "C160_address_no_key",
    "C160_key_no_address"
   ],
   "note": "C160_address_no_key for the four kinds of address (a string never decodes to more bytes than it has characters), C160_key_no_address for private and public keys of either network."
  },
  {
   "property": "C161",
   "status": "partial",
   "theorems": [
    "C161_pays_rate_refuted",
    "C161_pays_rate_partial"
   ],
   "note": "False (C161_pays_rate_refuted): the estimate leaves out the change output, the data outputs beyond their data, the length prefixes of output scripts and all of a witness input outside its witness. With witness inputs only, or with change and up to 24 ordinary inputs, the fee is below the rate even for the bytes outside witnesses. The example pays 192 for 226 bytes at one satoshi a byte. What holds (C161_pays_rate_partial): without witness inputs, every other byte is paid for, less one satoshi. Uses the standard library's real numbers."
  },
  {
   "property": "C162",
   "status": "proved",
   "theorems": [
    "C162_fee_grows",
    "C162_growing_pays_more"
   ],
   "note": "The floating point operations are modelled as correctly rounded binary64 operations; beyond the range given the conversion to int64 may overflow. Uses the standard library's real numbers."
  },
  {
   "property": "C163",
   "status": "partial",
   "theorems": [
    "C163_ascii_partial",
    "C163_normal_refuted"
   ],
   "note": "False (C163_normal_refuted): nothing is normalised. A password with a composed letter leads to another seed than elsewhere, and so does a mnemonic written with the wide spaces of Japanese text, which IsMnemonicValid and EntropyFromMnemonic accept. What holds (C163_ascii_partial): English mnemonics the library makes with ASCII passwords. NFKD is a parameter of which only three facts are used, met by an example."
  },
  {
   "property": "C164",
   "status": "partial",
   "theorems": [
    "C164_rate_line_partial",
    "C164_rate_of_bytes_partial",
    "C164_rate_refuted"
   ],
   "note": "C164_rate_line_partial: for every transaction the line is the fee divided by the size ToString gives, to the nearest hundredth, although it is rounded twice. C164_rate_of_bytes_partial: without witness inputs that size is the length of the transaction. C164_rate_refuted: with witness inputs it is not, the size leaves out marker and flag (C35). Missing: inputs worth 2^53/200 satoshis (about 450000 bitcoin) or more."
  },
  {
   "property": "C165",
   "status": "partial",
   "theorems": [
    "C165_saving_partial",
    "C165_sizes_partial",
    "C165_short_partial",
    "C165_sizes_refuted"
   ],
   "note": "C165_sizes_partial: all five lines are right for transactions without witness inputs. C165_short_partial: with native witness inputs base size and witness size are right, total size and weight are always two too small, and the virtual size is always one or two too small (marker and flag are not counted and the quotient is rounded down). C165_sizes_refuted: a transaction of virtual size 87 whose text says 86. C165_saving_partial: the line saving is the share of the witness, to the nearest hundredth of a percent."
  }
 ]
}