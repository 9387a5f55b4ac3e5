{"id": "C01", "title": "Fixed-width integers survive the wire buffer", "statement": "Writing a uint8/uint16/uint32/uint64 with the buffer's WriteU* appends exactly 1/2/4/8 bytes in little-endian order, leaves everything written before untouched, and the matching ReadU* at that position returns the same value and advances by exactly that many bytes, whatever bytes precede or follow.", "quantifier": "every integer in the type's range, every existing buffer content, every trailing content", "why_tests_cant": "2^64 values times arbitrary surrounding content; tests pick a handful of values in an otherwise empty buffer.", "anchors": ["xbase/buffer.go: WriteU8, WriteU16, WriteU32, WriteU64, ReadU8, ReadU16, ReadU32, ReadU64"]}
{"id": "C02", "title": "Variable-length integers round-trip, minimally encoded", "statement": "For every uint64 v, WriteVarInt(v) followed by ReadVarInt returns v and consumes exactly what was written; the encoding is the shortest of the four forms and has length VarIntSerializeSize(v), so two values never share an encoding.", "quantifier": "every uint64, every preceding and following buffer content", "why_tests_cant": "The space is 2^64 with four boundary cases; a test checks finitely many values.", "anchors": ["xbase/buffer.go: WriteVarInt, ReadVarInt, VarIntSerializeSize"]}
{"id": "C03", "title": "A buffer is a faithful queue of typed values", "statement": "For any finite sequence of typed writes (integers of each width, varints, raw byte strings, var-byte strings), reading the result with the corresponding sequence of typed reads returns exactly the values written, in order, with no error, and ends with End() true and Remaining() empty.", "quantifier": "every finite sequence of typed write operations with in-range arguments", "why_tests_cant": "Sequences are unbounded and each operation interacts through the shared cursor; unit tests exercise isolated operations.", "anchors": ["xbase/buffer.go: Buffer, NewBufferReader, Bytes, End, Seek, Remaining, ReadBytes, ReadVarBytes"]}
{"id": "C04", "title": "Reading untrusted bytes never panics and never reads past the end", "statement": "For every byte string and every sequence of read calls, each read returns a value taken from the bytes at the cursor or an error; it never panics, and the cursor stays between 0 and the length.", "quantifier": "every byte string, every finite sequence of read operations", "why_tests_cant": "The dangerous inputs (a declared length of 2^63 or more) are a needle in 2^64; tests use well-formed lengths.", "anchors": ["xbase/buffer.go: check, ReadBytes, ReadVarBytes, ReadVarInt"]}
{"id": "C05", "title": "Base58 is a bijection between byte strings and alphabet strings", "statement": "Base58Decode(Base58Encode(b)) = b for every byte string b (leading zero bytes included), Base58Encode(Base58Decode(s)) = s for every string s over the Bitcoin alphabet, and a string with any other character decodes to the empty string.", "quantifier": "every byte string, every string of characters", "why_tests_cant": "Big-integer radix conversion with leading-zero bookkeeping over an infinite domain.", "anchors": ["xbase/base58.go: Base58Encode, Base58Decode, base58table"]}
{"id": "C06", "title": "Base58Check round-trips and accepts exactly the strings with a matching checksum", "statement": "Base58CheckDecode(Base58CheckEncode(payload, version)) returns payload and version; and Base58CheckDecode(s) succeeds with (payload, version) exactly when s base58-decodes to version, payload and the first four bytes of the double-SHA256 of both.", "quantifier": "every payload, every version byte, every input string, every hash function with 32-byte output", "why_tests_cant": "Needs all inputs and independence from the particular hash; tests only use samples.", "anchors": ["xbase/base58.go: Base58CheckEncode, Base58CheckDecode, checksum"]}
{"id": "C07", "title": "Bech32 encode then decode is the identity", "statement": "For every human-readable part of printable non-uppercase ASCII and every list of 5-bit values whose encoding fits in 90 characters, Bech32Decode(Bech32Encode(hrp, data)) returns exactly (hrp, data).", "quantifier": "every valid hrp, every list of 5-bit values within the length limit", "why_tests_cant": "Relies on an algebraic property of the BCH checksum over all inputs.", "anchors": ["xbase/bech32.go: Bech32Encode, Bech32Decode, bech32Checksum, bech32Polymod"]}
{"id": "C08", "title": "Bech32 decode accepts only canonical encodings", "statement": "If Bech32Decode(s) succeeds with (hrp, data) then s has 8 to 90 characters, is not mixed-case, every data value is below 32, and Bech32Encode(hrp, data) is exactly the lower-case form of s; hence two accepted strings with the same decoding differ only in case.", "quantifier": "every string", "why_tests_cant": "Quantifies over all accepted strings, not over a list of samples.", "anchors": ["xbase/bech32.go: Bech32Decode, bech32VerifyChecksum, toBytes"]}
{"id": "C09", "title": "Bech32 detects up to four substituted characters", "statement": "Replacing one to four characters of the data part of a valid Bech32 string (of at most 90 characters) by others of the data alphabet always gives a string that is refused; replacements in the human-readable part are covered too, each counting for two. A single wrong symbol is detected by the checksum in data of any length.", "quantifier": "every valid string, every choice of up to four positions, every replacement", "why_tests_cant": "The guarantee of an error-detecting code over all codewords: up to 31^4 times 2.4 million error patterns for each of them.", "anchors": ["xbase/bech32.go: Bech32Decode, bech32Polymod, bech32VerifyChecksum"]}
{"id": "C10", "title": "Witness programs survive their address form", "statement": "WitnessDecode(WitnessEncode(hrp, version, program)) returns the same hrp, version and program for every program byte string whose encoding fits the Bech32 length limit and every version below 32.", "quantifier": "every program, every version below 32, every valid hrp", "why_tests_cant": "Bit regrouping (8 to 5 to 8 bits) with padding over arbitrary lengths.", "anchors": ["xbase/witness.go: WitnessEncode, WitnessDecode, convertBits"]}
{"id": "C11", "title": "Decoding an address string never panics", "statement": "WitnessDecode and DecodeAddress return a value or an error for every string; they never panic.", "quantifier": "every string, both networks", "why_tests_cant": "The single crashing shape (a valid Bech32 string with an empty data part) was never written down as a test.", "anchors": ["xbase/witness.go: WitnessDecode", "xcore/address.go: DecodeAddress"]}
{"id": "C12", "title": "Transaction ids survive their hexadecimal form", "statement": "NewIDFromString(NewIDToString(h)) = h for every byte string, and NewIDToString(NewIDFromString(s)) is the lower-case form of s for every even-length hexadecimal string s; other strings are rejected.", "quantifier": "every byte string, every string", "why_tests_cant": "Infinite domain; reversal and hex interplay is only sampled by tests.", "anchors": ["xbase/hash.go: NewIDFromString, NewIDToString"]}
{"id": "C13", "title": "An address decodes to itself", "statement": "For each of the four address kinds and each network, DecodeAddress(addr.ToString(net), net) returns an address of the same kind with the same hash.", "quantifier": "every 20-byte (P2PKH, P2SH, P2WPKH) or 32-byte (P2WSH) hash, main net and test net, every checksum hash function", "why_tests_cant": "2^160 to 2^256 addresses; in particular no base58 address may be mistaken for a Bech32 one.", "anchors": ["xcore/address.go: DecodeAddress", "xcore/address_p2pkh.go: ToString", "xcore/address_p2sh.go: ToString", "xcore/address_p2wpkh_v0.go: ToString", "xcore/address_p2wsh_v0.go: ToString", "network/network.go"]}
{"id": "C14", "title": "An address of one network is refused by the other", "statement": "DecodeAddress(addr.ToString(net1), net2) returns an error whenever net1 and net2 are different networks, for every address kind.", "quantifier": "every address hash of every kind, both ordered pairs of networks, every checksum hash function", "why_tests_cant": "Universal over all hashes; one colliding hash would send coins to the wrong network.", "anchors": ["xcore/address.go: DecodeAddress", "network/network.go: MainNet, TestNet"]}
{"id": "C15", "title": "Locking scripts and addresses correspond one-to-one", "statement": "ParseLockingScript recognises a script as one of the four standard kinds with hash h exactly when the script is byte for byte the standard template of that kind around h, and the locking script of the address it yields is the original script; so different addresses have different locking scripts.", "quantifier": "every script byte string", "why_tests_cant": "Classification must be right on every byte string, including near misses with non-canonical pushes.", "anchors": ["xcore/script.go: ParseLockingScript", "xcore/script_p2pkh.go", "xcore/script_p2sh.go", "xcore/script_p2wpkh_v0.go", "xcore/script_p2wsh_v0.go", "xcore/address_p2pkh.go: LockingScript"]}
{"id": "C16", "title": "Script numbers have one encoding each", "statement": "MakeScriptNum(ScriptNum(n).Bytes(), minimal, 8) returns n for every int64 n other than the minimum, and every byte string of at most 8 bytes accepted with the minimal-encoding rule is exactly ScriptNum(n).Bytes() for the n it decodes to.", "quantifier": "every int64, every byte string up to the length limit", "why_tests_cant": "2^64 values with sign-bit edge cases at each byte boundary.", "anchors": ["xvm/scriptnum.go: Bytes, MakeScriptNum, checkMinimalDataEncoding, Int32"]}
{"id": "C17", "title": "Encoding a script number never panics", "statement": "ScriptNum(n).Bytes() returns for every int64 n.", "quantifier": "every int64", "why_tests_cant": "One value out of 2^64 misbehaves.", "anchors": ["xvm/scriptnum.go: Bytes"]}
{"id": "C18", "title": "Data added to a script is the data pushed when it runs", "statement": "For every byte string d shorter than 2^32, running the script built by AddData(d) leaves exactly d on the stack.", "quantifier": "every byte string", "why_tests_cant": "Special-cased lengths and values; the failing values are two out of all byte strings.", "anchors": ["xvm/scriptbuilder.go: AddData", "xvm/scriptreader.go: NextInstruction", "xvm/instruction_pushdata.go"]}
{"id": "C19", "title": "Integers added to a script are the integers pushed when it runs", "statement": "For every int64 n, running the script built by AddInt64(n) leaves exactly the script-number encoding of n on the stack.", "quantifier": "every int64", "why_tests_cant": "Only a few of the 2^64 values take the special paths.", "anchors": ["xvm/scriptbuilder.go: AddInt64", "xvm/instruction_pushdata.go"]}
{"id": "C20", "title": "Parsing a script loses nothing", "statement": "If a script parses, re-serialising its instructions gives back the original bytes; parsing the concatenation of two parsable scripts gives the concatenation of their instructions; parsing always terminates with instructions or an error.", "quantifier": "every byte string", "why_tests_cant": "Unbounded scripts; every push form and truncation point matters.", "anchors": ["xvm/scriptreader.go: NextInstruction, AllInstructions", "xvm/instruction.go: bytes"]}
{"id": "C21", "title": "RemoveOpcode removes exactly the named opcode", "statement": "RemoveOpcode(script, op) is the script with every instruction whose opcode is op removed and nothing else changed; in particular OP_CODESEPARATOR is removed from a script that contains it.", "quantifier": "every script, every opcode byte", "why_tests_cant": "The code path used for signing depends on it for arbitrary scripts.", "anchors": ["xvm/scriptreader.go: RemoveOpcode", "xvm/instruction.go: opcodes"]}
{"id": "C22", "title": "Script execution always terminates and never panics", "statement": "For every unlocking and locking script and every signature hasher and verifier that return, Engine.Verify returns nil or an error after at most as many steps as the scripts have bytes; it never panics.", "quantifier": "every pair of byte strings, every signature oracle", "why_tests_cant": "Adversarial scripts; the crashing ones need negative counts or empty signatures.", "anchors": ["xvm/engine.go: Verify, execute, Step", "xvm/instruction_crypto.go: opCheckMultiSig, opCheckSig"]}
{"id": "C23", "title": "Stack, comparison and arithmetic opcodes do what they are named for", "statement": "On a stack deep enough, each supported data opcode (OP_DUP, 2DUP, 3DUP, DROP, SWAP, SIZE, EQUAL, EQUALVERIFY, ADD, HASH160, the constants) transforms the stack exactly as documented and leaves everything below untouched; on a shallower stack it returns an error.", "quantifier": "every stack, every opcode in the table", "why_tests_cant": "All stacks of any depth and content.", "anchors": ["xvm/stack.go", "xvm/instruction_stack.go", "xvm/instruction_bitwise.go", "xvm/instruction_numeric.go", "xvm/instruction_crypto.go: opHash160"]}
{"id": "C24", "title": "CHECKMULTISIG accepts exactly an order-preserving choice of keys", "statement": "With m signatures and n keys on the stack, OP_CHECKMULTISIG pushes true if and only if the signatures can be matched one to one, in order, with a subsequence of the keys such that each signature is valid for its key.", "quantifier": "every list of keys, every list of non-empty signatures with m <= n, every signature-validity relation", "why_tests_cant": "Exponentially many matchings; correctness of the greedy scan needs an argument for all of them.", "anchors": ["xvm/instruction_crypto.go: opCheckMultiSig"]}
{"id": "C25", "title": "A P2PKH output can only be spent with a valid signature", "statement": "If Engine.Verify accepts an unlocking script against the P2PKH locking script for hash h, then the unlocking script supplied a public key whose HASH160 is h and a signature valid for that key.", "quantifier": "every unlocking script, every hash, every signature oracle", "why_tests_cant": "Adversarial unlocking scripts; unit tests only try signatures that are wrong in ordinary ways.", "anchors": ["xvm/engine.go: Verify, execute", "xvm/instruction_flowcontrol.go"]}
{"id": "C26", "title": "An honest P2PKH spend is accepted, and only when it is honest", "statement": "For an unlocking script that pushes exactly a signature and a key, Engine.Verify accepts against the P2PKH script for h if and only if HASH160(key) = h and the signature is valid for the key.", "quantifier": "every signature, key, hash and oracle", "why_tests_cant": "All byte strings of all lengths, including those that use different push opcodes.", "anchors": ["xvm/engine.go: Verify", "xvm/instruction_crypto.go: opCheckSig"]}
{"id": "C27", "title": "A P2SH output can only be spent by satisfying its redeem script", "statement": "If Engine.Verify accepts an unlocking script against the P2SH locking script for h, then the last item pushed is a script hashing to h and that script ran successfully on the remaining items.", "quantifier": "every unlocking script, every hash, every oracle", "why_tests_cant": "Adversarial unlocking scripts with too few items.", "anchors": ["xvm/engine.go: Verify"]}
{"id": "C28", "title": "Conditionals select exactly one branch, at any nesting", "statement": "For any well-nested script built from straight-line opcodes and IF/NOTIF ... ELSE ... ENDIF blocks, the engine's run of the flat script has the same effect as structured execution that runs only the selected branches.", "quantifier": "every well-nested program, every initial stack", "why_tests_cant": "Unbounded nesting.", "anchors": ["xvm/instruction_flowcontrol.go", "xvm/engine.go: execute, branchShouldSkip"]}
{"id": "C29", "title": "A script containing an executed OP_RETURN is unspendable", "statement": "Running a script whose executed path contains OP_RETURN fails.", "quantifier": "every script and stack", "why_tests_cant": "Universal over scripts.", "anchors": ["xvm/instruction_flowcontrol.go: opReturn"]}
{"id": "C30", "title": "Legacy transactions round-trip", "statement": "DeserializeNoWitness(SerializeNoWitness(tx)) succeeds and yields a transaction with the same version, inputs (outpoint, script, sequence), outputs and lock time, whatever bytes follow.", "quantifier": "every transaction without witness inputs whose fields are in range, any number of inputs and outputs", "why_tests_cant": "Unbounded lists of variable-length fields.", "anchors": ["xcore/transaction.go: SerializeNoWitness, DeserializeNoWitness"]}
{"id": "C31", "title": "Witness transactions round-trip", "statement": "Deserialize(Serialize(tx)) succeeds and yields the same version, inputs with their witness stacks, outputs and lock time for every transaction with at least one witness input.", "quantifier": "every transaction with a witness input whose fields are in range", "why_tests_cant": "Unbounded lists of lists of byte strings.", "anchors": ["xcore/transaction.go: Serialize, Deserialize, HasWitness"]}
{"id": "C32", "title": "Reading a transaction and writing it back gives the same bytes", "statement": "If Deserialize(b) succeeds on exactly the bytes b of a serialized witness transaction, then Serialize of the result is b.", "quantifier": "every serialized witness transaction", "why_tests_cant": "Depends on fields that deserialization does not set; tests compare only after filling them in.", "anchors": ["xcore/transaction.go: Deserialize, Serialize, HasWitness"]}
{"id": "C33", "title": "Deserializing untrusted bytes never panics", "statement": "Transaction.Deserialize and DeserializeNoWitness return nil or an error for every byte string.", "quantifier": "every byte string", "why_tests_cant": "The crashing inputs declare absurd counts or lengths.", "anchors": ["xcore/transaction.go: Deserialize, DeserializeNoWitness", "xbase/buffer.go: ReadVarBytes"]}
{"id": "C34", "title": "The transaction id covers every non-witness field and no witness field", "statement": "The bytes hashed for the transaction id determine version, outpoints, scripts, sequences, outputs and lock time uniquely; and changing the witness stack or unlocking script of witness inputs does not change the id.", "quantifier": "every pair of transactions with in-range fields", "why_tests_cant": "An injectivity statement over pairs of unbounded structures.", "anchors": ["xcore/transaction.go: Hash, ID, SerializeNoWitness"]}
{"id": "C35", "title": "Reported sizes are the sizes of the serialization", "statement": "BaseSize is the length of SerializeNoWitness, Size the length of Serialize, and Vsize is ceil(weight/4).", "quantifier": "every transaction", "why_tests_cant": "Arithmetic over unbounded lists; the deviations appear only for signed witness inputs.", "anchors": ["xcore/transaction.go: BaseSize, WitnessSize, Weight, Vsize, Size"]}
{"id": "C36", "title": "A legacy SIGHASH_ALL signature hash commits to the whole transaction", "statement": "If two transactions give the same legacy SIGHASH_ALL preimage for an input index, they agree on version, number and order of inputs, every outpoint and sequence, every output value and script, lock time, and on the script of the signed input.", "quantifier": "every pair of transactions with in-range fields, every input index", "why_tests_cant": "Injectivity of a concatenated encoding; cannot be sampled.", "anchors": ["xcore/transaction.go: RawSignatureHash"]}
{"id": "C37", "title": "Every legacy signature hash commits to the outputs or inputs its type promises", "statement": "For hash types other than SIGHASH_ALL the legacy signature hash still commits to the signed input's outpoint and, except for NONE, to an output.", "quantifier": "every transaction, every hash type byte", "why_tests_cant": "Universal over transactions: a signature must not be transferable to an unrelated transaction.", "anchors": ["xcore/transaction.go: RawSignatureHash"]}
{"id": "C38", "title": "The segwit SIGHASH_ALL digest is BIP143's", "statement": "On a transaction whose digests have not been cached, WitnessV0SignatureHash for SIGHASH_ALL hashes exactly the BIP143 preimage, and that preimage determines version, outpoint, script code, amount, sequence, lock time and the three inner digests.", "quantifier": "every transaction, every input index", "why_tests_cant": "All transactions; the test vectors are a few from the BIP.", "anchors": ["xcore/transaction.go: WitnessV0SignatureHash"]}
{"id": "C39", "title": "A segwit signature hash depends only on the transaction", "statement": "The digest returned by WitnessV0SignatureHash for a given input and hash type is the same whatever signature hashes were computed before on the same transaction object, and reflects inputs and outputs added in between.", "quantifier": "every finite history of signature-hash and add-input/output calls", "why_tests_cant": "History dependence through cached fields; needs all call histories.", "anchors": ["xcore/transaction.go: WitnessV0SignatureHash, hashPrevouts, hashSequence, hashOutputs"]}
{"id": "C40", "title": "Segwit SIGHASH_SINGLE, NONE and ANYONECANPAY follow BIP143", "statement": "On a fresh transaction the digest for every combination of NONE, SINGLE and ANYONECANPAY hashes the BIP143 preimage for that combination.", "quantifier": "every transaction, index and hash type", "why_tests_cant": "Six combinations times all transactions.", "anchors": ["xcore/transaction.go: WitnessV0SignatureHash"]}
{"id": "C41", "title": "Signing a P2PKH input makes it verify", "statement": "After a transaction with P2PKH inputs is signed with the private keys of those inputs, Verify returns nil.", "quantifier": "every transaction shape, every key, every signature scheme whose signatures verify", "why_tests_cant": "All transactions and keys; depends on script building, hashing and execution agreeing.", "anchors": ["xcore/transaction.go: SignIndex, EmbedIdxSignature, Verify", "xcore/script_p2pkh.go: GetRawUnlockingScriptBytes"]}
{"id": "C42", "title": "Signing a P2WPKH input makes it verify", "statement": "After signing a P2WPKH input with its key, Verify returns nil for that input.", "quantifier": "every transaction shape, every key, every signature scheme whose signatures verify", "why_tests_cant": "Same, through the witness path.", "anchors": ["xcore/transaction.go: WitnessSignature, EmbedIdxSignature, Verify", "xcore/script_p2wpkh_v0.go"]}
{"id": "C43", "title": "Signing a multisig input with enough keys makes it verify", "statement": "After signing a P2SH or P2WSH m-of-n multisig input with m of its keys in order, Verify returns nil for that input.", "quantifier": "every m <= n <= 16, every choice of keys in order, every signature scheme whose signatures verify", "why_tests_cant": "Combinatorially many subsets of keys.", "anchors": ["xcore/transaction.go: EmbedIdxSignature, Verify", "xcore/script_multsig.go: GenMultiSigScript, isMultiSig", "xvm/instruction_crypto.go"]}
{"id": "C44", "title": "A successful sign call leaves the input signed", "statement": "If SignIndex returns nil then the input carries an unlocking script or witness containing the signatures.", "quantifier": "every transaction, index, keys and redeem script", "why_tests_cant": "The error path that is swallowed is never exercised.", "anchors": ["xcore/transaction.go: SignIndex, EmbedIdxSignature"]}
{"id": "C45", "title": "A P2WSH input only verifies against its own script", "statement": "Transaction.Verify accepts a P2WSH input only if the SHA-256 of the witness script equals the program in the output being spent.", "quantifier": "every transaction and witness", "why_tests_cant": "Adversarial redeem scripts.", "anchors": ["xcore/transaction.go: Verify", "xcore/script_p2wsh_v0.go: GetFinalLockingScriptBytes, WitnessToUnlockingScriptBytes"]}
{"id": "C46", "title": "Built transactions conserve value", "statement": "If BuildTransaction succeeds and amounts are below 2^63 in total, the sum of the coins spent equals the sum of the outputs plus the fee, the fee is the requested or relay-rate fee, and it does not exceed the configured maximum.", "quantifier": "every set of coins, outputs, fee settings", "why_tests_cant": "Arithmetic over unbounded lists and the conditional change output.", "anchors": ["xcore/transactionbuilder.go: BuildTransaction", "xcore/transaction.go: Fees"]}
{"id": "C47", "title": "A built transaction never pays out more than it takes in", "statement": "If BuildTransaction succeeds then the outputs' total value is at most the inputs' total value, for all uint64 amounts.", "quantifier": "every uint64 amount and fee setting", "why_tests_cant": "The violations need amounts or fees of 2^63 and above.", "anchors": ["xcore/transactionbuilder.go: BuildTransaction, SendFees"]}
{"id": "C48", "title": "Outputs and inputs appear where the caller put them", "statement": "A built transaction has one input per coin in the order added, then outputs in the order added, followed by at most one change output paying the change address (present exactly when change is positive), followed by the zero-value data outputs in order.", "quantifier": "every sequence of builder calls", "why_tests_cant": "Unbounded sequences of groups.", "anchors": ["xcore/transactionbuilder.go: BuildTransaction"]}
{"id": "C49", "title": "The size estimate is a worst case", "statement": "EstimateSize is at least the serialized size of the signed transaction.", "quantifier": "every transaction", "why_tests_cant": "Needs the maximum over all signatures; tests compare a single sample.", "anchors": ["xcore/estimate.go: EstimateSize, EstimateNormalSize"]}
{"id": "C50", "title": "Multisig redeem scripts are recognised with the same parameters", "statement": "The script built for m required signatures and the given keys is classified as multisig exactly with those keys and that m, for up to 16 keys; malformed parameters are rejected.", "quantifier": "every m, every list of public keys", "why_tests_cant": "Lists of keys of any length and form.", "anchors": ["xcore/script_multsig.go: GenMultiSigScript, isMultiSig", "xcore/script.go: ParseLockingScript"]}
{"id": "C51", "title": "The Merkle root is Bitcoin's", "statement": "For every non-empty list of 32-byte hashes, NewMerkle(hs).Root() is the Bitcoin Merkle root (pairwise double-SHA256, last node duplicated at odd levels).", "quantifier": "every non-empty list, every hash function", "why_tests_cant": "Depends on the length in a way that only shows at particular lengths.", "anchors": ["xcrypto/merkle.go: NewMerkle, Root"]}
{"id": "C52", "title": "Every leaf has a proof that verifies", "statement": "For every leaf of the tree, Verify(leaf, Root(), Proofs(leaf)) is true.", "quantifier": "every non-empty list of hashes, every leaf, every hash function", "why_tests_cant": "All lengths and positions.", "anchors": ["xcrypto/merkle.go: Proofs, Verify"]}
{"id": "C53", "title": "A Merkle proof proves membership", "statement": "If Verify(x, root, path) holds for the root of a tree over 32-byte leaves and a path of the tree's depth, then x is one of the leaves, or two different inputs with the same double-SHA256 have been exhibited.", "quantifier": "every tree, every candidate leaf, every path, every hash function", "why_tests_cant": "A reduction to collision resistance over adversarial paths.", "anchors": ["xcrypto/merkle.go: Verify"]}
{"id": "C54", "title": "Extended keys survive their string form", "statement": "NewHDKeyFromString(key.ToString(net)) returns a key with the same depth, parent fingerprint, child number, chain code and key material.", "quantifier": "every extended private or public key with a 32-byte secret below the order or a valid point", "why_tests_cant": "2^256 keys; leading zero bytes matter.", "anchors": ["xcore/bip32/hdkey.go: ToString, NewHDKeyFromString"]}
{"id": "C55", "title": "Public and private derivation agree", "statement": "For every extended private key and every non-hardened index, the public key of the derived private child equals the child derived from the extended public key.", "quantifier": "every key, chain code, index, every HMAC", "why_tests_cant": "A group homomorphism over all keys.", "anchors": ["xcore/bip32/hdkey.go: Derive, HDPublicKey"]}
{"id": "C56", "title": "Hardened children need the private key", "statement": "Deriving a hardened child from an extended public key always fails, and the child of a public key is never a private key.", "quantifier": "every extended public key, every index", "why_tests_cant": "Universal over indices and keys.", "anchors": ["xcore/bip32/hdkey.go: Derive"]}
{"id": "C57", "title": "A derivation path means its steps", "statement": "DeriveByPath(m/i1/i2'/...) equals deriving the named children one by one, with an apostrophe selecting the hardened child, and an ill-formed path is rejected with an error.", "quantifier": "every path string", "why_tests_cant": "Strings are unbounded; overflow and empty components are not tested.", "anchors": ["xcore/bip32/hdkey.go: DeriveByPath"]}
{"id": "C58", "title": "Mnemonics encode entropy losslessly", "statement": "For every entropy of 16, 20, 24, 28 or 32 bytes, NewMnemonic succeeds with 12 to 24 words of the word list and EntropyFromMnemonic of it returns the entropy; other sizes are rejected.", "quantifier": "every entropy, every hash function, every list of 2048 distinct space-free words", "why_tests_cant": "2^256 entropies; bit-level regrouping into 11-bit words.", "anchors": ["xcore/bip39/bip39.go: NewMnemonic, EntropyFromMnemonic"]}
{"id": "C59", "title": "Only mnemonics with a valid checksum are accepted", "statement": "If EntropyFromMnemonic(m) succeeds with e then the words of m are exactly the words of NewMnemonic(e).", "quantifier": "every string", "why_tests_cant": "All strings, not samples with a flipped word.", "anchors": ["xcore/bip39/bip39.go: EntropyFromMnemonic, MnemonicToByteArray"]}
{"id": "C60", "title": "Paillier decryption inverts encryption", "statement": "With two distinct primes of equal bit length, of three bits or more, Decrypt(Encrypt(m)) = m for every message 0 <= m < N and every blinding factor coprime to N.", "quantifier": "every key pair, message, blinding factor", "why_tests_cant": "Number-theoretic identity over all primes.", "anchors": ["xcrypto/paillier/paillier.go: Encrypt, Decrypt, GenerateKeyPair"]}
{"id": "C61", "title": "Paillier ciphertexts are homomorphic", "statement": "Decrypting Add(c1,c2), AddPlaintext(c,k), MultPlaintext(c,k) and Sub(c1,c2) gives the sum, the sum with k, the product with k and the difference modulo N.", "quantifier": "every key pair, messages, blinding factors", "why_tests_cant": "Algebraic identity over all keys.", "anchors": ["xcrypto/paillier/homomorphism.go: Add, AddPlaintext, MultPlaintext, Sub, DivPlaintext"]}
{"id": "C62", "title": "Two-party ECDSA gives the signature of the joint key", "statement": "The signature both parties obtain after phase 5 is the ECDSA signature for the product of their private keys with the product of their nonces, both parties obtain the same one, and s is low.", "quantifier": "every pair of keys, nonces, Paillier keys and blinding factors", "why_tests_cant": "All keys and nonces; needs the absence of Paillier wrap-around.", "anchors": ["xcrypto/mpc_ecdsa.go: Phase1..Phase5"]}
{"id": "C63", "title": "The adaptor signature reveals exactly the secret", "statement": "From Bob's published signature and Alice's partial signature, ScriptlessPhase6 recovers Bob's secret modulo the group order.", "quantifier": "every key, nonce, secret coprime to the order", "why_tests_cant": "Algebra over all values.", "anchors": ["xcrypto/scriptless_ecdsa.go: ScriptlessPhase6"]}
{"id": "C64", "title": "ECDSA signatures verify and are low-S", "statement": "For every private key in range and message hash, the signature produced verifies under the corresponding public key, 1 <= r < N, 1 <= s <= N/2.", "quantifier": "every key, hash, nonce", "why_tests_cant": "All 2^256 keys and hashes.", "anchors": ["xcrypto/ecdsa/ecdsa.go: Sign", "xcrypto/signature_ecdsa.go: EcdsaSign, EcdsaVerify"]}
{"id": "C65", "title": "Deterministic nonces are in range and follow RFC 6979", "statement": "The nonce returned is in [1, q-1], is a function of key, hash and extra data only, and is the first in-range candidate of the RFC 6979 HMAC-DRBG sequence.", "quantifier": "every key, hash, HMAC function", "why_tests_cant": "The retry branch is taken with probability about 2^-128.", "anchors": ["xcrypto/ecdsa/rfc6979.go"]}
{"id": "C66", "title": "Schnorr signatures verify", "statement": "For every private key in range and message, the signature from Sign is accepted by Verify under the corresponding public key.", "quantifier": "every key and message, every hash function", "why_tests_cant": "All keys and messages; the Jacobi-symbol branch must match.", "anchors": ["xcrypto/schnorr/schnorr.go: Sign, Verify"]}
{"id": "C67", "title": "Two-party Schnorr gives a signature valid for the joint key", "statement": "The signature assembled in phase 5 from both parties' phase 4 outputs verifies under the joint public key.", "quantifier": "every pair of keys and message, every hash function", "why_tests_cant": "The repository's test never verifies the final signature.", "anchors": ["xcrypto/mpc_schnorr.go: Phase4, Phase5", "xcrypto/schnorr/schnorr.go: GetE, GetK"]}
{"id": "C68", "title": "Curve addition and doubling implement the group law", "statement": "Add and Double on curve points give the chord-and-tangent sum, including inverse points, equal points and the point at infinity; the result is on the curve with reduced coordinates.", "quantifier": "every pair of points on the curve (or infinity)", "why_tests_cant": "About 2^512 pairs; the Jacobian formulas have exceptional cases of negligible probability.", "anchors": ["xcrypto/secp256k1/secp256k1.go: Add, Double, addJacobian, doubleJacobian, affineFromJacobian, IsOnCurve"]}
{"id": "C69", "title": "Scalar multiplication is a homomorphism", "statement": "ScalarMult(P, k) is the k-fold sum of P, for every byte-string scalar including leading zeros, and ScalarBaseMult(a+b mod N) = Add(ScalarBaseMult(a), ScalarBaseMult(b)).", "quantifier": "every point, every scalar byte string", "why_tests_cant": "All scalars.", "anchors": ["xcrypto/secp256k1/secp256k1.go: ScalarMult, ScalarBaseMult"]}
{"id": "C70", "title": "Public keys parse to the point they encode", "statement": "PubKeyFromBytes(Serialize*(pub)) returns pub for compressed and uncompressed forms, and PubKeyFromBytes succeeds only on points of the curve in the standard encodings (prefixes 02, 03, 04, 06, 07).", "quantifier": "every public key, every byte string", "why_tests_cant": "Square roots for 2^255 x-coordinates and all malformed strings.", "anchors": ["xcrypto/pubkey.go: PubKeyFromBytes, SerializeCompressed, SerializeUncompressed", "xcrypto/secp256k1/sec.go"]}
{"id": "C71", "title": "Signature encodings are unique", "statement": "DER decoding inverts encoding, and a byte string that decodes to a signature is the encoding of that signature.", "quantifier": "every signature, every byte string", "why_tests_cant": "Malleability: the offending strings are extensions of valid ones.", "anchors": ["xcrypto/signature_ecdsa.go", "xcrypto/signature_schnorr.go"]}
{"id": "C72", "title": "RIPEMD-160 is insensitive to how input is chunked", "statement": "For any way of splitting a message into successive Write calls, with Sum calls in between, the final Sum is the RIPEMD-160 digest of the whole message; Sum never panics and returns 20 bytes.", "quantifier": "every message, every sequence of Write and Sum calls", "why_tests_cant": "Unboundedly many chunkings around the 64-byte block buffer.", "anchors": ["xcrypto/ripemd160/ripemd160.go: Write, Sum", "xcrypto/ripemd160/ripemd160block.go: _Block"]}
{"id": "C73", "title": "PBKDF2 computes RFC 2898", "statement": "Key(password, salt, iter, keyLen) is the first keyLen bytes of T_1 || T_2 || ... with T_i the xor of iter HMAC iterates of salt || INT(i).", "quantifier": "every password, salt, iteration count >= 1, key length, every PRF", "why_tests_cant": "All lengths and iteration counts; in-place buffer reuse must not alias.", "anchors": ["xcrypto/pbkdf2/pbkdf2.go: Key"]}
{"id": "C74", "title": "Protocol messages round-trip", "statement": "For each message type, decoding what Encode produced into a fresh message gives back the same fields.", "quantifier": "every message value with in-range fields", "why_tests_cant": "Unbounded lists of entries.", "anchors": ["xprotocol/msgversion.go", "xprotocol/msginv.go", "xprotocol/msggetdata.go", "xprotocol/msggetheaders.go", "xprotocol/msgheaders.go", "xprotocol/msgping.go", "xprotocol/msgpong.go", "xprotocol/msgreject.go", "xprotocol/msgtx.go"]}
{"id": "C75", "title": "A message's Size is the length of its encoding", "statement": "Size() equals len(Encode()) for every message.", "quantifier": "every message of every type", "why_tests_cant": "All field values.", "anchors": ["xprotocol/*.go: Size, Encode"]}
{"id": "C76", "title": "Messages arrive as they were sent", "statement": "Writing any sequence of messages to a stream and reading until the end yields the same sequence of messages, however the bytes of successive messages abut.", "quantifier": "every finite sequence of messages of supported types", "why_tests_cant": "Unbounded sequences; framing errors accumulate.", "anchors": ["xprotocol/stream.go: WriteMessage, ReadMessage", "xprotocol/message.go: makeEmptyMessage"]}
{"id": "C77", "title": "Corrupted or foreign messages are rejected", "statement": "ReadMessage returns an error if the payload's checksum does not match the header or if the magic is not the network's.", "quantifier": "every byte stream", "why_tests_cant": "All corrupted streams.", "anchors": ["xprotocol/stream.go: ReadMessage"]}
{"id": "C78", "title": "Message item limits hold", "statement": "No sequence of Add calls makes an inv, getdata or headers message hold more than its documented maximum number of items.", "quantifier": "every sequence of Add calls with any number of items each", "why_tests_cant": "All call sequences.", "anchors": ["xprotocol/msginv.go: AddInvVect", "xprotocol/msggetdata.go", "xprotocol/msgheaders.go: AddBlockHeader"]}
{"id": "C79", "title": "Concurrent senders never interleave frames and are never blocked by a silent peer", "statement": "With any number of goroutines sending on a peer connection while its read loop runs, each message's bytes appear contiguously on the wire, and a Send makes progress even if the remote side is silent.", "quantifier": "every schedule of the read loop and any number of senders", "why_tests_cant": "Schedules are unbounded and the race detector only sees those that happen.", "anchors": ["xprotocol/stream.go: WriteMessage, ReadMessage", "xprotocol/connection.go: ReadLoop, Send"]}
{"id": "C80", "title": "Accepted address strings are canonical", "statement": "Whenever DecodeAddress(s, net) succeeds with an address, s is exactly that address's ToString(net): no second spelling of an address is accepted.", "quantifier": "every string, both networks, every checksum hash function", "why_tests_cant": "The alternative spellings form an unbounded set of strings with valid checksums that random tests do not hit.", "anchors": ["xcore/address.go:33-74", "xbase/witness.go:13-23"]}
{"id": "C81", "title": "Serialized transactions are in the network format", "statement": "SerializeNoWitness writes version, inputs, outputs and lock time in the original Bitcoin format, and Serialize writes the BIP144 format exactly when an input is a witness input.", "quantifier": "every transaction with in-range fields, any number of inputs, outputs and witness items", "why_tests_cant": "Counts and lengths switch encodings at 253, 2^16 and 2^32, and every combination of input kinds matters.", "anchors": ["xcore/transaction.go: Serialize, SerializeNoWitness"]}
{"id": "C82", "title": "A transaction mixing input kinds verifies once all inputs are signed", "statement": "After every input of a transaction (any mix of P2PKH, P2WPKH, P2SH multisig and P2WSH multisig) is signed in order with keys able to spend it and one hash type, Verify returns nil; inputs made by NewTxIn from output scripts are of those kinds.", "quantifier": "every transaction, every mix, every number of inputs, every starting state of the digest caches, every signature scheme whose signatures verify", "why_tests_cant": "tests sign a handful of fixed transactions; the interplay of the shared digest caches between inputs and between signing and verifying needs an argument over all input sequences", "anchors": ["xcore/transaction.go:209-269", "xcore/transaction.go:319-384", "xcore/transaction.go:684-734"]}
{"id": "C83", "title": "Fee estimate is rate times size", "statement": "EstimateFees(size, feePerKb) is feePerKb*size/1000 rounded down, computed through a floating point product, for every rate and size whose fee is below 2^42 satoshi.", "quantifier": "for all sizes and rates with feePerKb*size < 1000*2^42", "why_tests_cant": "Rounding of the binary64 division and product depends on both numbers; a handful of test values never hits the rates at which the product falls just short of a whole number.", "anchors": ["xcore/estimate.go:129-135"]}
{"id": "C84", "title": "Built and signed transactions verify", "statement": "If the builder is told to sign and each group holding a coin was given keys that can spend it (key hash, witness key hash, script hash and witness script hash multisig), then a transaction BuildTransaction returns passes Verify; and if building without signing succeeds then building with signing does too and differs only in the unlocking data.", "quantifier": "for all builder states, numbers of groups, mixes of coin kinds, signature schemes and hash functions", "why_tests_cant": "Signing input i must not disturb the signatures already made on inputs before it, for every number and mix of inputs; tests try a few fixed mixes.", "anchors": ["xcore/transactionbuilder.go:178-330", "xcore/transaction.go", "xcore/script_engine.go"]}
{"id": "C85", "title": "The two mnemonic decoders agree", "statement": "EntropyFromMnemonic(m) and MnemonicToByteArray(m, true) either both succeed with the same entropy or both fail.", "quantifier": "every string, hash function and good word list", "why_tests_cant": "All strings, including odd spacing: the tests only decode sentences the package produced.", "anchors": ["xcore/bip39/bip39.go: EntropyFromMnemonic, MnemonicToByteArray, IsMnemonicValid"]}
{"id": "C86", "title": "A peer cannot crash the reader", "statement": "ReadMessage returns a message or an error for every byte stream; it never panics.", "quantifier": "every byte stream, however cut by the network", "why_tests_cant": "All byte streams; only rare lengths trigger the crash.", "anchors": ["xprotocol/stream.go: ReadMessage", "xprotocol/msgreject.go: Decode", "xprotocol/msgversion.go: Decode", "xbase/buffer.go: ReadVarBytes"]}
{"id": "C87", "title": "Messages are laid out as Bitcoin's protocol says", "statement": "Every message encodes to the bytes the Bitcoin protocol prescribes: fixed-width fields little-endian except ports big-endian, compact sizes before lists and strings, and frames of magic, command, length, checksum and payload.", "quantifier": "every message with in-range fields", "why_tests_cant": "The package's tests only decode what it encoded itself.", "anchors": ["xprotocol/msgversion.go: Encode", "xprotocol/stream.go: WriteMessage"]}
{"id": "C88", "title": "Curve points form an abelian group under Add", "statement": "Add is commutative and associative on points of the curve, (0,0) is neutral, and the opposite of a point is its inverse.", "quantifier": "every three points on the curve (or infinity)", "why_tests_cant": "Associativity over a 256-bit curve has far too many triples and exceptional cases (equal, opposite, tangent) that random tests never hit.", "anchors": ["xcrypto/secp256k1/secp256k1.go: Add, addJacobian, doubleJacobian, affineFromJacobian"]}
{"id": "C89", "title": "The base point has prime order N", "statement": "P and N are prime, the base point is on the curve, ScalarBaseMult(k) is infinity exactly when N divides k, and scalars below N give distinct points.", "quantifier": "every scalar byte string", "why_tests_cant": "Primality and order are statements about 256-bit numbers; no test enumerates the scalars.", "anchors": ["xcrypto/secp256k1/secp256k1.go: initSECP256K1, ScalarBaseMult"]}
{"id": "C90", "title": "The curve has N points, all multiples of the base point", "statement": "Every point of the curve is k times the base point for exactly one k in [0, N), so every point other than infinity has order N and no small-subgroup points exist for ScalarMult to be fed.", "quantifier": "every point", "why_tests_cant": "A statement about all 2^256 points.", "anchors": ["xcrypto/secp256k1/secp256k1.go: SECP256K1, ScalarMult"]}
{"id": "C91", "title": "Verification does not distinguish s from N - s", "statement": "For every public key, hash, r and s, Verify gives the same answer for (r, s) and (r, N - s); low-S is therefore a promise of Sign only.", "quantifier": "every public key, hash, r, s", "why_tests_cant": "Tests verify signatures from Sign, which are low-S.", "anchors": ["xcrypto/ecdsa/ecdsa.go: Verify"]}
{"id": "C92", "title": "The nonce function follows RFC 6979 for every group order", "statement": "For every order q, not only that of secp256k1, NonceRFC6979(q, x, hash) is the first in-range candidate of the RFC 6979 sequence for q.", "quantifier": "every order, key, hash, HMAC function", "why_tests_cant": "The only vector has a 163-bit order; the loop bound rounds down to bytes.", "anchors": ["xcrypto/ecdsa/rfc6979.go: NonceRFC6979"]}
{"id": "C93", "title": "Adding to a private key matches adding to its public key", "statement": "PrvKey.Add(n2) is the private key of (d + n2) mod N, its public key is PubKey.Add of the two public keys, and Serialize writes 32 bytes that PrvKeyFromBytes reads back to the same key.", "quantifier": "every private key and every added byte string; serialisation for keys of at most 32 bytes", "why_tests_cant": "Wrap-around at the order, doubling and opposite points are special cases of the addition that a sample misses.", "anchors": ["xcrypto/prvkey.go: PrvKeyFromBytes, Add, Serialize", "xcrypto/pubkey.go: Add"]}
{"id": "C94", "title": "Repeating phase 4 of two-party Schnorr negates the nonce and reveals the key", "statement": "When the y of the joint R is not a square, a second Phase4 call with the same arguments signs the same challenge with the negated nonce, and the sum of the two answers divided by twice the challenge is the private key.", "quantifier": "every party state, joint key, joint R, hash function and non-zero challenge", "why_tests_cant": "It needs two calls on one party and algebra over the answers; the repository's test calls each phase once.", "anchors": ["xcrypto/mpc_schnorr.go: Phase4", "xcrypto/schnorr/schnorr.go: GetK"]}
{"id": "C95", "title": "Master keys and children follow BIP 32", "statement": "NewHDKey is the BIP 32 master key of the seed, and Derive is CKDpriv for a private key and CKDpub for a public key: secret, point, chain code, child number, parent fingerprint and depth are as the standard gives them, for every index; and a master key or child that the standard declares invalid is rejected.", "quantifier": "every seed, key, index, every HMAC and hash", "why_tests_cant": "2^256 keys and 2^32 indices; the standard's rejection cases have probability 2^-127.", "anchors": ["xcore/bip32/hdkey.go: NewHDKey, Derive, getIntermediary"]}
{"id": "C96", "title": "Only well-formed extended keys are imported", "statement": "NewHDKeyFromString accepts a string exactly when it is the Base58 form of 82 bytes: a version of a known network matching the kind of key, the fields of BIP 32, a secret between 1 and n-1 or a compressed point of the curve, and a right checksum; it never panics.", "quantifier": "every string", "why_tests_cant": "Strings are unbounded; malformed ones are never generated by the encoder.", "anchors": ["xcore/bip32/hdkey.go: NewHDKeyFromString"]}
{"id": "C97", "title": "What the program signs, the program accepts", "statement": "For inputs of all four kinds, a transaction signed by SignIndex with the program's own private keys (made by PrvKeyFromBytes), its RFC 6979 ECDSA signatures, its DER and public key encodings and its Hash160, and every transaction returned by the builder, is accepted by Verify.", "quantifier": "every key whose number is not a multiple of the group order, every transaction and every set of spent outputs, every SHA-256 with 32 byte digests and every HMAC", "why_tests_cant": "Tests sign a handful of transactions with fixed keys; the chain from key bytes over the curve, DER and scripts to acceptance is never checked for all keys and transactions.", "anchors": ["xcore/transaction.go: SignIndex, Verify", "xcore/transactionbuilder.go: BuildTransaction", "xcrypto/signature_ecdsa.go: EcdsaSign, EcdsaVerify", "xcrypto/pubkey.go: PubKeyFromBytes", "xcrypto/hash.go: Hash160"]}
{"id": "C98", "title": "An accepted spend proves a signature by the key or keys of the output", "statement": "If Verify accepts a transaction, then an input with a push-only unlocking script that spends a P2PKH or P2WPKH output carries a public key of a curve point with the hash in the output and a DER signature that satisfies the ECDSA equation for the input's signature hash; an input that spends a P2SH or P2WSH multisig output carries as many such signatures, for different keys of the script in their order, as the script asks for.", "quantifier": "every transaction, every input and every push-only unlocking script", "why_tests_cant": "A test can only show that some bad signatures are refused; this speaks about every transaction that is accepted.", "anchors": ["xcore/transaction.go: Verify", "xvm/engine.go: Verify", "xcrypto/signature_ecdsa.go: EcdsaVerify", "xcrypto/pubkey.go: PubKeyFromBytes"]}
{"id": "C99", "title": "A script succeeds exactly when it ends with a true item on top", "statement": "A script run to its end succeeds exactly when no instruction failed and the stack ends with a top item that is true, where every byte string stands for a number (little-endian, sign in the top bit, any number of leading zero bytes, negative zero included) and is true exactly when that number is not zero.", "quantifier": "for all scripts, all starting stacks, all signature hash and verification functions", "why_tests_cant": "A test shows a few items; the claim ranges over every script and every item, and the boundary is at odd encodings of zero (00 00 80) and at the empty stack.", "anchors": ["xvm/engine.go:134-171", "xvm/stack.go:20-31", "xvm/engine.go:89-113"]}
{"id": "C100", "title": "CHECKSIG and the VERIFY opcodes decide exactly by signature validity", "statement": "OP_CHECKSIG pops key and signature and pushes true exactly when the signature without its last byte is valid for the hash selected by that byte; an empty signature is false; OP_CHECKSIGVERIFY and OP_CHECKMULTISIGVERIFY leave just the rest of the stack exactly when the signature, or the ordered assignment of signatures to keys, is valid, and otherwise fail; with fewer than two items the single-signature opcodes fail.", "quantifier": "for all keys, signatures, stacks, conditional states in which instructions execute, hash and verification functions", "why_tests_cant": "Validity is the answer of arbitrary functions and the number of keys and signatures is unbounded.", "anchors": ["xvm/instruction_crypto.go:28-160"]}
{"id": "C101", "title": "Signatures made elsewhere, embedded into a transaction, verify; in particular those of the two-party protocols", "statement": "If for each key-hash input (plain or witness) of a transaction the signature hash that RawSignatureHash or WitnessV0SignatureHash reports is signed by someone, giving a DER signature valid for a public key with the input's key hash, then embedding those signatures with EmbedIdxEcdsaSignature changes nothing but unlocking scripts and witnesses, and the transaction verifies. The two parties of the MPC ECDSA protocol, and of the adaptor protocol, produce such signatures for the compressed encoding of their joint key.", "quantifier": "for all transactions with any number of key-hash inputs, all hash types, all keys, shares, nonces and Paillier keys meeting C62's conditions, any order of asking for hashes (whose caches stay behind)", "why_tests_cant": "The joint key exists only as a product of shares, the Paillier keys are random 2048-bit numbers and the caches depend on the order of calls; the repository's example does one input of one kind and ignores the result of Verify.", "anchors": ["xcore/transaction.go:248-278", "xcore/transaction.go:684-734", "xcrypto/mpc_ecdsa.go:1-140", "examples/two_party_ecdsa_transaction_p2pkh.go:1-120"]}
{"id": "C102", "title": "A watch-only wallet's addresses are spendable by the private wallet", "statement": "Whatever path the extended public key can follow with DeriveByPath, the extended private key can follow as well, and arrives at the private key of the public key seen by the public side; and a transaction whose key-hash inputs (plain or witness) are locked to such public keys, signed with the keys the private wallet derives for the same paths, verifies.", "quantifier": "for all extended private keys, all path strings, all numbers of inputs, hash types, HMAC and hash functions of the right output sizes", "why_tests_cant": "Paths are unbounded strings, and the claim joins derivation, hashing, signing and the script engine; one test vector shows one path and no spend.", "anchors": ["xcore/bip32/hdkey.go:113-254", "xcore/transaction.go:209-245", "xcore/transaction.go:684-734", "examples/hdwallet.go:1-60"]}
{"id": "C103", "title": "The wallet seed is BIP 39's and only valid mnemonics pass the check", "statement": "NewSeed returns, for every mnemonic string and password, the 64 bytes of PBKDF2-HMAC-SHA512 keyed by the mnemonic with the salt \"mnemonic\" followed by the password and 2048 rounds. NewSeedWithErrorChecking returns the same seed for every sentence NewMnemonic makes, returns an error for every string whose words are not the BIP 39 words of some entropy, and never panics. NewHDKey of the seed is BIP 32's master key.", "quantifier": "for all entropies of the five sizes, all strings and passwords, all usable word lists, and every HMAC function with 64-byte results", "why_tests_cant": "Strings with unusual spacing are checked over other words than are used to build the key; the set of such strings is unbounded and tests use well-formed sentences. The seed involves 2048 rounds over one shared array.", "anchors": ["xcore/bip39/bip39.go:260-272", "xcrypto/pbkdf2/pbkdf2.go:28-75", "xcore/bip32/hdkey.go:62-82"]}
{"id": "C104", "title": "Two-party ECDSA keeps each private key from the other party", "statement": "The ciphertext a party answers with in phase 4 tells the other party nothing that determines the private key.", "quantifier": "every private key, message, nonce and Paillier key; a partner who encrypts a number of their choice, and one who follows the protocol", "why_tests_cant": "The answer decrypts to a correct signature share, so every test passes; the leak is in the integer under the encryption.", "anchors": ["xcrypto/mpc_ecdsa.go: Phase4", "xcrypto/paillier/homomorphism.go: MultPlaintext, AddPlaintext"]}
{"id": "C105", "title": "A signature under the shared Schnorr key takes both parties", "statement": "A signature that verifies under the shared key of phase 1 cannot be made by one party alone.", "quantifier": "every honest private key, every secret and answer of the other party, every message", "why_tests_cant": "Tests use two honest parties; the claim is about any answer to phase 1.", "anchors": ["xcrypto/mpc_schnorr.go: Phase1", "xcrypto/pubkey.go: Add"]}
{"id": "C106", "title": "Shares of two-party Schnorr runs do not reveal the private key", "statement": "The shares an honest party gives out in two runs, each from a fresh party, do not determine the private key.", "quantifier": "every private key, message, hash function, and keys and nonces sent by the other party in the two runs", "why_tests_cant": "It needs two runs and algebra over their shares; the repository's test has one run with an honest partner.", "anchors": ["xcrypto/mpc_schnorr.go: Phase2, Phase4", "xcrypto/schnorr/schnorr.go: GetK0, GetE, GetK"]}
{"id": "C107", "title": "The script assembler writes what the text says", "statement": "ScriptBuilder.Load accepts exactly the texts whose words are opcode names, decimal numbers, 0x-hex or quoted hex, and Script then returns the concatenation of what the words mean; it never panics and extra blanks do not matter.", "quantifier": "every text", "why_tests_cant": "There is no bound on the text; tests assemble a handful of scripts.", "anchors": ["xvm/scriptbuilder.go: Load, parseHex, AddInt64, AddData", "xvm/opcodes.go"]}
{"id": "C108", "title": "A listing says which script it lists", "statement": "Two scripts with the same DisasmString are equal, and assembling a listing with Load gives the script back.", "quantifier": "every well-formed script", "why_tests_cant": "It quantifies over all pairs of scripts; tests compare some listings with constants.", "anchors": ["xvm/scriptreader.go: DisasmString", "xvm/scriptbuilder.go: Load"]}
{"id": "C109", "title": "New mnemonics can be any of 2^128", "statement": "NewBIP39 returns twelve words of the chosen list that encode sixteen random octets; every value of these octets can occur, and calls at different times give different wallets.", "quantifier": "every clock value, every word list, every generator behind math/rand's seed", "why_tests_cant": "No test can show that an entropy never occurs; the tests check that a mnemonic is returned.", "anchors": ["xcore/bip39/bip39.go: NewEntropy, NewBIP39"]}
{"id": "C110", "title": "A mnemonic stays valid", "statement": "A mnemonic returned by NewBIP39 passes IsMnemonicValid and decodes to its entropy afterwards, whatever else the program does with the package.", "quantifier": "every clock value, every word list, every later sequence of NewBIP39 and SetWordList calls", "why_tests_cant": "The tests validate a mnemonic right after setting its list; the claim is about all later states of the package.", "anchors": ["xcore/bip39/bip39.go: SetWordList, NewBIP39, IsMnemonicValid, EntropyFromMnemonic"]}
{"id": "C111", "title": "The RPC client returns the node's result", "statement": "GetBlockCount, GetBlockHash and GetBlockHeader return the result carried by the answer to their request, and an error for every other answer; no answer makes the client panic.", "quantifier": "every answer of the node (JSON tree, status), every height and hash", "why_tests_cant": "The mock server of the tests always sends a result or an error; a node can send anything.", "anchors": ["xrpc/client.go: call", "xrpc/method.go: GetBlockHash, GetBlockCount, GetBlockHeader"]}
{"id": "C112", "title": "The block header is the node's", "statement": "Every field of the header returned by GetBlockHeader, including the hashes of the previous and the next block, is the value in the node's answer.", "quantifier": "every answer of the node with a header", "why_tests_cant": "The test only checks that there is no error; the claim is about the value of every field for every answer.", "anchors": ["xrpc/models.go: BlockHeaderResult", "xrpc/method.go: GetBlockHeader"]}
{"id": "C113", "title": "The transaction readers accept exactly the wire format", "statement": "Deserialize accepts a byte string if and only if it begins with a transaction in the BIP 144 format, DeserializeNoWitness if and only if it begins with one in the legacy format, and the result has the fields that the bytes spell out; a string has at most one reading in each format.", "quantifier": "every byte string up to 2^43 bytes", "why_tests_cant": "Tests read strings that the library wrote. The claim is about every string, in particular the ones that must be refused, and about every field of the result.", "anchors": ["xcore/transaction.go: Deserialize", "xcore/transaction.go: DeserializeNoWitness"]}
{"id": "C114", "title": "The peer-to-peer reader accepts exactly the wire format", "statement": "ReadMessage returns a message exactly when the stream begins with a frame that carries the name of the message, the length and checksum of its payload, and a payload in the format of that message; it returns the fields that the payload spells out and leaves exactly the bytes after the frame.", "quantifier": "every byte stream, every way of cutting it into reads, every command name", "why_tests_cant": "Tests decode what the library encoded. The claim is about every stream from a peer, in particular those that must be refused.", "anchors": ["xprotocol/stream.go: ReadMessage", "xprotocol/msgversion.go: Decode", "xprotocol/msgheaders.go: Decode", "xprotocol/msggetheaders.go: Decode", "xprotocol/msginv.go: Decode", "xprotocol/msgreject.go: Decode"]}
{"id": "C115", "title": "Library calls leave the caller's memory alone", "statement": "Embedding a signature, encoding Bech32 and verifying a script change no byte of memory that existed before the call, in particular not the bytes behind the slice they are given; their results depend only on the contents of the slices.", "quantifier": "every heap, every slice in it with any offset, length and capacity, every allocation policy of append", "why_tests_cant": "Tests pass freshly made slices without spare capacity and look at the result, not at the memory around the arguments.", "anchors": ["xcore/transaction.go: EmbedIdxEcdsaSignature", "xbase/bech32.go: Bech32Encode", "xvm/engine.go: Verify"]}
{"id": "C116", "title": "The stack saved by Verify is not disturbed", "statement": "A stack and its copy behave like two separate lists under any interleaving of pushes, removals and clears, so the stack that Verify saves after the unlocking script is the one it finds again for the P2SH check; the slice operations of the stack follow the list operations of the engine model.", "quantifier": "every heap, every stack, every sequence of operations on original and copy, every allocation policy of append", "why_tests_cant": "Whether two slices share an array depends on capacities left by earlier operations; tests see a few histories only.", "anchors": ["xvm/stack.go: Copy", "xvm/stack.go: Clean", "xvm/stack.go: PushByteArray", "xvm/stack.go: nipN", "xvm/engine.go: Verify"]}
{"id": "C117", "title": "Debugging does not change the verdict, and the trace describes the run", "statement": "Switching debug mode on changes neither the verdict nor the final state of Execute and Verify. The recorded rows are exactly the instructions executed, in order and consecutively numbered, each with the name of the opcode, the stack it left and the listing of the script that remains; two different stacks are never shown alike.", "quantifier": "every script, every pair of unlocking and locking scripts, every state and program counter, every signature oracle", "why_tests_cant": "Tests print one trace and never compare the verdicts with and without it; a skipped branch or an empty item in a trace is not looked at.", "anchors": ["xvm/engine.go: execute", "xvm/engine.go: Verify", "xvm/engine.go: EnableDebug", "xvm/stack.go: String", "xvm/scriptreader.go: DisasmRemaining"]}
{"id": "C118", "title": "Scripts and messages already built survive further building", "statement": "The bytes returned by Buffer.Bytes and ScriptBuilder.Script stay as they are, whatever is done later with that buffer or with others; separate buffers never affect each other.", "quantifier": "every number of buffers, every sequence of creations, writes, resets and returned slices, every allocation policy of append", "why_tests_cant": "Tests build each script with a new builder and look at it at once.", "anchors": ["xbase/buffer.go: Bytes", "xbase/buffer.go: Reset", "xvm/scriptbuilder.go: Script", "xvm/scriptbuilder.go: Reset"]}
{"id": "C119", "title": "Overwriting buffers in place does not change derived nonces and keys", "statement": "NonceRFC6979 and pbkdf2.Key reuse their buffers: sums are appended to buf[:0], the block T shares the array of dk, messages are appended to v. Despite that, the nonce is that of RFC 6979 and the key that of RFC 2898 for the contents of the caller's slices, and no memory that existed before the call is written to.", "quantifier": "every allocation policy of append, every heap, hash or salt slice anywhere in it, key, modulus, iteration count and key length", "why_tests_cant": "Whether two slices share an array depends on the capacities append chose; a test sees one allocator and one heap layout.", "anchors": ["xcrypto/ecdsa/rfc6979.go: NonceRFC6979", "xcrypto/ecdsa/rfc6979.go: mac", "xcrypto/pbkdf2/pbkdf2.go: Key"]}
{"id": "C120", "title": "A mistyped witness address is refused", "statement": "When one to four characters of the string of a P2WPKH or P2WSH address are replaced, DecodeAddress returns an error, on the network of the address and on the other.", "quantifier": "every 20-byte or 32-byte program, both networks, every choice of up to four positions, every replacement, every checksum hash function", "why_tests_cant": "The failing strings need a 30-bit coincidence between two checksums; no sampling of typing errors hits one.", "anchors": ["xcore/address.go: DecodeAddress", "xbase/witness.go: WitnessDecode", "xbase/bech32.go: Bech32Decode"]}
{"id": "C121", "title": "Bech32 detects inserted characters", "statement": "Inserting characters into the data part of a valid Bech32 string gives a string that is refused.", "quantifier": "every valid lower-case string, every number of inserted characters q before the last one", "why_tests_cant": "Only strings ending in one of 32 characters are affected, and only by one kind of insertion.", "anchors": ["xbase/bech32.go: Bech32Decode, bech32Polymod"]}
{"id": "C122", "title": "A party signs the message of its last Phase2", "statement": "The share a party object gives in Phase4 is for the message passed to its last Phase2, with the nonce derived from that message.", "quantifier": "every sequence of method calls on one object, every writing of the caller to its buffers in between, every outcome of the random source", "why_tests_cant": "A wrong share needs a failing random source or a reused buffer between two calls, and looks like any other ciphertext.", "anchors": ["xcrypto/mpc_ecdsa.go: Phase2, Phase4", "xcrypto/mpc_schnorr.go: Phase2, Phase4"]}
{"id": "C123", "title": "A closed party has forgotten its secrets", "statement": "After Close nothing a party object answers depends on the private key, the nonce or the Paillier key, it gives no share and no signature, and Close itself does not crash.", "quantifier": "every state of the object before Close, every sequence of calls after it", "why_tests_cant": "Independence of the secret is a statement about pairs of runs; tests see one run.", "anchors": ["xcrypto/mpc_ecdsa.go: Close", "xcrypto/mpc_schnorr.go: Close"]}
{"id": "C124", "title": "A signed transaction arrives: its receiver accepts it too", "statement": "A transaction whose inputs were all signed by the right keys is accepted by Verify not only in the signer's object but also in the object of a receiver, who decodes the serialised bytes and calls SetTxIn with amount, locking script and redeem script of each spent output; identifier and unlocking scripts are the same.", "quantifier": "every number and mix of P2PKH, P2SH, P2WPKH and P2WSH inputs, every key, multisig size, hash type, outputs, version and lock time", "why_tests_cant": "The tests verify the object that signed, or one fixed transaction; the receiver's object has other caches and rebuilds the unlocking scripts from the witness.", "anchors": ["xcore/transaction.go: Deserialize, DeserializeNoWitness, SetTxIn, Verify", "xcore/script_p2wsh_v0.go: WitnessToUnlockingScriptBytes", "xcore/script_multsig.go: isMultiSig"]}
{"id": "C125", "title": "Witness key inputs have only the BIP 141 form", "statement": "A received input that spends a witness key hash output is accepted only if its signature script is empty and its witness is a signature and a public key and nothing else.", "quantifier": "every transaction received, every input, every content of signature script and witness", "why_tests_cant": "Needs all malformed variants of a valid transaction; the tests have only well-formed ones.", "anchors": ["xcore/transaction.go: SetTxIn, Verify", "xcore/script_p2wpkh_v0.go: WitnessToUnlockingScriptBytes"]}
{"id": "C126", "title": "Completing a received transaction does not crash", "statement": "SetTxIn on a transaction from the network returns, with or without an error, for every input of the transaction.", "quantifier": "every transaction, index, amount, locking script and redeem script", "why_tests_cant": "Needs the exact set of crashing inputs among all transactions and scripts.", "anchors": ["xcore/transaction.go: SetTxIn", "xcore/script_p2wpkh_v0.go: WitnessToUnlockingScriptBytes"]}
{"id": "C127", "title": "Reading into a used object gives the transaction of the bytes", "statement": "After a successful Deserialize or DeserializeNoWitness a Transaction object is the transaction that the bytes encode, whatever the object held before: same inputs, outputs and identifier, and Verify decides as it does for a fresh object.", "quantifier": "every earlier content of the object (including the digests cached by an earlier Verify or signature), every byte string", "why_tests_cant": "The tests read each transaction into a fresh object.", "anchors": ["xcore/transaction.go: Deserialize, DeserializeNoWitness, WitnessV0SignatureHash, Verify"]}
{"id": "C128", "title": "A failed read leaves a usable object", "statement": "Reading a transaction that was cut short returns an error, and the object can be used afterwards without a crash.", "quantifier": "every transaction with an input, every length of the truncated data, both formats, every earlier content of the object", "why_tests_cant": "Needs every truncation point of every transaction; one test checks that garbage gives an error and drops the object.", "anchors": ["xcore/transaction.go: Deserialize, DeserializeNoWitness, SerializeNoWitness, ID"]}
{"id": "C129", "title": "What a builder is told about a coin counts, in any order", "statement": "Each coin added to a transaction builder is spent with the redeem script, the keys, the kind of public key and the signature type that were set for it, whatever the order of the calls.", "quantifier": "every sequence of builder calls, every scheme of keys and signatures", "why_tests_cant": "Needs every order of the calls; the tests call AddCoin first in every group.", "anchors": ["xcore/transactionbuilder.go: AddCoin, AddKeys, To, SetRedeemScript, SetPubKeyUncompressed, SetSigHashType, Then, BuildTransaction"]}
{"id": "C130", "title": "Whoever relays a signed transaction cannot change its identifier", "statement": "A signed transaction keeps its identifier: any other transaction spending the same outputs to the same outputs with the same signers' consent that Verify accepts has the same identifier.", "quantifier": "every accepted transaction, every input, every extra push, every signature scheme and, for the signature itself, every signature of the program's curve", "why_tests_cant": "Needs the scripts and signatures nobody produced but that are accepted; the tests verify only what they signed.", "anchors": ["xcore/transaction.go: Verify, VerifyIndex, Hash, SerializeNoWitness", "xvm/engine.go: Verify", "xcrypto/signature_ecdsa.go: EcdsaVerify"]}
{"id": "C131", "title": "A transaction can be printed at any time", "statement": "ToString returns a text for every transaction, signed or not.", "quantifier": "every transaction whose scripts fit in memory; every sequence of builder calls", "why_tests_cant": "Needs every state a transaction can be in; the tests print signed transactions only.", "anchors": ["xcore/transaction.go: ToString, TxIn.HasWitness", "xcore/transactionbuilder.go: BuildTransaction"]}
{"id": "C132", "title": "The text of a transaction shows what it does", "statement": "Transactions with the same text are the same transaction.", "quantifier": "every two transactions with well-formed scripts", "why_tests_cant": "Needs all pairs of transactions; the tests only log the text.", "anchors": ["xcore/transaction.go: ToString", "xvm/scriptreader.go: DisasmString", "xbase/hash.go: NewIDToString"]}
{"id": "C133", "title": "GetBlock returns the block the node describes", "statement": "For every answer of a node that describes a block in Bitcoin Core's terms (any number of transactions, inputs and outputs, other fields anywhere, names in any case), GetBlock returns exactly its texts, numbers, transactions, inputs and outputs, every amount as the floating point number within half a satoshi. It does so for every block with confirmations >= 0 and it panics exactly when the answer has neither error nor result. (Fails for blocks outside the best chain: the node says -1 confirmations, the field is unsigned, and GetBlock returns an error for every such block.)", "quantifier": "all JSON answers, all blocks within the protocol's ranges, any number of nested objects, any extra fields", "why_tests_cant": "The test has one recorded block of one chain; blocks off the best chain, coinbase and other inputs, negative versions and extra fields vary without bound.", "anchors": ["xrpc/method.go:54-67", "xrpc/models.go:26-90", "xrpc/client.go:53-87"]}
{"id": "C134", "title": "GetBlock tells blocks apart to the satoshi", "statement": "If GetBlock returns the same result for two answers that describe blocks, the blocks are the same: every text, number, input, output and amount up to 21 million coins, although amounts are float64.", "quantifier": "all pairs of answers describing blocks within the protocol's ranges", "why_tests_cant": "2.1e15 amounts in every position cannot be tried; that no two of them round to one float64 is a statement about all of them.", "anchors": ["xrpc/models.go:72-77", "xrpc/method.go:54-67"]}
{"id": "C135", "title": "When a build succeeds", "statement": "With a fixed fee, a builder builds exactly when it was given a coin and a payment, every coin has a hexadecimal id and the script of an address in hexadecimal, the fee is at most the maximum, the coins cover payments and fee, and a change address is known if something is left. It panics exactly when that address is nil and something is left. With the right keys, asking for signatures changes nothing of this.", "quantifier": "all sequences of builder calls without relay rate, with sums below 2^63", "why_tests_cant": "Tests try some failing builds; that nothing else makes a build fail, for any sequence of calls, coins and amounts, needs a proof.", "anchors": ["xcore/transactionbuilder.go:165-330", "xcore/coinbuilder.go:9-41"]}
{"id": "C136", "title": "Outputs of transactions can be spent", "statement": "Any outputs of any earlier transactions, of the four standard kinds, given to a builder as coins by id text, output number, value and hexadecimal script together with the keys that open them: if they cover payments and a fee up to the default maximum, the builder builds a transaction that verifies, whose inputs name exactly these outputs with their values, and whose outputs are the payments and, if something is left, the change.", "quantifier": "all transactions, all lists of their outputs, all payments, change addresses and fees; any signature scheme whose signatures verify", "why_tests_cant": "Chains of transactions of any length and mixture of outputs cannot be enumerated.", "anchors": ["xcore/transactionbuilder.go:165-330", "xcore/transaction.go:189-196", "xbase/hash.go:13-35"]}
{"id": "C137", "title": "Lock times hold transactions back", "statement": "A transaction built with a lock time cannot go into a block before that height or time (the network's rule: a lock time below 500000000 is a block height, above it a time; it counts only if some input has a sequence number other than 0xffffffff).", "quantifier": "all builds; all transactions, inputs and sequence numbers; all heights and times; any signature scheme whose signatures verify", "why_tests_cant": "Tests compare the bytes of a built transaction; that a rule of the network outside this code never holds any built transaction back needs a statement over all builds.", "anchors": ["xcore/transaction.go:22", "xcore/transaction.go:80-92", "xcore/transactionbuilder.go:138-142", "xcore/transactionbuilder.go:288-296"]}
{"id": "C138", "title": "Accepted amounts are the signed amounts", "statement": "If a transaction verifies, it does not verify with another amount noted at one of its inputs, so that its fee is fixed by its signatures.", "quantifier": "all transactions, inputs and amounts; all signature schemes (first part), secp256k1 (second part)", "why_tests_cant": "Which fields a signature covers is a fact about all transactions and all amounts; a test can only change one field of one transaction.", "anchors": ["xcore/transaction.go:684-760", "xcore/transaction.go:800-815"]}
{"id": "C139", "title": "What the library signs, the network accepts", "statement": "A transaction signed with the keys of the outputs it spends is serialized in the format of the network and meets the network's rules for spending each of those outputs: digest, signature encoding, script and witness form, and limits on size.", "quantifier": "all transactions, sets of keys, hash functions with 32-byte results and nonce sources; all calls of the builder", "why_tests_cant": "The tests verify with the library's own checker, which shares the digest and script code with the signer; no test holds the result against the rules of the network, let alone for all transactions.", "anchors": ["xcore/transaction.go:205-268", "xcore/transaction.go:279-322", "xcore/transactionbuilder.go:165-330", "xcore/script_p2sh.go:54-64", "xcore/script_p2wpkh_v0.go:58-68"]}
{"id": "C140", "title": "A signature fits one hash", "statement": "A signature that verifies for a hash under a public key verifies for no hash that stands for another number modulo the order of the group.", "quantifier": "all public keys, signatures and hashes", "why_tests_cant": "Concerns all hashes for a signature; no test enumerates them.", "anchors": ["xcrypto/ecdsa/ecdsa.go:57-66", "xcrypto/ecdsa/ecdsa.go:68-80"]}
{"id": "C141", "title": "What the network accepts, the library verifies", "statement": "A transaction that meets the network's rules for spending the outputs it spends, whoever made it, is read from its bytes, completed with those outputs and with the scripts behind script hashes, and accepted by Verify.", "quantifier": "all transactions of the network's format, all outputs of the four kinds, hash functions with 32-byte results, any number of inputs, keys and signatures (type ALL)", "why_tests_cant": "Transactions made by others have signatures, scripts and key forms the library never makes itself; the tests verify only transactions the library signed, and a few from the chain.", "anchors": ["xcore/transaction.go:140-176", "xcore/transaction.go:494-588", "xcore/transaction.go:622-681", "xcore/transaction.go:683-735", "xcore/script_p2wsh_v0.go:101-115"]}
{"id": "C142", "title": "What two parties sign together, the network accepts", "statement": "A new transaction whose inputs spend outputs locked to the hash of a key shared by two parties, signed by their protocol (with or without an adaptor) and embedded with EmbedIdxEcdsaSignature, is serialized in the format of the network and meets its rules: digest, strict DER, low s, script and witness form.", "quantifier": "all transactions of any number of inputs of either key hash kind, all shares, Paillier keys, nonce sources and secrets for which the protocol is defined, hash functions with 32-byte results", "why_tests_cant": "The examples run one fixed transaction of one input with fixed keys, and check with the library's own Verify; whether a joint signature has low s or meets the network's form depends on the values.", "anchors": ["xcore/transaction.go:248-278", "xcrypto/mpc_ecdsa.go:142-168", "xcrypto/scriptless_ecdsa.go:120-150", "examples/two_party_ecdsa_transaction_p2wpkh.go", "examples/two_party_ecdsa_transaction_p2pkh.go"]}
{"id": "C143", "title": "On inputs in the form of the relay rules, the library and the network agree", "statement": "For a transaction whose inputs have the form the relay rules prescribe (shortest pushes, SEC keys, strict DER with low s and type ALL, as many signatures as the script asks for) but whose keys, hashes and signatures may be right or wrong, reading the bytes and completing them with the outputs spent succeeds, and Verify then accepts exactly when the network's rules do: neither refuses what the other takes.", "quantifier": "all transactions of the network's format with inputs of the four kinds in that form (witness scripts of up to 16 keys), all outputs spent, hash functions with 32-byte results, any number of inputs", "why_tests_cant": "An equivalence needs every wrong signature, key and hash to be refused and every right one taken, for all digests; tests have a handful of good transactions and almost no bad ones.", "anchors": ["xcore/transaction.go:140-176", "xcore/transaction.go:494-588", "xcore/transaction.go:622-681", "xcore/transaction.go:683-735", "xvm/engine.go:89-113"]}
{"id": "C144", "title": "A signature fits one key", "statement": "A signature for a message hash verifies under the key it was made with and under no other. In fact a second key always passes, computable by anyone from the hash, the signature and the first key (the two add up to -2e/r times the base point); barring the few r below p - n there is no third.", "quantifier": "all curve points as keys, all hashes, all r and s", "why_tests_cant": "Which other keys accept a signature is a question about 2^256 candidates; a test can only try unrelated keys, all of which fail.", "anchors": ["xcrypto/signature_ecdsa.go:54-66"]}
{"id": "C145", "title": "The owners of a multisig output can sign in any order", "statement": "If as many owners as a multisig script asks for sign an input of it (P2SH or P2WSH), the input verifies in whichever order their keys are given to Sign. In fact it verifies exactly when the keys are given in the order in which they stand in the script, barring a signature that by chance fits another key of the script.", "quantifier": "all multisig scripts of all sizes, all lists of keys, all transactions, signature types and hash functions with 32-byte results", "why_tests_cant": "The wrong orders are as many as the permutations, and refusal rests on no signature fitting a foreign key; the tests sign in the right order only.", "anchors": ["xcore/transaction.go:209-245", "xcore/transaction.go:247-270", "xcore/script_p2sh.go:54-64", "xvm/instruction_crypto.go:76-144"]}
{"id": "C146", "title": "The inputs of a transaction can be signed in any order, and again", "statement": "Calls of SignIndex for different inputs give the same transaction in whatever order they are made, and repeating a call changes nothing. For witness inputs with different signature types the order matters, because the first type used fixes the digests kept in the transaction; with one type, or types that leave nothing out, it does not.", "quantifier": "all transactions, any number of calls with any keys and types, all permutations of them, all hash functions and signature schemes", "why_tests_cant": "Permutations of calls and the digests kept between them are too many to try; tests sign inputs in ascending order with one type.", "anchors": ["xcore/transaction.go:209-245", "xcore/transaction.go:248-269", "xcore/transaction.go:319-384", "xcore/transaction.go:387-432"]}
{"id": "C147", "title": "A signature made for one transaction does not authorise another", "statement": "An unlocking script of a key hash output accepted in one transaction is not accepted in another one with other inputs or outputs. With type ALL this holds unless the signature fits two different digests; with every other type one such signature authorises spending all outputs of the key, to any outputs.", "quantifier": "all transactions, inputs and positions, all keys and signatures, all hash functions, every signature type", "why_tests_cant": "The claim is about pairs of transactions one of which an attacker chooses; tests verify a transaction only where it was signed, and only with type ALL.", "anchors": ["xcore/transaction.go:280-315", "xcore/transaction.go:684-734"]}
{"id": "C148", "title": "A child's private key does not give away its parent's", "statement": "From a derived private key together with extended public keys the private key of a parent cannot be computed. For children that are not hardened it can, any number of steps down: the parent's secret is the child's less the left halves of the HMACs on the way. For hardened children every secret is possible under an HMAC that differs only at the message containing the parent's secret.", "quantifier": "all extended private keys, all lists of child numbers the public side can follow, all HMAC and hash functions with results of the right length", "why_tests_cant": "The claim is about what can be computed from what a program gives out, over all keys and HMACs; tests compare derived keys with fixed vectors.", "anchors": ["xcore/bip32/hdkey.go:113-163", "xcore/bip32/hdkey.go:205-225", "xcore/bip32/hdkey.go:227-240"]}
{"id": "C149", "title": "A key can be used alone and in a two-party protocol", "statement": "What a party publishes when it signs a message with its key alone and what it gives out when it signs the same message with a partner do not together determine its private key. They do, for Schnorr and for ECDSA: the nonce is computed from the key and the message alone, so it is the same in both, while the equations differ.", "quantifier": "every private key of the party, every key, nonce and Paillier key of the partner, every message, hash function and HMAC", "why_tests_cant": "It takes a relation between two separate runs of different functions, each of which gives a valid signature.", "anchors": ["xcrypto/mpc_schnorr.go:52-72", "xcrypto/schnorr/schnorr.go:31-67", "xcrypto/mpc_ecdsa.go:59-92", "xcrypto/ecdsa/ecdsa.go:16-53"]}
{"id": "C150", "title": "Signing with no key is refused", "statement": "Asking to sign an input with no private key is answered with an error, never with a crash and never with a transaction that is passed off as signed. This holds for signing one input and for the builder told to sign without having been given keys.", "quantifier": "all transactions, inputs and types of input; all sequences of builder calls", "why_tests_cant": "Tests sign with the right keys; the one test without keys asks the builder, which checks for a nil slice, and not SignIndex or an empty slice.", "anchors": ["xcore/transaction.go:209-269", "xcore/script_p2pkh.go:58-62", "xcore/script_p2sh.go:54-64", "xcore/script_p2wpkh_v0.go:52-63", "xcore/script_p2wsh_v0.go:56-83", "xcore/transactionbuilder.go:81-84", "xcore/transactionbuilder.go:319-328"]}
{"id": "C151", "title": "The witness identifier of a transaction", "statement": "WitnessHash is the wtxid of BIP 141: the double hash of the BIP 144 serialisation when the transaction carries a witness, of the original one when it does not. Two transactions share it only if they agree in everything that is sent, witnesses included.", "quantifier": "all transactions, built here or received, signed or not", "why_tests_cant": "Tests compute the id of transactions built and signed in the same test, never of one that was received or is not signed yet.", "anchors": ["xcore/transaction.go:199-206", "xcore/transaction.go:435-493", "xcore/transaction.go:94-96"]}
{"id": "C152", "title": "The words of a new mnemonic are enough to find its keys", "statement": "The seed of a new mnemonic is the BIP 39 seed of its words without a password, so any other wallet given the words finds the same keys.", "quantifier": "all word lists, all entropies, all passwords", "why_tests_cant": "Tests print the seed and compare it with nothing.", "anchors": ["xcore/bip39/bip39.go:392-429"]}
{"id": "C153", "title": "Setting the version and the lock time", "statement": "SetVersion and SetLockTime put their value into the four bytes of that field in both serialisations and change no other byte; a receiver reads back exactly the values set and everything else as before.", "quantifier": "all transactions, all 32-bit values", "why_tests_cant": "Tests set one or two values and compare one serialisation.", "anchors": ["xcore/transaction.go:121-138"]}
{"id": "C154", "title": "The depth of an extended key", "statement": "The depth of a derived key is the number of steps from the master key, and only a master key has depth zero: a key whose depth is zero has no parent fingerprint and no child number (BIP 32, test vector 5).", "quantifier": "all keys, all derivation paths of any length", "why_tests_cant": "Tests derive paths of a few steps; nobody tries 256.", "anchors": ["xcore/bip32/hdkey.go:113-163", "xcore/bip32/hdkey.go:257-322"]}
{"id": "C155", "title": "Operations on Paillier ciphertexts answer whatever they are given", "statement": "Decrypt, Add, Sub, AddPlaintext, MultPlaintext and DivPlaintext answer with an error when given something that is no ciphertext (nil, zero or a negative number) and otherwise with a number that can be passed on; they never crash and never return nil without an error.", "quantifier": "every key pair, every number or nil in place of a ciphertext, every plaintext", "why_tests_cant": "Quantifies over all ciphertexts and plaintexts; the inputs that fail share a factor with the modulus and are not hit at random.", "anchors": ["xcrypto/paillier/homomorphism.go:16-22", "xcrypto/paillier/homomorphism.go:26-34", "xcrypto/paillier/homomorphism.go:38-44", "xcrypto/paillier/homomorphism.go:49-55", "xcrypto/paillier/homomorphism.go:62-66", "xcrypto/paillier/paillier.go:87-98"]}
{"id": "C156", "title": "The coordinates of a public key as bytes", "statement": "XBytes and YBytes return the coordinates of a public key in 32 bytes, big endian, as they stand in the encodings of the key.", "quantifier": "all points of the curve", "why_tests_cant": "One key in 256 has a coordinate with a leading zero byte; a test with a few keys does not meet one.", "anchors": ["xcrypto/pubkey.go:87-95"]}
{"id": "C157", "title": "Signatures of every type are the network's", "statement": "An input that pays to a key hash or a multisig script and is signed with one of the signature types the network knows (ALL, NONE, SINGLE, each with or without ANYONECANPAY) carries signatures that are valid for the network's digest of that type, so that the network accepts what the library signs and verifies.", "quantifier": "all transactions, inputs that pay to a key hash with or without witness or to a multisig script with witness, keys, signature types, hash functions with 32-byte results", "why_tests_cant": "The tests sign with type ALL; a signature that only the library itself accepts passes every round trip of signing and verifying.", "anchors": ["xcore/transaction.go:209-245", "xcore/transaction.go:281-317", "xcore/transaction.go:319-385"]}
{"id": "C158", "title": "A signature carries the type it was asked for", "statement": "The last byte of a signature is the type it was asked for and signed for, so that checking makes the digest that was signed; a type that does not fit in a byte is refused.", "quantifier": "all transactions, inputs that pay to a key hash, keys, types of 32 bits, hash functions with 32-byte results", "why_tests_cant": "Types are 32-bit numbers and the named ones all fit in a byte; the tests use no other.", "anchors": ["xcore/transaction.go:30-31", "xcore/transaction.go:272-278", "xcore/transaction.go:388-401", "xcore/transaction.go:404-432"]}
{"id": "C159", "title": "Addresses and extended keys show their kind and network", "statement": "Printed addresses begin with 1, 3 and bc1q on the main network and with m or n, 2 and tb1q on the test network, extended keys with xprv, xpub, tprv and tpub, as the comments beside the version bytes say; extended keys have 111 characters, addresses of scripts 34 and 35, witness addresses 42 and 62, and addresses of key hashes on the test network 34.", "quantifier": "all hashes of 20 and 32 bytes, all extended keys, hash functions with 32-byte results", "why_tests_cant": "The first characters come from dividing a number with the hash in its lower digits by powers of 58; a test checks a few hashes, and the version bytes next to the right ones often give the same character.", "anchors": ["network/network.go:36-48", "network/network.go:65-72", "xcore/address_p2pkh.go:36", "xcore/address_p2sh.go:36", "xcore/bip32/hdkey.go:257-283"]}
{"id": "C160", "title": "Addresses and extended keys are not taken for each other", "statement": "NewHDKeyFromString answers with an error for the text of any address, and DecodeAddress with an error for the text of any extended key, whatever the networks.", "quantifier": "all addresses, all extended keys, both networks, hash functions with 32-byte results", "why_tests_cant": "Both are Base58 text with a checksum (or look like it); which lengths a string decodes to has to be known for all hashes and keys.", "anchors": ["xcore/address.go:33-74", "xcore/bip32/hdkey.go:286-322", "xbase/base58.go:59-87"]}
{"id": "C161", "title": "A transaction built with a fee rate pays that rate", "statement": "When SetRelayFeePerKb was called with a positive rate, the fee of the built transaction is at least rate times size over 1000.", "quantifier": "all sequences of builder calls with amounts in range, all rates below 2^53 and sizes with rate times size below 1000*2^42, all transactions built", "why_tests_cant": "The estimate is made before the change and data outputs exist, so whether the fee suffices depends on the numbers of inputs and outputs and on script and signature sizes together.", "anchors": ["xcore/transactionbuilder.go:247-262", "xcore/transactionbuilder.go:273-305", "xcore/estimate.go:43-100", "xcore/estimate.go:129-135"]}
{"id": "C162", "title": "The fee does not fall when the rate rises or the transaction grows", "statement": "EstimateFees never gives a lower fee for a larger size or a higher rate, and of two transactions built with a fee rate the one at the same or a higher rate with at least as many inputs of either kind, the other's payments and possibly more, and no less data pays no less.", "quantifier": "all sizes and rates with rate below 2^53 and rate times size below 1000*2^42; all pairs of call sequences with amounts in range and the transactions built from them", "why_tests_cant": "The fee is a rounded product of rounded floating point numbers and can be one too low (C83), so that it could fall at any of the 2^53 rates; which pairs do so cannot be sampled.", "anchors": ["xcore/estimate.go:43-100", "xcore/estimate.go:129-135", "xcore/transactionbuilder.go:247-262"]}
{"id": "C163", "title": "Seeds are BIP 39's for any spelling of sentence and password", "statement": "The seed made from a mnemonic the library accepts and a password is PBKDF2 of the two in Unicode normal form NFKD, as BIP 39 demands, so that every wallet finds the same keys.", "quantifier": "all accepted mnemonics, all passwords, all functions that act like NFKD on ASCII text, on e-acute and on the wide space", "why_tests_cant": "Tests use the published English vectors, where normalisation changes nothing.", "anchors": ["xcore/bip39/bip39.go:257-271", "xcore/bip39/bip39.go:276-297"]}
{"id": "C164", "title": "The text of a transaction shows its fee rate", "statement": "The line feesperb in the text of a transaction is its fee divided by its length in bytes, to the nearest hundredth.", "quantifier": "every transaction whose inputs are worth less than 2^53/200 satoshis and not less than its outputs", "why_tests_cant": "Needs rounding in binary floating point, followed by rounding in decimal, for every fee and size; the tests only log the text.", "anchors": ["xcore/transaction.go: ToString", "xcore/transaction.go: Size", "xcore/transaction.go: Fees"]}
{"id": "C165", "title": "The text of a transaction shows its sizes", "statement": "The lines basesize, witsize, size, weight and vsize in the text of a transaction are its base size, witness size, total size, weight and virtual size in the sense of BIP141.", "quantifier": "every transaction that can be printed", "why_tests_cant": "Compares printed numbers with the lengths of two encodings for every transaction; the tests only log the text.", "anchors": ["xcore/transaction.go: ToString", "xcore/transaction.go: BaseSize", "xcore/transaction.go: WitnessSize", "xcore/transaction.go: Weight", "xcore/transaction.go: Vsize", "xcore/transaction.go: Size"]}
