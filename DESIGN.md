# Formal model of keyfuse/tokucore

The properties are in `properties.jsonl` (C01 ...). The Coq development is in `rocq/theories`.
`MANIFEST.json` maps each property to its theorems and says in a note what is proved and what is not. This file
says what is modelled, how each property is proved, what is false of the code, and what has to be trusted.

## Layout and conventions

For every area of the code there are these kinds of file:

* `<Area>Model.v`: the Go functions as total computable Gallina functions. Every definition cites the file and
  lines it models and says where it simplifies. No proofs.
* `<Area>Spec.v`: a small specification written without the model's helpers, from the English property or from
  the public standard (BIP 32/39/143/173, RFC 2898, RFC 6979, X.690, the RIPEMD-160 paper, the Bitcoin Merkle
  rule, the chord-and-tangent law, ...).
* `<Area>Proofs.v` and companions: lemmas.
* `<Area>Props.v`: the property theorems, each with `Print Assumptions` beneath it and an `Example` that exhibits a
  concrete case satisfying the hypotheses.

Modelling conventions:

* A Go byte is a `Z`; a byte slice is a `list Z`; a slice whose nil-ness is observable is an `option (list Z)`.
  Ranges are explicit hypotheses (`bytes_ok l` means every element is in 0..255), and every operation that keeps
  only low bits in Go writes `mod 2^k` explicitly. `int` is 64 bits.
* A Go call returns `res A := Ok a | Err e | Panic`. A run-time panic (index out of range, negative or too large
  `make`, nil dereference) is a value of the model, so "never panics" is a statement that can fail.
* Loops over data are structural recursion. Where Go loops until a condition holds, the model takes fuel; running
  out is a separate outcome, which the theorems exclude or prove unreachable.
* Objects with state (buffer, stack, engine, transaction with its cached digests, builder, RIPEMD-160 digest,
  wire stream, mutex and goroutines) are records with pure step functions. A method with a pointer receiver returns
  the new value.
* Functions outside the repository (SHA-256, HMAC, random sources, the network) are arguments: every theorem is
  quantified over them, with the facts it needs (for example "returns 32 bytes") as visible hypotheses. RIPEMD-160,
  PBKDF2, RFC 6979, secp256k1, Paillier and Schnorr are in the repository and are modelled themselves. A concrete
  SHA-256 is defined in `Sha256.v` to run examples and give concrete witnesses.
* Collision resistance is never assumed of a hash in general, which no fixed function has. Where a claim rests on
  it, the theorem says "or here are two different strings with one hash", or asks that the particular strings hashed
  do not collide.
* A property that is false of the code is kept in `properties.jsonl` as the user would rely on it. The development
  then has a theorem `..._refuted` that exhibits a witness in the model, and a theorem `..._partial` with the
  strongest true restriction found, often an exact condition. The status of such a property is `partial`.

## Trusted base

* The Coq 8.16.1 kernel (and `coqchk`, which rechecks the compiled files without the VM).
* Axioms. `Print Assumptions` stands beneath every property theorem. It answers "Closed under the global context"
  for every theorem except those of C83 (fee estimates in floating point), which use Flocq's IEEE 754 formalisation
  and with it the standard library's real numbers:
  `ClassicalDedekindReals.sig_not_dec`, `ClassicalDedekindReals.sig_forall_dec`,
  `FunctionalExtensionality.functional_extensionality_dep` and `Classical_Prop.classic`. There are no axioms of our
  own.
* The correspondence between the Go text and the model. It was made by reading; nothing checks it mechanically. It is
  supported by running the model inside Coq on known values: the vectors of `base58_test.go` and `bech32_test.go`, published
  vectors for SHA-256, RIPEMD-160, the generator of secp256k1 and others, as `Example`s in the Props files.
* The Go standard library, as its documentation describes it:
  * `math/big`: `SetBytes`, `Bytes`, `DivMod`, `BitLen` (`BigInt.v`); `ModInverse`, `Exp`, `ModSqrt`, `Jacobi`
    (`BigMod.v`, by extended Euclid, square and multiply, and the exponent (P+1)/4);
  * `crypto/ecdsa.Verify`: the published generic algorithm over the curve's own methods (`EcdsaModel.v`);
  * `encoding/asn1`: marshalling and parsing of a SEQUENCE of two INTEGERs, from the package's source (`DerModel.v`);
  * `crypto/hmac` and the SHA functions: any function with output of the right length;
  * `crypto/rand`, `rand.Prime`: the random values are arguments of the modelled functions;
  * `math.Log2`, `Ceil`, `Pow`: exact on the integers `NewMerkle` uses, up to 2^40 leaves (C51-C53);
  * `float64` arithmetic: IEEE 754 binary64, round to nearest even (C83, C131-C134), printed by `%.2f` as its exact value rounded half to even;
  * `strings.Split`, `strings.Fields` (with the Unicode spaces as UTF-8), `strings.ToLower`, `strconv.ParseUint`;
  * `math/rand`: the reduction of the seed to 31 bits; what follows is any function of it (C109);
  * `encoding/json`: its parser; the stores into strings, integers, pointers and base64 are written out (C111, C112);
  * `bufio.Reader`, `io.ReadFull`, `bufio.Writer`, `sync.Mutex` (`ProtoStream.v`, `ProtoConc.v`).
* Slices and aliasing. Values are immutable lists. Where the Go code appends to or writes into a shared array, the
  source was read to see that no other holder observes it; the cases where it matters are modelled as
  state: PBKDF2's reuse of `U`, the digest caches of a transaction, the RIPEMD-160 block buffer. The appends to a
  slice of the caller and the copying of the engine's stack are modelled in a heap of arrays (`MemModel.v`, C115, C116).
* Address space. A slice longer than 2^48 bytes cannot exist; theorems about buffers of any size assume
  at most 2^48 bytes, and `make` beyond that panics as in Go.

## What is modelled

| Go files | Model |
|----------|-------|
| `xbase/buffer.go` | `BufferModel`; `ReuseModel` (buffers in memory) |
| `xbase/base58.go` | `Base58Model` |
| `xbase/bech32.go`, `xbase/witness.go` | `Bech32Model`, `WitnessModel` |
| `xbase/hash.go` | `HexModel` |
| `network/network.go`, `xcore/address*.go` | `AddressModel` |
| `xcore/script*.go` | `LockModel` |
| `xvm/scriptnum.go` | `ScriptNumModel` |
| `xvm/instruction.go`, `scriptbuilder.go`, `scriptreader.go`, `opcodes.go` | `ScriptModel`, `AsmModel` |
| `xvm/stack.go`, `engine.go`, `instruction_*.go` | `VmModel`; `VmCalls` (which digests a run asks for); `MemModel` (slices); `TraceModel` (debug mode, with `trace.go`) |
| `xcore/transaction.go` | `TxModel`, `UsedModel` (objects read into again), `ShowModel` (ToString) |
| `xcore/transactionbuilder.go`, `coinbuilder.go`, `estimate.go` | `BuilderModel` |
| `xcrypto/merkle.go` | `MerkleModel` |
| `xcore/bip32/hdkey.go` | `Bip32Model` |
| `xcore/bip39/bip39.go`, `words/*.go` | `Bip39Model`, `Bip39Words`, `SeedModel`, `RandModel` |
| `xcrypto/secp256k1/*.go` | `SecpModel`, scalars in `MpcSchnorrModel` |
| `xcrypto/ecdsa/*.go`, signing in `prvkey.go` | `EcdsaModel` |
| `xcrypto/pubkey.go`, `prvkey.go` | `PubKeyModel`, `CoordModel` |
| `xcrypto/signature_ecdsa.go` | `DerModel` |
| `xcrypto/schnorr/schnorr.go`, `signature_schnorr.go` | `SchnorrModel` |
| `xcrypto/mpc_schnorr.go` | `MpcSchnorrModel`; `LifeModel` (any order of calls, Close, with `mpc_ecdsa.go`) |
| `xcrypto/paillier/*.go` | `PaillierModel` |
| `xcrypto/mpc_ecdsa.go`, `scriptless_ecdsa.go` | `MpcEcdsaModel` |
| `xcrypto/ripemd160/*.go`, `xcrypto/hash.go` | `RipemdModel`, `WholeModel` |
| `xcrypto/pbkdf2/pbkdf2.go` | `Pbkdf2Model`; `InPlaceModel` (with `rfc6979.go`, in memory) |
| `xprotocol/*.go` | `ProtoModel`, `ProtoStream`, `ProtoConc` |
| `xrpc/client.go`, `method.go`, `models.go` | `RpcModel`; `BlockModel` (GetBlock and its nested result) |

`WholeModel` puts these together: the transaction and builder models, which take the signature scheme and the hashes
as arguments, are applied to the program's own key, hash and signature functions.

Not modelled: `examples`, `xerror` (an error is a string, its code is not kept), mocks,
printing (`PrintTrace`, `String` of scripts), TCP and dialling, time-outs
except the read deadline in C79, memory exhaustion, timing and side channels, goroutine scheduling except in `ProtoConc`.

## Properties

Supporting files in brackets. The last column names the obstacle or the method; refutations are listed below.

| id | files | how it is proved |
|----|-------|------------------|
| C01-C04 | Buffer (`BufferMore`, `Codec`), `TightProps` | little-endian digits; induction over sequences of typed operations against a queue; exact panic condition |
| C05-C06 | Base58 (`BigInt`) | digits and numbers in base 256 and 58, leading zeros; hash is a variable |
| C07-C09, C121 | Bech32 (`Bech32Poly`, `Bech32Code`) | linearity of polymod over GF(2) from bitwise reasoning; up to four errors: for each distance between the last two, what all others leave modulo their effects is computed and seen to be distinct |
| C10-C11 | Witness | bit-stream specification of convertBits with its unmasked accumulator |
| C12 | Hex | reversal and nibble tables |
| C13-C14, C80 | Address | composition of C05-C10; bounds on the value fix the first character |
| C15-C17 | Script, `Lock*`, `ScriptNum*` | inversion of the four templates; sign-magnitude digits |
| C18-C21 | Script | case analysis on the push form; induction on instruction lists |
| C22-C29 | Vm (`VmSig`, `VmCond`, `VmPanic`, `VmLock`, `VmMore`) | step invariants; greedy matching equals order-preserving choice; simulation of structured programs; symbolic runs of the templates |
| C30-C35, C81 | Tx (`TxSig`) | printer and parser inversion per field, lifted to lists; independent wire format |
| C36-C40 | Tx (`TxSig`) | independent preimages (legacy and BIP 143), injectivity of concatenated encodings; invariant over histories of digest calls |
| C41-C45, C82 | TxSign (`TxSign2`-`4`, `VmCalls`) | the signature scheme is a variable with sign-then-verify as hypothesis; caches threaded through the engine's calls |
| C46-C50, C83, C84 | Builder (`BuilderCalls`, `BuilderSign`, `BuilderMore`, `FeeProofs`, `CountProps`) | the builder after any sequence of calls; int64 wrap-around; Flocq for the fee |
| C51-C53 | Merkle (`MerkleRoot`) | induction on levels; reduction to explicit collisions |
| C54-C57, C95, C96 | Bip32 | field-wise round trip; homomorphism of C69; path parser; independent BIP 32 formulas |
| C58-C59, C85 | Bip39 (`Bip39More`, `Bip39Lists`) | base-2048 digits; any list of distinct space-free words, and the three shipped lists are such |
| C60-C61 | Paillier (`NumTheory`) | binomial and Fermat modulo N^2 |
| C62-C63 | MpcEcdsa, MpcAdaptor | bounds exclude wrap-around modulo the Paillier modulus; algebra modulo the order |
| C64-C65, C91, C92 | Ecdsa (`EcdsaNonce`) | cyclic group algebra; the nonce loop against RFC 6979 |
| C66-C67, C94 | Schnorr, MpcSchnorr | algebra; exact acceptance conditions |
| C68-C69, C88-C90 | Secp (`EcGroup`, `Fp`, `SecpGroup`, `SecpLink`, `SecpOrder*`, `SecpPrimes`, `SecpCyclic`) | associativity by complete projective formulas; Pocklington certificates; N*G = 0 by a checked chain of 297 steps; counting cosets |
| C70, C93 | PubKey | square roots modulo P; exact set of accepted strings |
| C71 | Der | independent DER specification; exact set of accepted strings |
| C72 | Ripemd | invariant: state is the compression of the full blocks and the remaining bytes; independent transcription of the paper |
| C73 | Pbkdf2 | loop invariants against RFC 8018 |
| C74-C78, C86, C87 | Proto (`ProtoMore`, `ProtoStream`, `TightProps`) | printer and parser inversion; all ways of cutting a stream; independent wire format |
| C79 | `ProtoConc` | transition system of mutex, reader and senders; invariants over all schedules |
| C97-C98 | Whole | composition: C41-C45, C82, C84 with C64, C70, C71, C72; inversion of accepted runs to an ECDSA equation |
| C99-C100 | Vm (`VmTruth`), `TightProps` | the verdict of a run from its final stack; CHECKSIG family step by step, with the digest asked for |
| C101 | `EmbedProofs`, `EmbedProps` | signatures made outside (two-party ECDSA, C62) placed by `EmbedIdxSignature` and accepted by the engine |
| C102 | `WalletProps` | composition: BIP 32 children on both sides (C55), addresses and locks (C13, C15), builder and verification (C98) |
| C103 | `SeedModel`, `SeedProps` | composition of C58, C73, C85, C95 |
| C104 | `MpcLeakProps` | the plaintext of the phase 4 answer in base R.x; refuted for all keys |
| C105-C106 | `MpcRogueProps` | group law; algebra over two shares; refuted for all keys |
| C107-C108 | `AsmSpec`, `AsmProofs`, `AsmProps` | induction on the words; the listing of each instruction is decodable; refuted by witnesses |
| C109-C110 | `RandModel`, `RandProps`, `TightProps` | pigeonhole on 2^31 - 2 seeds; disjoint word lists; refuted for all generators and clocks |
| C111-C112 | `RpcModel`, `RpcSpec`, `RpcProofs`, `RpcProps` | induction on the fields of the answer; refuted for all answers of a kind |
| C113 | `TxReadSpec`, `TxReadProofs`, `TxReadProps` | inductive grammar; combinators that preserve soundness and completeness of a reader |
| C114 | `ProtoReadSpec`, `ProtoReadProofs`, `ProtoReadProps` | the same for payloads; composed with the framing of C77 |
| C115 | `MemModel`, `MemSpec`, `MemProofs`, `MemProps` | Go slices as regions of arrays in a heap; false because append writes into spare capacity |
| C116 | same | two slices in one heap; agreement with the list model |
| C117 | `TraceModel`, `TraceSpec`, `TraceProofs`, `TraceProps` | simulation of the loop without tracing; relation between a run and its rows |
| C118 | `ReuseModel`, `ReuseSpec`, `ReuseProofs`, `ReuseProps` | invariant over all buffers and returned slices; false after Reset |
| C119 | `InPlaceModel`, `InPlaceProofs`, `InPlaceProps` | frame lemmas for append; buffers stay disjoint |
| C120 | `TypoSpec`, `TypoProofs`, `TypoProps` | from the code distance and the list of accepted forms (C80) |
| C122, C123 | `LifeModel`, `LifeSpec`, `LifeProofs`, `LifeProps` | invariant over call sequences; equal answers of two closed objects |
| C124-C126 | `ReceiveSpec`, `ReceiveProofs`, `ReceiveProps` | signed inputs survive encoding, decoding and SetTxIn; exact panic condition |
| C127, C128 | `UsedModel`, `UsedSpec`, `UsedProofs`, `UsedProofs2`, `UsedProps`, `ReadAgainProps` | objects with nil slots and cached digests; readers on every prefix of an encoding |
| C129 | `OptionSpec`, `OptionProofs`, `OptionProps` | the exact state after any sequence of calls; refuted for all sequences of a kind |
| C130 | `MallSpec`, `MallProofs`, `MallProps` | the engine depends on the hasher only pointwise; refuted for all accepted transactions of a kind |
| C131, C132 | `ShowModel`, `ShowSpec`, `ShowProofs`, `ShowProps` | the lines of the text are read back one by one; listings are injective (C108) |
| C133, C134 | `BlockModel`, `BlockSpec`, `BlockProofs`, `BlockProps` | each field of an object is decided on its own (`run_split`); an amount below 2^52 over 10^8 is one rounding, within half a satoshi |
| C135, C136 | `SpendSpec`, `SpendProofs`, `SpendProps` | exact conditions under which a builder builds; outputs of earlier transactions as coins |
| C137, C138 | `AmountSpec`, `AmountProofs`, `AmountProps` | lock times against the network's rule; amounts noted at inputs and what signatures say of them |
| C139 | `NetSpec`, `NetProofs`, `NetWrong`, `NetProps` | signed transactions against the rules of the network, written down independently of the library |
| C140 | `BindProofs`, `BindProps`, `FourProps` | the hashes one signature verifies for; at most four for any r |
| C141 | `TakeSpec`, `TakeProofs`, `TakeProps` | transactions of any maker that meet the rules of `NetSpec`: read, completed and verified |
| C142 | `JointProofs`, `JointProps` | jointly signed transactions (C62, C63, C101) against the rules of `NetSpec` |
| C143 | `FormSpec`, `FormProofs`, `FormProps` | inputs in relay form, right or wrong: Verify accepts exactly what `NetSpec` accepts |
| C144 | `OneKeyProofs`, `OneKeyProps` | a signature fits exactly two keys |
| C145 | `OrderProofs`, `OrderProps` | multisig inputs verify exactly if signed in the order of the script |
| C146 | `AgainProofs`, `AgainProps` | SignIndex for different inputs commutes for one type, not for mixed types; signing twice is signing once |
| C147 | `MoveProps`, `MoveWitnessProps` | With a type other than ALL one accepted P2PKH signature spends every output of the key, and SINGLE on a witness key hash lets all outputs be replaced; with ALL place, inputs, amount and outputs are fixed or the signature fits two digests |
| C148 | `LeafProps` | A plain child's secret and the extended public key give the parent's secret; a hardened child's secret is free up to one HMAC value |
| C149 | `AloneProps` | One message signed alone and with a partner gives the private key away, for Schnorr and ECDSA |
| C150 | `KeylessProps` | Signing with no keys panics on key hashes and passes on script hashes, where the result verifies; the builder without keys reports it |
| C151 | `WtxidProps` | `WitnessHash` is the wtxid of transactions built and signed here, and not of received or unsigned ones |
| C152 | `TrezorProps` | The seed of a new mnemonic is the one under the password "TREZOR", not the one of the words alone |
| C153 | `WtxidProps` | `SetVersion` and `SetLockTime` change the four bytes of their field and nothing else |
| C154 | `DepthProps` | The depth is the number of steps modulo 256; children of depth 255 come out as master keys with a parent |
| C155 | `CipherProps` | Paillier operations on arbitrary arguments |
| C156 | `CoordModel`, `CoordProps` | coordinates of a key as bytes |
| C157 | `TypeProps` | signature types other than ALL against BIP 143 and the original digest |
| C158 | `ByteProps` | the type at the end of a signature against the one asked for |
| C159 | `PrefixProps` | first characters and lengths of addresses and extended keys |
| C160 | `MixProps` | addresses given as extended keys and the other way round |
| C161 | `RateProps` | the fee a built transaction pays against the rate it was told |
| C162 | `GrowProps` | fees of growing sizes, rates and transactions |
| C163 | `NormProps` | seeds of mnemonics and passwords that are not in normal form |
| C164 | `LineProps` (with `FeeProofs` for the floats, `ShowProofs` for the lines) | the relative error of the quotient is at most 2^-53, too little to pass over a whole number in n * size; C112_absent_fields and C112_neighbour_text are in `AbsentProps` |
| C165 | `SizesProps` (with C35), `ShareProps` | every line of the sums is a line of the text; the rest is arithmetic |

## Defects found (theorems `..._refuted` and exact conditions)

* Panics on untrusted input: `ReadVarBytes` with a length from 2^63 (C04); `WitnessDecode("bc1gmk9yu")` (C11);
  `ScriptNum(-2^63)` (C17); CHECKMULTISIG with a negative count or an empty signature (C22); transaction counts
  above 2^43 (C33); a 33-byte reject frame crashes the node (C86); path `m/` (C57); Schnorr signatures shorter than 32
  bytes (C71).
* Spending without authority: unlocking script `00 63` spends any P2PKH output (C25); a P2SH output without further
  stack items is spent without running its script (C27), and hence multisig outputs are spent with the redeem script
  alone (C98); P2WSH outputs need no signature (C45); OP_RETURN does nothing (C29); a run that ends with an empty
  stack is accepted (C99).
* Signature hashes: types other than ALL commit to nothing in the legacy form (C37), so one such signature can be used
  to spend all outputs of its key (C147); SINGLE is not BIP 143's (C40); stale digest caches (C39).
* Wrong values: script bytes 00 and 81 and the integer -1 (C18, C19); OP_CODESEPARATOR never removed (C21);
  re-serialisation drops the witness (C32); sizes (C35, C49, C75); negative fees and amounts (C47); fee off by one
  (C83); multisig parameters unchecked (C50); Merkle roots at six leaves, and forged proofs (C51, C53); bech32
  addresses with another prefix (C80); mnemonic decoders disagree (C85), and a seed is made of twelve words with a wrong
  checksum behind three spaces (C103).
* Parsing: the readers accept non-minimal sizes and bytes after the transaction, and one string in both formats
  (C113); lists that claim 2^63 entries are read as empty, and the stop hash of getheaders is lost (C114).
* `append` on a slice of the caller overwrites the bytes behind it when the slice has spare capacity: embedding one of
  two signatures stored together destroys the other, and verifying the same two slices twice can first reject and then
  accept (C115).
* Since `DecodeAddress` ignores the human-readable part, an `l` mistyped as `1` can turn a P2WSH address into a P2WPKH address of somebody else, or crash the decoder (C120; the four-error guarantee of the checksum is lost).
* A party object keeps the hash slice of the caller and stores it before Phase2 can fail, so Phase4 may sign another message with an old nonce; for Schnorr parties this gives the key away (C122).
* `ScriptBuilder.Reset` keeps the array, so the next script is written over the one returned before (C118).
* Traces list the instructions of branches not taken as executed, and show an empty stack like an empty item (C117).
* Text: quoted words that are not hex are cut short, -2^63 panics, extra blanks are refused (C107); a listing
  assembles to another script (C108).
* Randomness: new mnemonics come from a 31-bit seed taken from the clock (C109); choosing a language invalidates the
  mnemonics of the others (C110).
* RPC: an answer without result and error panics, the id and the status are ignored (C111); the neighbours' hashes
  in a header are decoded as base64 (C112).
* Signing: a redeem mismatch is swallowed (C44).
* Keys: prefix 05 accepted (C70); extended keys of any version, and secrets 0 and n accepted (C96); invalid
  children returned (C95), where the two sides then differ (C55); path numbers from 2^31 wrap (C57).
* Signatures: DER junk accepted (C71); Schnorr `Verify` rejects its own signatures when the challenge is zero and
  accepts s = n (C66); orders of 257 bits (C92).
* Two-party protocols: Schnorr parties hash their own R (C67) and calling phase 4 twice reveals the key (C94);
  a party that answers phase 1 last owns the shared Schnorr key alone (C105); two runs on one message reveal a Schnorr
  party's key (C106); the ECDSA answer of phase 4 is not masked and reveals the private key (C104); ECDSA does not
  reduce R.x (C62); the adaptor secret is recovered up to sign from the published signature (C63); Paillier's
  blinding factor may share a factor with N (C60).
* Protocol: ports cut off and little-endian, hashes lost (C74, C87); pings arrive without nonce (C76); magic
  ignored (C77); limits per call (C78); the mutex is held while waiting for the peer (C79).
* The receiver of a transaction: a witness multisig of 17 to 20 keys verifies for its signer and for nobody else (C124);
  witness key inputs may carry any signature script and further witness items, and the identifier is then computed wrongly
  (C125); `SetTxIn` panics when a witness key input has fewer than two witness items (C126).
* A used Transaction object: the cached digests survive Deserialize, so after one verified transaction the same inputs
  with any other outputs are accepted; empty lists leave the old inputs or outputs (C127); an error in the middle of a
  list leaves nil pointers on which ID panics (C128).
* Builder: `AddCoin` resets the signature type and the key form, so options set before the coin are lost, as are a coin
  or a payment followed by another before `Then` (C129).
* Anyone can give a signed transaction another identifier: extra pushes in front of a signature script are accepted, and
  so is the negated signature (C130).
* `ToString` panics on unsigned transactions with a witness key input (C131); its text leaves out version, lock time,
  sequence numbers and all witness items but the first (C132).
* `GetBlock` fails for every block outside the best chain: the node's -1 confirmations do not fit the unsigned field (C133);
  `BlockHeaderResult` has a signed one.
* `SetLockTime` of the builder has no effect: every input gets sequence 0xffffffff (transaction.go:22, 85), which switches
  the lock time off (C137).
* Amounts of inputs without witness are not covered by the signatures, so `Fees` of a verified transaction can be anything
  (C138; the same holds of the protocol itself, but a signer who trusts noted amounts pays it).
* `RawSignatureHash` signs the redeem script of every input that has one (transaction.go:293-294), also where the output is
  P2PKH: the library's `Verify` accepts, the network does not (C139).  The same goes for uncompressed keys in P2WPKH inputs
  and P2SH scripts over 520 bytes, which the library signs and verifies without complaint.
* `SignIndex` puts the signatures in the order of the keys it is given, without looking at the script, and reports success;
  any order but that of the script makes an input nobody accepts (C145).
* The order in which witness inputs with different signature types are signed changes the signatures, and `Verify` refuses
  the properly signed order (C146, from the kept digests of C39).
* Nonces of the two-party protocols depend on the key and the message alone (mpc_schnorr.go:60, mpc_ecdsa.go:85) and are
  those of the single-party signatures: signing one message alone and with a partner reveals the key (C149).
* `SignIndex` with no keys panics for key-hash inputs (script_p2pkh.go:60, script_p2wpkh_v0.go:54) and succeeds for
  script-hash inputs, whose transaction `Verify` then accepts without a signature; `AddKeys` with an empty slice gets
  there through the builder, which checks for a nil slice only (transactionbuilder.go:321) (C150).
* `WitnessID` of a received transaction is its plain id: `Serialize` looks at the script code, which only `SetTxIn` sets,
  not at the witness (transaction.go:199-206). C151.
* `BIP39.Seed` derives under the fixed password "TREZOR", that of the published test vectors (bip39.go:425-429): the words
  alone, entered in another wallet, lead to other keys. C152.
* `EstimateNormalSize` is short whenever there are more outputs than inputs: it leaves out the length byte of each output
  script (estimate.go:115-121). C49.
* The depth of extended keys wraps: a child of a key of depth 255 has depth 0 and a parent, which BIP 32 calls invalid, and
  such strings are imported (hdkey.go:140, 257-322). C154.
* C155: `paillier.PubKey.Sub` panics when the second ciphertext shares a factor with N, `DivPlaintext` panics when the divisor does, `MultPlaintext` then returns nil without an error for a negative factor, and `Add` may return 0, which is no ciphertext (`C155_answers_refuted`).
* C156: `PubKey.XBytes` and `YBytes` drop leading zeros, so that one coordinate in 256 is shorter than 32 bytes (`C156_coordinates_refuted`).
* C157: signed with a type other than ALL an input without witness, and signed with SINGLE a witness input, pass `Verify` but not the network (`C157_legacy_refuted`, `C157_single_refuted`).
* C158: a signature type over 255 is not refused; the digest is made for the whole number and only its low byte kept, so the result does not verify (`C158_wide_type_refuted`).
* C161: with `SetRelayFeePerKb` the fee is worked out before change and data outputs are added, so usual transactions pay below the rate: 192 for 226 bytes at one satoshi a byte, 43 for at least 119 with a witness input (`C161_pays_rate_refuted`).
* C163: `NewSeed` does not normalise its arguments (bip39.go:269-271): passwords with composed letters, and mnemonics with the wide spaces of Japanese text, which are accepted, lead to other keys than in other wallets (`C163_normal_refuted`).
* C164, C165: `Vsize` (transaction.go:793-794) rounds down where its comment says up, and marker and flag are not counted, so the virtual size of every transaction with native witness inputs is one or two too small (`C165_short_partial`), and the fee rate printed for such a transaction can be too high (`C164_rate_refuted`).

## Tests against wrong programs

`seeded/LOG.jsonl` has one line per attempt: the definition edited, the edit, the claim it breaks, the lemmas whose
proofs failed, the property theorems that rest on them, and what was tightened. An edit is applied to a copy of the
model, and every lemma that mentions the edited definition, directly or through definitions, is recompiled. Edits
with ids `a_…` were made by a program: one operator, number, branch or error of a definition no earlier edit had touched.
