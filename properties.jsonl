{"id": "C01", "title": "Scalar arithmetic is arithmetic mod the group order", "statement": "Add, Sub, Neg, Mul, Set, Clone, SetInt64, Zero, One, SetBytes and IntToScalar return the canonical representative in [0,N) of the mathematical result mod N, whatever integers the operands currently hold (reduced, unreduced or negative). Equal is true iff the operands are congruent mod N.", "quantifier": "all integer operands, all byte strings, all int64 values", "why_tests_cant": "The input space is 2^256-sized (or unbounded); tests sample a handful of values.", "anchors": ["ch/core/services/signatures/secp256k1/scalar.go: Add,Sub,Neg,Mul,Set,Clone,SetInt64,SetBytes,IntToScalar,Equal,newScalar,modG"]}
{"id": "C02", "title": "Scalar division and inversion", "statement": "For every b not divisible by N, Div(a,b) returns the unique c in [0,N) with c*b = a mod N and Inv(b) the unique inverse in [1,N). Div and Inv panic when the divisor's stored integer is 0. (For a stored non-zero multiple of N, Div panics and Inv leaves its receiver unchanged; no API result is such an integer.)", "quantifier": "all integers a, b", "why_tests_cant": "The input space is 2^256-sized (or unbounded); tests sample a handful of values.", "anchors": ["ch/core/services/signatures/secp256k1/scalar.go: Div,Inv"]}
{"id": "C03", "title": "Scalar binary encoding round-trips", "statement": "MarshalBinary of any scalar succeeds with exactly 32 bytes, the big-endian value mod N; UnmarshalBinary of it gives back the scalar mod N; UnmarshalBinary fails iff the input is not 32 bytes long and then changes nothing; two scalars have equal encodings iff they are Equal.", "quantifier": "all scalars, all byte strings", "why_tests_cant": "The input space is 2^256-sized (or unbounded); tests sample a handful of values.", "anchors": ["ch/core/services/signatures/secp256k1/scalar.go: MarshalBinary,UnmarshalBinary,MarshalSize"]}
{"id": "C04", "title": "Scalar decoding is canonical (expected to fail)", "statement": "Distinct 32-byte strings decode to distinct scalars. The code reduces mod N silently, so this is false; a 32-byte string shares its scalar with a different 32-byte string iff its value is >= N or < 2^256-N.", "quantifier": "all pairs of 32-byte strings", "why_tests_cant": "The input space is 2^256-sized (or unbounded); tests sample a handful of values.", "anchors": ["ch/core/services/signatures/secp256k1/scalar.go: UnmarshalBinary"]}
{"id": "C05", "title": "Point decoding accepts exactly the curve's compressed points", "statement": "UnmarshalBinary succeeds iff the input has 33 bytes, the last is 0 or 1, and x^3+7 is a square mod p for x the first 32 bytes big-endian mod p; the result is then the curve point with that x and the parity given by the last byte.", "quantifier": "all byte strings", "why_tests_cant": "Rejecting a valid x (a wrong square root test) or accepting an off-curve x would hit specific residues no sample finds.", "anchors": ["ch/core/services/signatures/secp256k1/point.go: UnmarshalBinary", "ch/core/services/signatures/secp256k1/field.go: maybeSqrtInField,rightHandSide"]}
{"id": "C06", "title": "Point binary encoding round-trips", "statement": "For every point of the curve, MarshalBinary succeeds with 33 bytes and UnmarshalBinary of those bytes gives exactly that point; equal encodings imply equal points.", "quantifier": "all curve points", "why_tests_cant": "The input space is 2^256-sized (or unbounded); tests sample a handful of values.", "anchors": ["ch/core/services/signatures/secp256k1/point.go: MarshalBinary,UnmarshalBinary,MarshalTo,UnmarshalFrom"]}
{"id": "C07", "title": "MarshalBinary fails exactly off the curve, including at the identity", "statement": "MarshalBinary returns an error iff the coordinates are not on y^2=x^3+7 mod p. In particular the group identity, a value every group operation can return, has no encoding.", "quantifier": "all coordinate pairs", "why_tests_cant": "The input space is 2^256-sized (or unbounded); tests sample a handful of values.", "anchors": ["ch/core/services/signatures/secp256k1/point.go: MarshalBinary,Null"]}
{"id": "C08", "title": "Point decoding is canonical (expected to fail)", "statement": "Distinct 33-byte strings that decode do so to distinct points. False: x is reduced mod p, so x and x+p (when below 2^256) give the same point; this is the only ambiguity.", "quantifier": "all pairs of byte strings", "why_tests_cant": "The input space is 2^256-sized (or unbounded); tests sample a handful of values.", "anchors": ["ch/core/services/signatures/secp256k1/point.go: UnmarshalBinary", "ch/core/services/signatures/secp256k1/field.go: SetBytes"]}
{"id": "C09", "title": "Points form an abelian group", "statement": "Curve points plus the identity are closed under Add, Sub, Neg and Mul; Add is associative and commutative with identity Null and inverse Neg; Sub(a,b) = Add(a,Neg(b)); results are always coordinate-reduced.", "quantifier": "all points (all triples for associativity), including equal and opposite ones", "why_tests_cant": "Associativity over all special cases (doubling, opposite points, identity) cannot be sampled exhaustively.", "anchors": ["ch/core/services/signatures/secp256k1/point.go: Add,Sub,Neg,Null,Mul"]}
{"id": "C10", "title": "Scalar multiplication is a Z/N action and the group has prime order N", "statement": "For all points P (not only multiples of the base point) and scalars a,b: Mul(a+b,P)=Add(Mul(a,P),Mul(b,P)), Mul(a*b,P)=Mul(a,Mul(b,P)), Mul(1,P)=P, Mul(0,P)=Null, Mul(-a,P)=Neg(Mul(a,P)), with scalar arithmetic mod N; Mul(s,P) is Null only if s = 0 mod N or P is Null; every point is a multiple of the base point.", "quantifier": "all scalars and points", "why_tests_cant": "The input space is 2^256-sized (or unbounded); tests sample a handful of values.", "anchors": ["ch/core/services/signatures/secp256k1/point.go: Mul,Base", "ch/core/services/signatures/secp256k1/scalar.go: MarshalBinary"]}
{"id": "C11", "title": "Key pairs are sound", "statement": "For every scalar s not 0 mod N the public key Mul(s,nil) is on the curve, accepted by ValidPublicKey and encodable, and distinct scalars in [0,N) have distinct public keys.", "quantifier": "all scalars", "why_tests_cant": "The input space is 2^256-sized (or unbounded); tests sample a handful of values.", "anchors": ["ch/core/services/signatures/secp256k1/point.go: Mul,ValidPublicKey,ScalarToPublicPoint,Generate", "siggy/src/base/base.go: compute_pub", "siggy/src/keygen/keygen.go: main"]}
{"id": "C12", "title": "ValidPublicKey decides curve membership", "statement": "ValidPublicKey(p) is true iff p is a non-nil secp256k1 point whose coordinates satisfy y^2=x^3+7 mod p; nil, typed nil and foreign point types give false, never a panic.", "quantifier": "all dynamic values of the Point interface", "why_tests_cant": "The input space is 2^256-sized (or unbounded); tests sample a handful of values.", "anchors": ["ch/core/services/signatures/secp256k1/point.go: ValidPublicKey,IsSecp256k1Point"]}
{"id": "C13", "title": "ValidPublicKey means usable on-chain (expected to fail)", "statement": "The documentation says true iff usable by the optimised on-chain verifier, which (half_q in ethschnorr2_test.go) needs x < floor(N/2)+1. The code accepts points with larger x.", "quantifier": "all points", "why_tests_cant": "The input space is 2^256-sized (or unbounded); tests sample a handful of values.", "anchors": ["ch/core/services/signatures/secp256k1/point.go: ValidPublicKey", "ch/core/services/signatures/ethschnorr/ethschnorr2_test.go: half_q", "siggy/src/base/base.go: chain_valid"]}
{"id": "C14", "title": "Embed and Data round-trip", "statement": "If Embed(data,stream) returns for some stream, the result is a curve point and Data() gives back exactly data; Embed panics iff data is longer than EmbedLen()=29 bytes, or the stream's first 10000 candidates all fail; Data fails iff the first x byte exceeds 29.", "quantifier": "all data of all lengths, all random streams", "why_tests_cant": "The input space is 2^256-sized (or unbounded); tests sample a handful of values.", "anchors": ["ch/core/services/signatures/secp256k1/point.go: Embed,Data,EmbedLen"]}
{"id": "C15", "title": "Uncompressed encoding round-trips and validates", "statement": "LongUnmarshal(LongMarshal(P)) = P for every curve point; LongMarshal has 64 bytes; LongUnmarshal succeeds iff the input has 64 bytes and its halves mod p are on the curve; SetCoordinates panics iff the coordinates mod p are off the curve.", "quantifier": "all points, all byte strings, all integers", "why_tests_cant": "The input space is 2^256-sized (or unbounded); tests sample a handful of values.", "anchors": ["ch/core/services/signatures/secp256k1/point.go: LongMarshal,LongUnmarshal,SetCoordinates"]}
{"id": "C16", "title": "PublicKey address agrees with the point's address", "statement": "For a compressed key that decodes to P, Address() = EthereumAddress(P) and Hash() = keccak of P's uncompressed form; for a key that does not decode, Address() is all zeros and Hash errors.", "quantifier": "all 33-byte keys, any hash function with 32-byte output", "why_tests_cant": "The input space is 2^256-sized (or unbounded); tests sample a handful of values.", "anchors": ["ch/core/services/signatures/secp256k1/public_key.go: Address,Hash,Point", "ch/core/services/signatures/secp256k1/point.go: EthereumAddress", "ch/core/utils/utils.go: Keccak256,MustHash"]}
{"id": "C17", "title": "PublicKey text and database forms round-trip", "statement": "UnmarshalText(MarshalText(k)), SetFromHex(String(k)) and Scan(Value(k)) all give back k; parsing succeeds iff the text is 0x or 0X followed by exactly 66 hex digits; a failed parse leaves the receiver unchanged.", "quantifier": "all 33-byte keys, all strings, all receivers", "why_tests_cant": "The input space is 2^256-sized (or unbounded); tests sample a handful of values.", "anchors": ["ch/core/services/signatures/secp256k1/public_key.go: String,SetFromHex,MarshalText,UnmarshalText,Value,Scan,NewPublicKeyFromHex,NewPublicKeyFromBytes"]}
{"id": "C18", "title": "Random picks are in range for every stream", "statement": "Whatever bytes the stream yields, when Scalar.Pick returns it is in [1,N), when Point.Pick returns it is a curve point, and Generate returns after one iteration with a valid matching pair.", "quantifier": "all random streams", "why_tests_cant": "The input space is 2^256-sized (or unbounded); tests sample a handful of values.", "anchors": ["ch/core/services/signatures/secp256k1/scalar.go: Pick", "ch/core/services/signatures/secp256k1/point.go: Pick,Generate", "ch/core/services/signatures/secp256k1/field.go: Pick"]}
{"id": "C19", "title": "RepresentsScalar is a range check (expected to fail)", "statement": "RepresentsScalar(i) is true iff 0 <= i < N. The code omits the lower bound: negative integers pass.", "quantifier": "all integers", "why_tests_cant": "The input space is 2^256-sized (or unbounded); tests sample a handful of values.", "anchors": ["ch/core/services/signatures/secp256k1/scalar.go: RepresentsScalar"]}
{"id": "C20", "title": "Suite.New constructs by type (expected to fail)", "statement": "Suite.New(t) returns a fresh Scalar for the Scalar type and a fresh Point for the Point type. The reflect types it compares with are those of nil interfaces, so it returns nil for both.", "quantifier": "all reflect types", "why_tests_cant": "A constant fact about all types, including those no test passes.", "anchors": ["ch/core/services/signatures/secp256k1/suite.go: New,tScalar,tPoint"]}
{"id": "C21", "title": "Signatures verify", "statement": "For every private scalar not 0 mod N, every message in [0,2^256) and every nonce the random stream yields, Sign succeeds and Verify(private*G, msg, sig) accepts. A missing key or a scalar of another group is refused with an error, without drawing randomness.", "quantifier": "all keys, messages, nonces, hash functions", "why_tests_cant": "The input space is 2^256-sized (or unbounded); tests sample a handful of values.", "anchors": ["ch/core/services/signatures/ethschnorr/ethschnorr.go: Sign,Verify,ChallengeHash"]}
{"id": "C22", "title": "Verify accepts exactly the Schnorr relation", "statement": "Verify accepts iff 0 <= s < N, the public key is a secp256k1 curve point, 0 <= msg < 2^256, and the address in the signature is that of s*G + e*public for the challenge e of (public, address, msg).", "quantifier": "all public values, messages and signatures", "why_tests_cant": "The input space is 2^256-sized (or unbounded); tests sample a handful of values.", "anchors": ["ch/core/services/signatures/ethschnorr/ethschnorr.go: Verify,ValidSignature"]}
{"id": "C23", "title": "Sign rejects messages that are not uint256 (expected to fail)", "statement": "ChallengeHash and hence Sign return an error when msg < 0 or msg >= 2^256. The guard is conjoined with err != nil, so it never fires: Sign returns a signature that Verify then rejects for every key and nonce.", "quantifier": "all out-of-range messages", "why_tests_cant": "The input space is 2^256-sized (or unbounded); tests sample a handful of values.", "anchors": ["ch/core/services/signatures/ethschnorr/ethschnorr.go: ChallengeHash,Sign"]}
{"id": "C24", "title": "The challenge binds key, message and commitment", "statement": "The byte string hashed for the challenge is injective in (public key, |msg|, commitment address): distinct triples hash distinct strings, although the message is not padded. The sign of msg is not bound: msg and -msg share a challenge.", "quantifier": "all pairs of triples", "why_tests_cant": "The input space is 2^256-sized (or unbounded); tests sample a handful of values.", "anchors": ["ch/core/services/signatures/ethschnorr/ethschnorr.go: ChallengeHash"]}
{"id": "C25", "title": "The challenge equals the on-chain challenge (expected to fail)", "statement": "For parity with the on-chain verifier the hash input must be x(32) || parity(1) || msg(32) || address(20). The code writes msg without left padding: the inputs agree iff msg >= 2^248 and differ, in length, for every smaller message.", "quantifier": "all messages in [0,2^256)", "why_tests_cant": "The input space is 2^256-sized (or unbounded); tests sample a handful of values.", "anchors": ["ch/core/services/signatures/ethschnorr/ethschnorr.go: ChallengeHash (comment NB)"]}
{"id": "C26", "title": "A reused nonce reveals the key; different nonces are needed", "statement": "If two signatures by one key use the same commitment secret and have different challenges e1 != e2, the private key equals (s1-s2)/(e2-e1) mod N: recoverable from the two public signatures. Conversely, for one (key,msg,nonce) the signature is unique.", "quantifier": "all keys, messages, nonces", "why_tests_cant": "The input space is 2^256-sized (or unbounded); tests sample a handful of values.", "anchors": ["ch/core/services/signatures/ethschnorr/ethschnorr.go: Sign"]}
{"id": "C27", "title": "No second response for one commitment", "statement": "If Verify accepts (addr,s) and (addr,s') for the same key and message with s != s', then two different curve points have the same Ethereum address (a keccak collision).", "quantifier": "all signatures", "why_tests_cant": "The input space is 2^256-sized (or unbounded); tests sample a handful of values.", "anchors": ["ch/core/services/signatures/ethschnorr/ethschnorr.go: Verify"]}
{"id": "C28", "title": "Verify has no side effect on its arguments", "statement": "Verify leaves the integer inside the signature, the message and the public key's coordinates unchanged, although it wraps the signature's own big.Int as a scalar and reduces it in place.", "quantifier": "all arguments", "why_tests_cant": "Aliasing bugs depend on which value is passed; only values outside [0,N) would expose them.", "anchors": ["ch/core/services/signatures/ethschnorr/ethschnorr.go: Verify", "ch/core/services/signatures/secp256k1/scalar.go: IntToScalar"]}
{"id": "C29", "title": "Accepted partial signatures are correct", "statement": "Whatever bytes a peer sends, if ProcessPartialSig accepts a partial with index i then its value equals r(i+1) - h*f(i+1) mod N, where f and r are the long-term and nonce sharing polynomials behind the commitments and h the challenge, and it carries a signature, by the participant of that index, over the index, the value and the session id. The session id binds both commitment lists: unless their encodings collide under the hash, a partial made in a session with other long-term or nonce commitments (as many of the former) is refused.", "quantifier": "all partial signatures, including adversarial ones; all polynomials, sessions", "why_tests_cant": "Adversarial inputs are unbounded.", "anchors": ["ch/core/services/signatures/ethdss/ethdss.go: ProcessPartialSig"]}
{"id": "C30", "title": "Honest partial signatures are accepted", "statement": "The PartialSig output of any qualified participant holding its correct shares is accepted by every other participant of the same session that has not yet received one from it.", "quantifier": "all polynomials, participants, messages, nonces", "why_tests_cant": "The input space is 2^256-sized (or unbounded); tests sample a handful of values.", "anchors": ["ch/core/services/signatures/ethdss/ethdss.go: PartialSig,ProcessPartialSig"]}
{"id": "C31", "title": "The threshold signature verifies under the group key", "statement": "Whenever a participant with correct shares has at least T partials (its own and accepted ones, T at least the number of commitments), Signature() returns a signature that Verify accepts for the group public key and the (uint256) message, whatever order the partials came in and whatever else was sent.", "quantifier": "all sharing polynomials, thresholds, message sequences and orders", "why_tests_cant": "Needs Lagrange interpolation over all subsets and orders of shares.", "anchors": ["ch/core/services/signatures/ethdss/ethdss.go: Signature,EnoughPartialSig,ProcessPartialSig"]}
{"id": "C32", "title": "All participants produce the same signature", "statement": "Any two participants of a session that both reach T partials, from any two sets of signers, output the identical signature.", "quantifier": "all pairs of participants, all accepted subsets", "why_tests_cant": "The input space is 2^256-sized (or unbounded); tests sample a handful of values.", "anchors": ["ch/core/services/signatures/ethdss/ethdss.go: Signature"]}
{"id": "C33", "title": "A rejected partial signature changes nothing; accepted ones are counted once", "statement": "When ProcessPartialSig returns an error the DSS is unchanged. After any sequence of calls, each index occurs at most once among the collected partials, all received ones are from the qualified set and in range, and their number is the number of accepting calls (plus one once PartialSig was called).", "quantifier": "all call sequences", "why_tests_cant": "Invariant over unbounded histories.", "anchors": ["ch/core/services/signatures/ethdss/ethdss.go: ProcessPartialSig,PartialSig"]}
{"id": "C34", "title": "Signature availability", "statement": "Signature() fails with not enough partial signatures iff fewer than T partials were collected; with T >= 1 and at least T collected it always succeeds.", "quantifier": "all call sequences, all T", "why_tests_cant": "Invariant over unbounded histories.", "anchors": ["ch/core/services/signatures/ethdss/ethdss.go: Signature,EnoughPartialSig"]}
{"id": "C35", "title": "PartialSig is idempotent on the share", "statement": "Calling PartialSig again adds no partial and returns the same partial value, whatever was processed in between; only the outer authentication signature differs.", "quantifier": "all call sequences", "why_tests_cant": "The input space is 2^256-sized (or unbounded); tests sample a handful of values.", "anchors": ["ch/core/services/signatures/ethdss/ethdss.go: PartialSig"]}
{"id": "C36", "title": "ProcessPartialSig never panics (expected to fail)", "statement": "Every partial signature from the network yields nil or an error. False: a negative index passes findPub's bound check and panics; a partial whose Signature is nil panics once its session id matches.", "quantifier": "all partial signatures", "why_tests_cant": "The input space is 2^256-sized (or unbounded); tests sample a handful of values.", "anchors": ["ch/core/services/signatures/ethdss/ethdss.go: findPub,ProcessPartialSig", "ch/core/services/signatures/ethschnorr/ethschnorr.go: ValidSignature"]}
{"id": "C37", "title": "A document that is not a uint256 is refused before signing (expected to fail)", "statement": "A DSS for a message outside [0,2^256) refuses to issue partials. False: partials and a final signature are produced, and Verify rejects that signature in every case.", "quantifier": "all out-of-range documents", "why_tests_cant": "The input space is 2^256-sized (or unbounded); tests sample a handful of values.", "anchors": ["ch/core/services/signatures/ethdss/ethdss.go: PartialSig,Signature,hashSig", "siggy/src/signode/run_sig.go: _run_sig1"]}
{"id": "C38", "title": "Fill overwrites completely and independently of prior contents", "statement": "Fill(dst) writes exactly len(dst) bytes; the result does not depend on what dst held.", "quantifier": "all destination contents and lengths, all generator states", "why_tests_cant": "The input space is 2^256-sized (or unbounded); tests sample a handful of values.", "anchors": ["csprng/csprng/csprng.go: fill,Fill"]}
{"id": "C39", "title": "No keystream byte is ever output twice and no key is used for more than 1 MiB", "statement": "Over any sequence of Fill and XORKeyStream calls, the produced bytes are, in order, the keystream positions of successive fresh keys; each (key, position) is used at most once and each key for exactly its first 2^20 positions before the next is drawn.", "quantifier": "all call sequences with all lengths", "why_tests_cant": "Unbounded histories crossing the 1 MiB boundary at every offset.", "anchors": ["csprng/csprng/csprng.go: fill,renew"]}
{"id": "C40", "title": "XORKeyStream checks lengths first", "statement": "XORKeyStream(dst,src) panics iff len(dst) != len(src), in which case neither dst nor the generator changes; otherwise it behaves as Fill(dst), ignoring src.", "quantifier": "all lengths and states", "why_tests_cant": "The input space is 2^256-sized (or unbounded); tests sample a handful of values.", "anchors": ["csprng/csprng/csprng.go: XORKeyStream"]}
{"id": "C41", "title": "Protocol messages survive the wire format", "statement": "For deals, justifications, secret commits, complaint commits, reconstruct commits and partial signatures whose points are curve points and scalars reduced: converting to the wire struct succeeds and converting back gives the identical object.", "quantifier": "all messages of all six kinds, any number of commitments", "why_tests_cant": "The input space is 2^256-sized (or unbounded); tests sample a handful of values.", "anchors": ["siggy/src/protocol/dkg_dto.go: *_to_dto, dto_to_*", "siggy/src/protocol/dss_dto.go: partsig_to_dto,dto_to_partsig"]}
{"id": "C42", "title": "Malformed wire structs are rejected, never half-accepted", "statement": "A wire struct decodes iff every contained scalar is 32 bytes and every contained point decodes; otherwise the decoder returns an error (never a partial object, never a panic); decoded points are always on the curve and scalars in [0,N).", "quantifier": "all wire structs", "why_tests_cant": "The input space is 2^256-sized (or unbounded); tests sample a handful of values.", "anchors": ["siggy/src/protocol/dkg_dto.go: dto_to_deal,_dto_to_vss_deal,dto_to_pri_share,dto_to_commits"]}
{"id": "C43", "title": "Long-term shares survive save and load", "statement": "For every guest-to-share map with curve-point commitments and reduced shares, saving then loading yields the same map, and loading succeeds iff every local guest has an entry.", "quantifier": "all maps, any number of guests and commitments", "why_tests_cant": "The input space is 2^256-sized (or unbounded); tests sample a handful of values.", "anchors": ["siggy/src/signode/longterm_db.go: _lts_to_dto,_dto_to_lts,load_longterms,_verify_keys_subset"]}
{"id": "C44", "title": "Received messages are conserved", "statement": "For a run under any interleaving of timer ticks and arrivals, every received message is at any time exactly one of: handled (once), dropped as late, or buffered for a later stage; none is duplicated or lost.", "quantifier": "all interleavings and message sequences", "why_tests_cant": "Unbounded schedules.", "anchors": ["siggy/src/protocol/prot.go: _run_incoming_queue_consumer,_run_timed_steps"]}
{"id": "C45", "title": "Messages are handled only in their stage", "statement": "A message with op k is handed to stage k's processor only while the run is in stage k and not paused; messages of one stage are processed in arrival order.", "quantifier": "all interleavings", "why_tests_cant": "Unbounded schedules.", "anchors": ["siggy/src/protocol/prot.go: _run_incoming_queue_consumer,_process_msg"]}
{"id": "C46", "title": "Stages run once, in order", "statement": "Each stage's step is executed at most once, in increasing order, each before any message of that stage is processed; when the run terminates without being abandoned all stages have been executed.", "quantifier": "all interleavings", "why_tests_cant": "Unbounded schedules.", "anchors": ["siggy/src/protocol/prot.go: _run_timed_steps"]}
{"id": "C47", "title": "Stage schedule does not drift", "statement": "Stage k starts no earlier than run start + the sum of the earlier stages' timeouts (plus the 5 ms pause for k>0) and the run terminates no earlier than start + protocol_timeout; deadlines do not accumulate scheduling delays: stage k's deadline is exactly start + sum of timeouts up to k. protocol_timeout is 525 ms for DKG and 650 ms for DSS.", "quantifier": "all wake-up delays", "why_tests_cant": "Timing of every possible scheduler.", "anchors": ["siggy/src/protocol/prot.go: _run_timed_steps,protocol_timeout,ps"]}
{"id": "C48", "title": "Every run terminates", "statement": "Once started, a run reaches termination after at most 2*stages+1 timer wake-ups, whatever messages arrive in between and even if it is abandoned.", "quantifier": "all interleavings and message floods", "why_tests_cant": "Unbounded schedules.", "anchors": ["siggy/src/protocol/prot.go: _run_timed_steps"]}
{"id": "C49", "title": "No message leaves before its stage", "statement": "Every message handed to the network has op <= the sender's current stage; a message produced for a later stage is held and is sent exactly once, on entry to that stage; none is lost or duplicated.", "quantifier": "all interleavings and protocols", "why_tests_cant": "Unbounded schedules.", "anchors": ["siggy/src/protocol/prot.go: send,_flush_snd_buf"]}
{"id": "C50", "title": "Broadcast reaches every other member exactly once and never self", "statement": "broadcast addresses each member other than the sending guest exactly once, multicast each listed other member once per listing; neither ever addresses the sender; all carry the run's id, protocol and the guest as sender.", "quantifier": "all member counts and guests", "why_tests_cant": "The input space is 2^256-sized (or unbounded); tests sample a handful of values.", "anchors": ["siggy/src/protocol/prot.go: broadcast,multicast,_send1,_make_msg"]}
{"id": "C51", "title": "Abandonment is final", "statement": "Once a run is abandoned no step or processor is executed, no output is produced and no new message is created; only messages queued earlier may still be flushed; in the DKG and DSS protocols none is.", "quantifier": "all interleavings", "why_tests_cant": "Unbounded schedules.", "anchors": ["siggy/src/protocol/prot.go: abandon,_process_msg,_run_timed_steps"]}
{"id": "C52", "title": "Nothing is processed after termination", "statement": "After cleanup no processor is invoked on the run, whatever messages still arrive, so protocol data freed by cleanup is never touched.", "quantifier": "all late message sequences", "why_tests_cant": "Unbounded schedules.", "anchors": ["siggy/src/protocol/prot.go: _run_timed_steps", "siggy/src/protocol/dss.go: dss_cleanup,pr_partsig"]}
{"id": "C53", "title": "Sender fields are bound", "statement": "A processor is only invoked with a message whose SenderIndex is in range and equals the member index embedded in the payload, for every DKG and DSS message kind.", "quantifier": "all network messages", "why_tests_cant": "Adversarial inputs are unbounded.", "anchors": ["siggy/src/protocol/prot.go: _process_msg", "siggy/src/protocol/dkg.go: _dkg_*_v", "siggy/src/protocol/dss.go: dss_partsig_v"]}
{"id": "C54", "title": "Honest justifications are accepted (expected to fail)", "statement": "A justification broadcast by dealer d in answer to a complaint by member c passes the receivers' sender check. False whenever c != d: the check also demands that the inner index, which names the complainer, equals the sender.", "quantifier": "all dealers and complainers", "why_tests_cant": "The input space is 2^256-sized (or unbounded); tests sample a handful of values.", "anchors": ["siggy/src/protocol/dkg.go: _dkg_justification_v,process_response"]}
{"id": "C55", "title": "No network message crashes the node (expected to fail)", "statement": "Handling any message from the network ends normally. False: a DKG response without its inner response makes the sender check dereference nil, and a partial signature without its signature, with the session id of the run, makes the DSS dereference nil. All other message shapes are handled without panic.", "quantifier": "all network messages in all run states", "why_tests_cant": "Adversarial inputs are unbounded.", "anchors": ["siggy/src/protocol/prot.go: _process_msg", "siggy/src/protocol/dkg.go: _dkg_response_v"]}
{"id": "C56", "title": "Finished runs are removed (expected to fail for DKG)", "statement": "After cleanup, the run's entry is deleted from the run table. True for DSS. False for DKG, whose code 0 has no negative, so the delete signal is taken for an ordinary late message and the entry stays for ever.", "quantifier": "all protocols, guests and run ids", "why_tests_cant": "The input space is 2^256-sized (or unbounded); tests sample a handful of values.", "anchors": ["siggy/src/protocol/prot.go: _delete_run,_receive_msg,_run_incoming_queue_consumer", "siggy/src/signode/runner.go: _runner_cleanup_run"]}
{"id": "C57", "title": "Network messages cannot delete runs or reach foreign guests", "statement": "No message from the network triggers run deletion, and every message that reaches a queue has a protocol code in range, an op in range and a local guest as recipient.", "quantifier": "all network messages", "why_tests_cant": "Adversarial inputs are unbounded.", "anchors": ["siggy/src/protocol/firewall.go: _fw_message_valid", "siggy/src/protocol/prot.go: _receive_msg"]}
{"id": "C58", "title": "Termination observers are told exactly once", "statement": "Under every interleaving of observer registration with run termination, each registered channel is sent to and closed at most once (never a send on or close of a closed channel), and once all threads finish, every observer of a terminated, still-listed run has been told.", "quantifier": "all interleavings of any number of registrations and the terminating run", "why_tests_cant": "Races need specific schedules.", "anchors": ["siggy/src/protocol/prot.go: obs_term,_update_term_observers"]}
{"id": "C59", "title": "Outputs are delivered once", "statement": "pop_output returns the value last pushed for exactly that (protocol, guest, run) and a second pop without push returns none; other keys are unaffected.", "quantifier": "all push/pop histories", "why_tests_cant": "Unbounded histories.", "anchors": ["siggy/src/protocol/prot.go: push_output,pop_output"]}
{"id": "C60", "title": "A signing run leaves no secret behind (expected to fail)", "statement": "After a completed signing request no output of that run stays stored. False: the DSS protocol reuses the DKG's last stage, which stores the run's nonce share as a DKG output that nothing ever removes.", "quantifier": "all successful signing runs", "why_tests_cant": "The input space is 2^256-sized (or unbounded); tests sample a handful of values.", "anchors": ["siggy/src/protocol/dkg.go: step_final", "siggy/src/protocol/dss.go: dss_stages", "siggy/src/signode/run_sig.go: _run_sig"]}
{"id": "C61", "title": "The firewall denies by default", "statement": "A message is passed on only if an allowance for exactly its protocol, recipient and run id was set, initial dropping has ended, and the present time is at least the allowance's start time; it must have arrived no earlier than the allowance's buffering time.", "quantifier": "all histories of messages, allowances and wake-ups", "why_tests_cant": "Unbounded histories.", "anchors": ["siggy/src/protocol/firewall.go: _fw_process,_fw_state_step,fw_set_allowance"]}
{"id": "C62", "title": "The firewall preserves order and multiplicity per run", "statement": "For each run, the messages passed on are exactly those accepted while buffering (up to the bound) followed by those accepted while forwarding, each once, in arrival order.", "quantifier": "all histories", "why_tests_cant": "Unbounded histories.", "anchors": ["siggy/src/protocol/firewall.go: _fw_flush,_fw_process"]}
{"id": "C63", "title": "Firewall buffers are bounded and emptied", "statement": "A run's buffer never holds more than 2048 messages and is non-empty only while that run is in its buffering phase: nothing survives into a later allowance for the same run id.", "quantifier": "all histories", "why_tests_cant": "Unbounded histories.", "anchors": ["siggy/src/protocol/firewall.go: _fw_buf_max,_fw_flush"]}
{"id": "C64", "title": "Revocation is complete", "statement": "After the stop phase of an allowance nothing for that run is passed on until a new allowance is set.", "quantifier": "all histories", "why_tests_cant": "Unbounded histories.", "anchors": ["siggy/src/protocol/firewall.go: _fw_state_step"]}
{"id": "C65", "title": "Runs are isolated in the firewall", "statement": "Messages for, and allowances of, other runs never change whether, when or in which order a run's messages are passed on.", "quantifier": "all histories", "why_tests_cant": "Unbounded histories.", "anchors": ["siggy/src/protocol/firewall.go: _fw_process"]}
{"id": "C66", "title": "Allowance observers see each phase once", "statement": "The channel returned by a fresh allowance receives exactly buffering, forwarding, stopped, in that order, and never blocks the firewall; setting an allowance that is already in place changes nothing and its channel never receives anything.", "quantifier": "all histories", "why_tests_cant": "Unbounded histories.", "anchors": ["siggy/src/protocol/firewall.go: fw_set_allowance,_fw_state_step"]}
{"id": "C67", "title": "Outgoing messages are delivered at most once and in order", "statement": "For each peer queue, under any pattern of connection failures, the sequence of remote calls is a subsequence of the accepted messages in order, each called at most once.", "quantifier": "all failure patterns and message sequences", "why_tests_cant": "Unbounded failure schedules.", "anchors": ["siggy/src/net/net_caller.go: _run_outgoing_queue_consumer,try_send"]}
{"id": "C68", "title": "A message whose call failed is retried (expected to fail)", "statement": "After a failed call the same message is sent again on the next connection. False: the loop's post statement reads the next message before the error is examined, so the failed message is lost.", "quantifier": "all failure patterns", "why_tests_cant": "Needs a failure at a specific point.", "anchors": ["siggy/src/net/net_caller.go: _run_outgoing_queue_consumer"]}
{"id": "C69", "title": "Sending never blocks and queues are bounded", "statement": "try_send returns without waiting; the queue never exceeds 1000 messages; a message offered to a full queue is dropped and nothing else changes.", "quantifier": "all histories", "why_tests_cant": "Unbounded histories.", "anchors": ["siggy/src/net/net_caller.go: try_send,_msg_max"]}
{"id": "C70", "title": "All nodes agree on member indices", "statement": "For pairwise distinct public keys, nodes whose configurations list the same key files in any order compute the same index-to-key assignment, whatever (unstable) order the sort leaves.", "quantifier": "all key sets, all listing orders, all correct sorts", "why_tests_cant": "The input space is 2^256-sized (or unbounded); tests sample a handful of values.", "anchors": ["siggy/src/layout/member.go: load_and_sort"]}
{"id": "C71", "title": "Guests are located by their secret", "statement": "compute_guests returns exactly the members whose secret is given, at the index of their public key with the address of their host; other secrets are ignored.", "quantifier": "all member lists and secret lists", "why_tests_cant": "The input space is 2^256-sized (or unbounded); tests sample a handful of values.", "anchors": ["siggy/src/layout/layout.go: compute_guests", "siggy/src/layout/member.go: find_member_index"]}
{"id": "C72", "title": "Members map to their host", "statement": "For a configuration produced by expand-config with distinct key files, each in one host, the member of every key file maps to the address of its host, and the mapped indices are exactly 0..n-1 so that every outgoing queue exists.", "quantifier": "all configurations", "why_tests_cant": "The input space is 2^256-sized (or unbounded); tests sample a handful of values.", "anchors": ["siggy/src/layout/layout.go: compute_layout,_conf_members_as_indices,_compute_member_to_addr", "hostcomp/hostcomp.lisp: expand-config", "siggy/src/net/net_caller.go: start_net_caller"]}
{"id": "C73", "title": "Unknown key files are rejected (expected to fail)", "statement": "A configuration whose host lists a key file missing from the key file list is rejected. False: the missing name silently becomes member 0, and can redirect member 0's traffic to another host.", "quantifier": "all configurations", "why_tests_cant": "The input space is 2^256-sized (or unbounded); tests sample a handful of values.", "anchors": ["siggy/src/layout/layout.go: _conf_members_as_indices"]}
{"id": "C74", "title": "Configuration parsing is faithful", "statement": "load_config returns the four components as written; it panics iff the JSON value is not an array whose first four entries are a list of strings, a list of strings, a list of lists of strings and a list of strings.", "quantifier": "all JSON values", "why_tests_cant": "The input space is 2^256-sized (or unbounded); tests sample a handful of values.", "anchors": ["siggy/src/layout/config.go: load_config,_extract_strings,_extract_string_lists"]}
{"id": "C75", "title": "Only locally requested documents are signed", "statement": "Every DSS instance the node creates signs a document that the local operator requested under that run's id; no sequence of network messages makes it sign anything else or start a run that was not requested.", "quantifier": "all network message sequences, requests and interleavings", "why_tests_cant": "Adversarial inputs are unbounded.", "anchors": ["siggy/src/signode/runner.go: run_dss,_runner_run_guest", "siggy/src/protocol/dss.go: st_init,_doc_for,dss_register_doc", "siggy/src/protocol/firewall.go: _fw_process"]}
{"id": "C76", "title": "Nothing is said before the start time", "statement": "A guest's run for a request is not started, by network messages or locally, before the request's start time.", "quantifier": "all network message sequences and schedules", "why_tests_cant": "Adversarial inputs and schedules.", "anchors": ["siggy/src/signode/runner.go: _runner_run_guest", "siggy/src/protocol/firewall.go: _fw_state_step"]}
{"id": "C77", "title": "Run ids identify requests (expected to fail in general)", "statement": "Different (namespace, start time) requests get different run ids. False in general because the parts are concatenated without separator; true for requests whose millisecond timestamps have equally many digits. The id of a signing request is sig, its namespace and its start in milliseconds, and never that of a round of key generation.", "quantifier": "all namespaces and times", "why_tests_cant": "The input space is 2^256-sized (or unbounded); tests sample a handful of values.", "anchors": ["siggy/src/signode/runner.go: _runner_run_id,run_dss", "siggy/src/signode/run_sig.go: _run_sig"]}
{"id": "C78", "title": "Deleted runs stay deleted", "statement": "After a signing run has been removed from the table, no message for its id re-creates it unless the operator requests that id again.", "quantifier": "all network message sequences and interleavings", "why_tests_cant": "Adversarial inputs and schedules.", "anchors": ["siggy/src/signode/runner.go: _runner_cleanup_run", "siggy/src/protocol/prot.go: _delete_run,ensure_active_run"]}
{"id": "C79", "title": "Long-term key generation stops after one valid round", "statement": "If the generated public keys are curve points the loop runs the DKG exactly once and returns its shares; run ids of successive rounds differ and name the request, the round and its time; the first round starts with the request and each further one the timeout of a key generation and one second after the one before; it never returns shares when some member is missing from the qualified set or a guest has no output (it panics).", "quantifier": "all DKG outcomes", "why_tests_cant": "The input space is 2^256-sized (or unbounded); tests sample a handful of values.", "anchors": ["siggy/src/signode/run_longterm.go: _longterm_loop,_longterm"]}
{"id": "C80", "title": "Signing requests are parsed exactly", "statement": "run_sigs starts one request per complete word triple in order, ignores an incomplete last triple, skips (with a warning) triples with a bad time or document and is unaffected by them otherwise; the document is the signed hexadecimal value of the third word.", "quantifier": "all inputs", "why_tests_cant": "The input space is 2^256-sized (or unbounded); tests sample a handful of values.", "anchors": ["siggy/src/signode/run_sig.go: run_sigs,_run_sig1"]}
{"id": "C81", "title": "The scalar and point API is aliasing-safe", "statement": "Any program of scalar and point method calls leaves in every object exactly the value obtained by reading the methods as pure functions on values, whichever receivers and operands are the same object (P.Add(P,P), s.Mul(s,s), ...): no method corrupts an operand it does not own, no two points ever share a coordinate, and every stored coordinate and scalar stays reduced.", "quantifier": "all programs (method call sequences) and all aliasing patterns", "why_tests_cant": "The number of call sequences and aliasing patterns is unbounded.", "anchors": ["ch/core/services/signatures/secp256k1/point.go: Null,Base,Set,Clone,Add,Sub,Neg,Mul,MarshalBinary,UnmarshalBinary", "ch/core/services/signatures/secp256k1/scalar.go: Set,SetInt64,Add,Sub,Neg,Mul,SetBytes"]}
{"id": "C82", "title": "Every request returns (expected to fail for reused ids)", "statement": "A request to sign or generate keys eventually returns. False when a run id is used twice: a request that asks the firewall for a run while an allowance for that run exists waits for ever, in every continuation.", "quantifier": "all histories and all their continuations", "why_tests_cant": "Never returning is a statement about every infinite continuation.", "anchors": ["siggy/src/signode/runner.go: _runner_run_guest", "siggy/src/protocol/firewall.go: fw_set_allowance"]}
{"id": "C83", "title": "Incoming queues are first in, first out", "statement": "For every protocol and guest, the messages put into the queue are exactly the messages taken from it followed by those still in it, in the same order: nothing is lost, duplicated, reordered or made up in the queues.", "quantifier": "all histories, protocols and guests", "why_tests_cant": "Unbounded histories and interleavings.", "anchors": ["siggy/src/protocol/prot.go: _receive_msg,_run_incoming_queue_consumer"]}
{"id": "C84", "title": "Every signature a node outputs verifies", "statement": "Whatever messages and partial signatures arrive, a signature that a node's run outputs or that a request returns passes Verify against the long-term public key for the document the operator asked to sign under that id, provided key generation gave this guest correct shares. With ids used once, the document is that of the returning request.", "quantifier": "all histories of a node: all requests, network messages, interleavings, nonces and map iteration orders", "why_tests_cant": "Adversarial messages and unbounded interleavings.", "anchors": ["siggy/src/protocol/dss.go: st_init,st_partsig,pr_partsig,dss_st_final", "siggy/src/protocol/prot.go: push_output,pop_output", "siggy/src/signode/run_sig.go: _run_sig", "ch/core/services/signatures/ethdss/ethdss.go: Signature,ProcessPartialSig"]}
{"id": "C85", "title": "Key generation returns only shares of a certified and finished generator", "statement": "A key share that a run outputs, and that a request for key generation returns, is the one its own generator gave after the generator was certified and later finished; the qualified members returned with it are those of the certified generator. An abandoned or unfinished key generation returns nothing.", "quantifier": "all histories of a node", "why_tests_cant": "Adversarial messages and unbounded interleavings.", "anchors": ["siggy/src/protocol/dkg.go: step_final,step_vss_done", "siggy/src/protocol/prot.go: push_output,pop_output", "siggy/src/signode/run_longterm.go"]}
{"id": "C86", "title": "An ended signing run forgets its signing session", "statement": "After a signing run has ended, its entry with the private key and threshold and its DSS session are gone, and no later message brings them back.", "quantifier": "all executions of a run, all messages after its end", "why_tests_cant": "Unbounded histories.", "anchors": ["siggy/src/protocol/dss.go: dss_cleanup", "siggy/src/protocol/prot.go: _run"]}
{"id": "C87", "title": "A returned request leaves no activity behind", "statement": "Once a request has begun to take its outputs, the runs it was made for do nothing any more, whatever messages still arrive: none is made again, none sends a message, stores an output or enters a stage. The document of a signing request is no longer registered with any guest. For ids used once.", "quantifier": "all histories of a node and everything after the return", "why_tests_cant": "Unbounded histories, late messages and interleavings.", "anchors": ["siggy/src/signode/runner.go: _runner_run,_runner_run_guest", "siggy/src/protocol/prot.go: _run,_run_incoming_queue_consumer", "siggy/src/protocol/dss.go: dss_deregister_doc"]}
{"id": "C88", "title": "A node survives what comes in", "statement": "Whatever messages come in (other than the two malformed kinds of C55) and however its goroutines are scheduled, a node that serves signing requests with distinct ids never panics. A node that also generates keys panics only where a key generation request collects a share that is missing or that not every member qualified for. With an id used for two signing requests this fails: the second run can crash the node.", "quantifier": "all histories of a node: requests, network messages, interleavings, nonces, generator behaviours and map iteration orders", "why_tests_cant": "Adversarial messages and unbounded interleavings.", "anchors": ["siggy/src/signode/runner.go: _runner_run,_runner_run_guest", "siggy/src/protocol/prot.go: _run,_run_incoming_queue_consumer", "siggy/src/protocol/dss.go: st_init,st_partsig", "siggy/src/protocol/dkg.go", "siggy/src/signode/run_longterm.go"]}
{"id": "C89", "title": "Requests with fresh ids return on every fair schedule", "statement": "A request whose id is not used twice returns, having collected for every guest its output or the lack of one, on every infinite schedule that gives the goroutines the request waits for their turns at ever later times: whatever messages come in or fail to, whatever the other nodes and the other requests do. A node that only signs, with distinct ids, does not crash either, so there every request returns. Liveness counterpart of C82.", "quantifier": "all infinite fair schedules of a node, all messages and generator behaviours", "why_tests_cant": "A statement about infinite executions.", "anchors": ["siggy/src/signode/runner.go: _runner_run,_runner_run_guest", "siggy/src/protocol/firewall.go: fw_set_allowance,_fw_state_step", "siggy/src/protocol/prot.go: _run", "siggy/src/signode/run_sig.go", "siggy/src/signode/run_longterm.go"]}
{"id": "C90", "title": "Messages between punctual members are not dropped", "statement": "In DKG and DSS, let the goroutine of the sending member's run be at most d late at each wake-up, let it start at s and the receiver's run at s', and let no sleep end early. If s - s' + 2d + lat < 70 ms, then no message the sender makes is dropped by the receiver's run unless it was under way for more than lat; early messages wait for their stage. For every protocol: a run drops a message only when the time of its stage is over, and if no message of a stage arrives that late, all of them are taken up once the stage is reached. The bound is exact.", "quantifier": "all pairs of runs, all timed histories, messages, generator behaviours and data", "why_tests_cant": "Quantifies over all schedules, clocks and delays of two processes.", "anchors": ["siggy/src/protocol/prot.go: _run_timed_steps,_run_incoming_queue_consumer,send,flush_snd_buf,state_timeout,pause", "siggy/src/protocol/dkg.go", "siggy/src/protocol/dss.go"]}
{"id": "C91", "title": "Enough ready members produce a signature, all the same one", "statement": "Let members of a signing session hold correct shares of one long-term key and one nonce. A member that gets ready (generator finished, document and share at hand, run not abandoned) sends its partial signature to every other qualified member. One that reaches the last stage having taken up the partial signatures of threshold - 1 other ready members outputs a signature that verifies for the key and the document, whatever else it is sent: other members' messages, faulty or forged under their own index, cannot prevent it. All signatures output by members of the session are equal.", "quantifier": "all sessions, members, messages of the others, histories, nonces and map iteration orders", "why_tests_cant": "Adversarial messages in any order and number.", "anchors": ["siggy/src/protocol/dss.go: st_init,st_partsig,pr_partsig,dss_st_final", "siggy/src/protocol/prot.go: _run_timed_steps,_run_incoming_queue_consumer,send", "ch/core/services/signatures/ethdss/ethdss.go: PartialSig,ProcessPartialSig,Signature"]}
{"id": "C92", "title": "A timely threshold of members signs", "statement": "If at least threshold members get ready, start within a window, wake up at most d late and get each other's partial signatures within lat, with difference of starts + 2d + lat < 70 ms for each pair, then all of them output one and the same signature, and it verifies for the key and the document, whatever other members send and whenever.", "quantifier": "all sessions, sets of members, timed histories, clocks and delays within the bound, messages of the others", "why_tests_cant": "Quantifies over all schedules, clocks and delays of several processes and over adversarial messages.", "anchors": ["siggy/src/protocol/dss.go", "siggy/src/protocol/prot.go: _run_timed_steps,_run_incoming_queue_consumer,send,flush_snd_buf,state_timeout,pause", "ch/core/services/signatures/ethdss/ethdss.go"]}
{"id": "C93", "title": "What is proved of a run holds of the runs of a node", "statement": "Every run a node makes goes, from its creation on, through an execution of its protocol in the order of the clock, waking up only when its sleep is over: so everything stated for single runs (state order, no self-delivery, timing, partial signatures) holds for the runs of a node. If the run was asked for at most once it is the only one of its protocol, guest and id, and all that the node shows of that run is what this execution shows.", "quantifier": "all histories of a node: requests, network messages, interleavings, nonces and map iteration orders", "why_tests_cant": "Unbounded interleavings of many runs.", "anchors": ["siggy/src/protocol/prot.go: _run,ensure_active_run,_run_incoming_queue_consumer", "siggy/src/signode/runner.go: _runner_run_guest"]}
{"id": "C94", "title": "A request returns the signature its run made", "statement": "What a request returns for a guest is the last output that a run of this guest and id gave under the request's protocol and that was not returned before. At most one output is returned per request and guest. If the id was asked for once and its run gave a signature, the request does not return without one, and returns one this run gave.", "quantifier": "all histories of a node", "why_tests_cant": "Unbounded histories and interleavings of several requests.", "anchors": ["siggy/src/protocol/prot.go: push_output,pop_output", "siggy/src/signode/runner.go: _runner_run,_runner_run_guest"]}
{"id": "C95", "title": "Enough timely members return the same valid signature", "statement": "Let at least threshold many members, each on a node that was asked once to sign the document under one id, hold the outcome of a sound key and nonce generation, start within a window, be late by at most d at each wake-up and get each other's partial signatures within lat, with differences of start + 2d + lat < 70 ms. Then there is one signature, valid for the document under the long-term public key, and every one of their requests that returns, returns exactly this signature, whatever else comes in.", "quantifier": "all groups of members and nodes, all histories of each, all other messages", "why_tests_cant": "A liveness and agreement statement over several unbounded concurrent histories.", "anchors": ["siggy/src/signode/runner.go: _runner_run,_runner_run_guest", "siggy/src/protocol/dss.go: st_partsig,pr_partsig,dss_st_final", "siggy/src/protocol/prot.go: _run,push_output,pop_output", "ch/core/services/signatures/ethdss/ethdss.go: Signature,ProcessPartialSig"]}
{"id": "C96", "title": "Messages reach their run in order, once, and only a full queue loses them", "statement": "In a node, the messages for a run that entered its protocol's queue reach the run in that order and each once, except for at most one that the queue's consumer holds and those still waiting. For a signing run, what is offered to the queue is exactly what the firewall passes, and the queue refuses a message only if it names no stage of the protocol or finds 10000 others waiting. So for a signing run asked for at most once, if the queue never holds 10000 messages, the run receives the first 2048 messages that came in while the firewall buffered and all that came in while it forwarded, in that order, up to those still on the way.", "quantifier": "all histories of a node: all arrivals, requests and interleavings of its goroutines", "why_tests_cant": "Unbounded arrivals and schedules across firewall, queue, consumer and run.", "anchors": ["siggy/src/protocol/firewall.go: fw_input,_fw_process,_fw_flush", "siggy/src/protocol/prot.go: _receive_msg,_run_incoming_queue_consumer,_process_msg"]}
{"id": "C97", "title": "Between nodes, what a run receives from a member is what that member's run sent", "statement": "When nodes in several processes, each with its own clock, talk through their outgoing queues and remote calls, every process goes through a history of a node and every queue through a history of a queue, so that all that holds of one holds there. What comes in by the calls of a queue comes in at the process that listens for its member and is, counted with multiplicity, among what the runs of its process, protocol and guest sent to that member; what comes in by calls that succeeded comes in in the order sent. If a member is hosted by one process only, a run of another member is asked for at most once, and nothing comes in from outside in the first member's name, then what this run receives in that name is among what the first member's run of the same id and protocol sent to it: nothing is made up, altered, doubled or taken from another run. If no call of that queue failed, it receives it in the order sent. The same holds stage by stage, for every stage of signing and of key generation that takes messages.", "quantifier": "all executions of any number of processes with any clocks: all interleavings, lost, failed and late calls, crashes and arrivals from outside", "why_tests_cant": "Several processes, unbounded histories, failures and late arrivals at any point.", "anchors": ["siggy/src/net/net_caller.go: try_send,_run_outgoing_queue_consumer", "siggy/src/net/net_listener.go: Receive", "siggy/src/protocol/prot.go: _receive_msg,_run_incoming_queue_consumer,_process_msg", "siggy/src/protocol/firewall.go: fw_input"]}
{"id": "C98", "title": "Between nodes, a timely threshold of members signs", "statement": "Nodes in several processes, each with its own clock, talk through their outgoing queues and remote calls. A message that a run of signing or of key generation sends to the run of the same id of another member reaches that run: within lat1 + lat2, measured by the two clocks, if the call that carries it succeeds within lat1, if the firewall there forwards for the run when it comes in, or buffers with room and forwards within lat2, and if the incoming queue there is not full and is emptied within lat2. So let at least threshold many members, each in a process that was asked once to sign the document under one id, get ready, start within a window, be late by at most d at each wake-up, with clocks that differ by at most drift, partial signatures carried, forwarded and taken as above, and differences of start + 2d + lat1 + lat2 + drift < 70 ms. Then every one of their requests that returns, returns one and the same signature, valid for the document under the long-term public key, whatever else comes in.", "quantifier": "all executions of any number of processes: all clocks, interleavings, other messages, failures of other calls, crashes of other processes", "why_tests_cant": "A liveness and agreement statement over the joint histories of several processes and the network.", "anchors": ["siggy/src/signode/runner.go: _runner_run,_runner_run_guest", "siggy/src/net/net_caller.go: try_send,_run_outgoing_queue_consumer", "siggy/src/net/net_listener.go: Receive", "siggy/src/protocol/firewall.go: fw_input,_fw_process", "siggy/src/protocol/prot.go: _receive_msg,_run_incoming_queue_consumer,_run_timed_steps", "siggy/src/protocol/dss.go: st_partsig,pr_partsig,dss_st_final"]}
{"id": "C99", "title": "What a run computes depends only on the messages of each stage", "statement": "The data of a run, the messages it makes, its output and whether it gives up are what the steps of its stages and the messages taken up for each stage, one stage after the other, make of its initial data, provided the stages look at nothing else. So two key generation runs with the same data that took up the same messages for each stage in the same order, whenever these came, early or in time, and however wake-ups, early buffering and dropped messages fell, made the same messages in the same order, gave the same output, gave up both or neither and hold the same data.", "quantifier": "all protocols whose steps read only the data and the message, all runs of a key generation, all pairs of histories", "why_tests_cant": "Quantifies over pairs of schedules.", "anchors": ["siggy/src/protocol/prot.go: _run_timed_steps,_run_incoming_queue_consumer,_process_msg,send,flush_snd_buf", "siggy/src/protocol/dkg.go: step_deal,process_deal,process_response,step_vss_done,step_commits,process_commits,step_final"]}
{"id": "C100", "title": "Members who all take part generate a key", "statement": "Let n members run a key generation whose generators behave as kyber's do when nobody misbehaves (right deals to all others; a right response to each right deal; no objection to right responses and commitments; certified, all qualified and finished with a share of the key when all have come, in any order). If they start within a window, wake up at most d late, receive from one another nothing but what was sent, each no more often than sent, and all of it within lat, and differences of start + 2d + lat < 70 ms, then every member that reaches the last stage outputs exactly once: a share, under its index, of one and the same key, with all members qualified. None gives up.", "quantifier": "all numbers of members up to 2^32, all such generators, all timed histories and message orders within the bounds", "why_tests_cant": "Quantifies over the number of members and over all schedules and orders of arrival.", "anchors": ["siggy/src/protocol/dkg.go: step_deal,process_deal,process_response,step_vss_done,step_commits,process_commits,step_final", "siggy/src/protocol/prot.go: _run_timed_steps,_run_incoming_queue_consumer,send,flush_snd_buf,multicast,broadcast", "siggy/src/protocol/dkg_dto.go"]}
{"id": "C101", "title": "Members who all take part sign a document", "statement": "Under the assumptions of C100 for the nonce generation of a signing run, and if each member holds its secret key, the list of public keys, the threshold, and finds, until its run ends, its share of the long-term key and the document, all members that reach the last stage output one and the same signature, and it verifies for the long-term public key and the document. No assumption is made about the state in which a member begins the signing proper: it follows from the nonce generation.", "quantifier": "all sessions, all generators that work, all timed histories and message orders within the bounds, all nonces and map iteration orders", "why_tests_cant": "Quantifies over the number of members and over all schedules and orders of arrival.", "anchors": ["siggy/src/protocol/dss.go: st_init,st_partsig,pr_partsig,dss_st_final", "siggy/src/protocol/dkg.go", "siggy/src/protocol/prot.go: _run_timed_steps,_run_incoming_queue_consumer,send,flush_snd_buf", "ch/core/services/signatures/ethdss/ethdss.go: NewDSS,PartialSig,ProcessPartialSig,Signature"]}
{"id": "C102", "title": "A signing run finds its document until it ends", "statement": "A signing run that was asked for at most once finds, at every step it takes before it ends, the document of its request and the long-term share of its guest, whatever else the node is asked for, whichever other requests return meanwhile and in whatever order documents are registered and deregistered.", "quantifier": "all histories of a node, all its signing runs, every step of them", "why_tests_cant": "Unbounded interleavings of several requests.", "anchors": ["siggy/src/signode/runner.go: _runner_run", "siggy/src/protocol/dss.go: dss_register_doc,dss_deregister_doc,st_init"]}
{"id": "C103", "title": "Between nodes, members who all take part sign a document", "statement": "Let every member of a session be a guest of one process, which knows the members and the threshold, holds the member's secret key and long-term share and was asked once to sign the document under one id. Let the generators behave as kyber's do when nobody misbehaves (as in C100), the runs start within a window and wake up at most d late, the messages of the runs be carried by calls that succeed within lat1, come in while the firewall forwards (or buffers with room, and forwards within lat2), find the incoming queue not full and be taken within lat2, clocks differ by at most drift, and differences of start + 2d + lat1 + lat2 + drift < 70 ms. Then every request that returns, returns one and the same signature, valid for the document under the long-term public key. Nothing is assumed about the nonce generation, about the state of the runs or about what the runs receive.", "quantifier": "all sessions of up to 2^32 members, all distributions of the members over processes, all joint histories of the processes and the network within the bounds, all nonces and map iteration orders", "why_tests_cant": "A liveness and agreement statement over the joint histories of several processes and the network.", "anchors": ["siggy/src/signode/runner.go: _runner_run,_runner_run_guest", "siggy/src/net/net_caller.go: try_send,_run_outgoing_queue_consumer", "siggy/src/net/net_listener.go: Receive", "siggy/src/protocol/firewall.go: fw_input,_fw_process", "siggy/src/protocol/prot.go: _receive_msg,_run_incoming_queue_consumer,_run_timed_steps", "siggy/src/protocol/dkg.go", "siggy/src/protocol/dss.go"]}
{"id": "C104", "title": "A process starts as its command line, configuration and files say", "statement": "Started from a compiled configuration whose key files hold different keys, the program has as members the keys of the listed files in their canonical order, as guests exactly the members whose secret is in the directory of secrets (in a file named secret_...), each with that secret, as threshold the integer written, and drops messages until the time written, or for three seconds. It signs exactly if there is one more argument, and then each guest has the share that the long-term key file holds. It listens, once each, at the addresses of the hosts of its guests and sends to each member at the address of its host. It starts exactly if every listed file holds a key, the secrets can be read and have 32 bytes, threshold and time are well written, the key generation accepts each guest's secret with these keys and threshold, the addresses can be listened at and the long-term key file, if named, decodes and has a share for each guest. Otherwise it panics.", "quantifier": "all command lines, configurations of any number of hosts, file systems, times, sort and map iteration orders", "why_tests_cant": "Quantifies over all configurations and directories.", "anchors": ["siggy/src/signode/signode.go: main,_load_secrets", "siggy/src/protocol/prot.go: protocol_start", "siggy/src/util/file.go: slurp_all,_filter_prefix", "siggy/src/util/prim.go: unique", "siggy/src/signode/longterm_db.go: load_longterms"]}
{"id": "C105", "title": "Generated keys are accepted", "statement": "The key generator writes a secret in 1..N-1 and the valid public key of it, in files with the prefixes secret_ and public_. Put the public file among the listed key files and the secret file into the directory of secrets, and a process that starts has the member with that public key as a guest, with that secret.", "quantifier": "all random streams for which it ends, all configurations, directories and command lines", "why_tests_cant": "Quantifies over all random streams and deployments.", "anchors": ["siggy/src/keygen/keygen.go: main", "siggy/src/signode/signode.go: main,_load_secrets", "siggy/src/util/file.go: slurp_all"]}
{"id": "C106", "title": "Processes deployed from one configuration fit together", "statement": "Launch one process for each host of a configuration with different addresses and different keys, with the same key files and threshold and, of the listed keys, the secrets of those that its host lists. If all start, all have the same members, one for each listed file, and the same threshold. Each member is a guest of exactly one process, that of its host, which has its secret. What any of them sends to a member goes to an address at which that process listens, and no other.", "quantifier": "all configurations, any number of hosts, all file systems, sort and map iteration orders of the processes", "why_tests_cant": "Quantifies over all deployments and over independent processes.", "anchors": ["siggy/src/signode/signode.go: main,_load_secrets", "siggy/src/layout/layout.go: compute_layout", "siggy/src/protocol/prot.go: protocol_start", "siggy/src/net/net_caller.go: start_net_caller"]}
{"id": "C107", "title": "Processes deployed from one configuration sign", "statement": "Launch one process for each host as in C106, each with a long-term key file that holds its members' shares. Then, under the assumptions of C103 on what the processes are asked for, on time, on the network and on the generators, every request that returns, returns one and the same signature, valid for the document under the long-term public key. Nothing is assumed about what the processes know: members, threshold, secrets, shares and addresses follow from how they were started.", "quantifier": "all configurations and deployments, all joint histories of the processes and the network within the bounds", "why_tests_cant": "A statement over all deployments and over the joint histories of several processes and the network.", "anchors": ["siggy/src/signode/signode.go: main,_load_secrets", "siggy/src/protocol/prot.go", "siggy/src/protocol/dss.go", "siggy/src/net/net_caller.go"]}
{"id": "C108", "title": "Between nodes, members who all take part generate a key", "statement": "Let every member be a guest of one process, which knows the members and was asked at most once for a key generation under one id (and for no signing under that id). Let the generators behave as kyber's do when nobody misbehaves (as in C100), the runs start within a window and wake up at most d late, the messages of the runs be carried by calls that succeed within lat1, come in while the firewall forwards (or buffers with room, and forwards within lat2), find the incoming queue not full and be taken within lat2, clocks differ by at most drift, and differences of start + 2d + lat1 + lat2 + drift < 70 ms. Then every request for the key that returns, returns a share: all are shares of one and the same key, each that of its member, and all members qualify. Nothing is assumed about the state of the runs or about what the runs receive.", "quantifier": "all groups of up to 2^32 members, all distributions of the members over processes, all joint histories of the processes and the network within the bounds", "why_tests_cant": "A liveness and agreement statement over the joint histories of several processes and the network.", "anchors": ["siggy/src/signode/runner.go: run_dkg,_runner_run,_runner_run_guest", "siggy/src/net/net_caller.go: try_send,_run_outgoing_queue_consumer", "siggy/src/net/net_listener.go: Receive", "siggy/src/protocol/firewall.go: fw_input,_fw_process", "siggy/src/protocol/prot.go: _receive_msg,_run_incoming_queue_consumer,_run_timed_steps", "siggy/src/protocol/dkg.go"]}
{"id": "C109", "title": "Processes deployed from one configuration generate a key", "statement": "Launch one process for each host as in C106, all to start at the same time, without long-term key files. Under the assumptions of C108 on time, on the network and on the generators, and if the public key is a point of the curve, what the loop for key generation of a process returns and saves has exactly the guests of the process as keys, and holds for each of them its share of one and the same key.", "quantifier": "all configurations and deployments, all joint histories of the processes and the network within the bounds, all map iteration orders", "why_tests_cant": "A statement over all deployments and over the joint histories of several processes and the network.", "anchors": ["siggy/src/signode/signode.go: main", "siggy/src/signode/run_longterm.go: run_longterm,_longterm_loop,_longterm", "siggy/src/signode/runner.go: run_dkg", "siggy/src/protocol/prot.go", "siggy/src/protocol/dkg.go"]}
{"id": "C110", "title": "Generate, then sign", "statement": "Processes deployed from one configuration generate a key as in C109 and save its shares. Launch processes of the same hosts again, each with the file that its predecessor saved, and ask them to sign a document, under the assumptions of C107 on time, on the network and on the generators. Then every request that returns, returns one and the same signature, valid for the document under the generated public key. Nothing is assumed about the shares or the files, except that the commitments are points of the curve and that the shares are reduced.", "quantifier": "all configurations and deployments, all joint histories of the generating and of the signing processes within the bounds", "why_tests_cant": "Spans two deployments, files and the joint histories of all processes.", "anchors": ["siggy/src/signode/signode.go: main", "siggy/src/signode/run_longterm.go: run_longterm", "siggy/src/signode/longterm_db.go: save_longterms,load_longterms", "siggy/src/signode/run_sig.go: _run_sig", "siggy/src/protocol/dss.go", "ch/core/services/signatures/ethdss/ethdss.go"]}
{"id": "C111", "title": "Streams of points and scalars are read back as written", "statement": "Write any list of points of the curve and scalars to a stream with MarshalTo, one after the other, where the writer has room for them. Each call returns the item's size (33 or 32) and no error. Whoever then reads the stream with UnmarshalFrom into receivers of the same kinds gets, in order, the same points and the scalars reduced mod the group order, each call returning the size and no error, however the stream cuts the bytes into reads and whatever follows; what follows is left unread. A single UnmarshalFrom decodes exactly the bytes that are next in the stream.", "quantifier": "all lists of items, all writers with room, all ways of cutting the bytes into reads, all receivers and all bytes that follow", "why_tests_cant": "The ways in which a reader may cut a stream into reads are unbounded.", "anchors": ["ch/core/services/signatures/secp256k1/point.go: MarshalTo,UnmarshalFrom", "ch/core/services/signatures/secp256k1/scalar.go: MarshalTo,UnmarshalFrom"]}
{"id": "C112", "title": "Failing streams are reported and leave the receiver alone", "statement": "If a stream ends or reports an error before it has delivered a whole encoding, UnmarshalFrom returns an error and the receiver keeps its value; the count returned is the number of bytes read for a scalar and 0 for a point. If a writer has no room for an encoding, MarshalTo returns an error and the number of bytes that the writer took, and those are the first bytes of the encoding. For a point that is not on the curve, MarshalTo writes nothing and returns an error.", "quantifier": "all readers (cut into reads, ended or failing anywhere), all receivers, all writers with too little room, all items", "why_tests_cant": "The error may come at any byte of any stream.", "anchors": ["ch/core/services/signatures/secp256k1/point.go: MarshalTo,UnmarshalFrom", "ch/core/services/signatures/secp256k1/scalar.go: MarshalTo,UnmarshalFrom"]}
{"id": "C113", "title": "A peer that becomes reachable is connected to in bounded time", "statement": "Whoever sends to a peer keeps trying to connect. If no attempt takes longer than D and attempts begun from time T on succeed, then there is a connection at the latest 5 minutes and 2 seconds and 2*D after T (or after the start, if that is later), whatever random delays are drawn. At most one interim failure is announced, only after five failed attempts, and a connection only after a successful one; while every attempt fails it goes on for ever. Attempts are at least 100 ms apart, the first 2 s after the start.", "quantifier": "all behaviours of the network (which attempts succeed, how long each takes), all random delays, all numbers of rounds, all start times", "why_tests_cant": "Depends on the network's behaviour and on random delays over unbounded time.", "anchors": ["siggy/src/net/net_caller.go: _run_connector,_try_connect,_retry_delay,_min"]}
{"id": "C114", "title": "Peers have 2.4 seconds to start", "statement": "If attempts to connect that are begun at T or later succeed, and T is at most 2.4 s after the connecting started, then the first thing announced is a connection, whatever random delays are drawn; it comes at most D after the later of (start + 2 s) and (T + 1 s + D), where D bounds the duration of an attempt. The 2.4 s are sharp: for any later T there are delays for which the failure is announced at 2.4 s.", "quantifier": "all networks, random delays, T up to the bound; all T beyond it for sharpness", "why_tests_cant": "Depends on the network's behaviour and on random delays.", "anchors": ["siggy/src/net/net_caller.go: _run_connector,_try_connect,_retry_delay"]}
{"id": "C115", "title": "No message to a peer that starts in time is dropped", "statement": "If attempts to connect to a peer succeed from 2.4 s after the start on, or earlier, then in every history of the queue for that peer (any sends, failing calls and reconnections, at any times) no message is dropped for want of a connection: every accepted message has been passed to a call, is the one about to be, or is still in the queue, in order. The announcements of the timed connecting are those that the queue's history without time (C67-C69) assumes.", "quantifier": "all timed histories of a queue, all networks and random delays within the bound", "why_tests_cant": "Concurrent histories of three goroutines in real time.", "anchors": ["siggy/src/net/net_caller.go: _run_outgoing_queue_consumer,_run_connector,try_send"]}
{"id": "C116", "title": "A compiled configuration is the source's first hosts form, or is refused", "statement": "Take any source file of expressions, compile it (expand-config into a new intermediate file, then translate-file) and start a process with the result. The process accepts it exactly if every form up to the first one that begins with hosts is a list and every entry of that form is a label, an address and optionally a list of file names, each a string or a symbol other than t; it then uses precisely those labels, addresses and per-host files, in that order, and their concatenation as the list of public key files. Other forms, later hosts forms and further elements of entries have no effect; a source without a hosts form gives a configuration without hosts. The compiled file is then the one that C106 to C110 take processes to be deployed from. If the intermediate file already has something in it, the process refuses the result, whatever the source.", "quantifier": "all sources (any expressions), all contents of the intermediate file", "why_tests_cant": "Unboundedly many and deep expressions; well-formed and malformed ones.", "anchors": ["hostcomp/hostcomp.lisp: expand-config", "hostcomp/wispym.lisp: slurp-exprs,append-expr", "s2j/sexp-to-json.lisp: translate-file", "s2j/wispym2.lisp: cl-json-print-nil-as-list", "siggy/src/layout/config.go: load_config,_extract_strings,_extract_string_lists"]}
{"id": "C117", "title": "Equal on points is equality of group elements", "statement": "Equal(P, Q) holds exactly if the coordinates agree modulo p; on curve points and the identity it holds exactly if they are the same; the public keys of secrets a and b are Equal exactly if a and b agree modulo the group order; no curve point is Equal to its negation, although both have the same first coordinate.", "quantifier": "all pairs of points, all pairs of secrets", "why_tests_cant": "The input space is 2^256-sized; tests sample a handful of values.", "anchors": ["ch/core/services/signatures/secp256k1/point.go: Equal", "ch/core/services/signatures/secp256k1/field.go: Equal"]}
{"id": "C118", "title": "Processes that start within 2.4 seconds of each other lose no messages between them", "statement": "In any execution of several processes: if a member's process can be connected to from 2.4 s after the start of another process's queue for that member on, or earlier, then that queue never drops a message for want of a connection; and if no call fails and the queue is never full (it is not if at most 1000 messages are sent), then the messages that came in at the member's process by that queue, followed by at most one that is about to be called and those still queued, are exactly the messages the runs sent to that member, in order.", "quantifier": "all executions of any number of processes, all networks and random delays within the bound", "why_tests_cant": "Concurrent executions of several processes in real time.", "anchors": ["siggy/src/net/net_caller.go: try_send,_run_outgoing_queue_consumer,_run_connector,_try_connect", "siggy/src/net/net_listener.go: Receive", "siggy/src/protocol/prot.go: send"]}
{"id": "C119", "title": "Further forms of keys", "statement": "NewPublicKeyFromBytes accepts exactly the 33-byte strings and returns them. The encoding of a curve point is a key that decodes to that point and is not the zero key; IsZero holds exactly if every byte is zero, and the zero key never decodes. StringUncompressed succeeds exactly if the key decodes; it is then 0x and the 128 hexadecimal digits of the two coordinates, and decodes (LongUnmarshal) to the same point. MustHash panics exactly if the key does not decode, and otherwise is Hash. ScalarToHash of a reduced scalar is its binary encoding.", "quantifier": "all byte strings, keys, curve points and scalars", "why_tests_cant": "The input space is 2^264-sized; tests sample a handful of values.", "anchors": ["ch/core/services/signatures/secp256k1/public_key.go: NewPublicKeyFromBytes,StringUncompressed,IsZero,MustHash,Point", "ch/core/services/signatures/secp256k1/scalar.go: ScalarToHash"]}
{"id": "C120", "title": "Runs keep their schedule and the firewall stays open for them", "statement": "A run that started at s and wakes up late by at most d enters stage j between s + (time of the earlier stages) + pause and 2d later (no pause before the first stage), and ends between s + (time of all stages) and d later. The firewall enters the phases of an allowance in order, and none before its time. When a run is made, the firewall already buffers its messages. So for a run asked for once with start time start: if s + d < start + 1 s, then at every moment from the making of the run to its end the firewall buffers or forwards its messages; and from the beginning of the buffering it does so at least until the run, begun at the start time, would have been over for 1 s.", "quantifier": "all protocols, histories of a node or firewall, start times, latenesses", "why_tests_cant": "Concurrent histories of timers and goroutines in real time.", "anchors": ["siggy/src/protocol/prot.go: _run_timed_steps,_unlocked_sleep,protocol_timeout", "siggy/src/protocol/firewall.go: fw_set_allowance,_fw_state_step", "siggy/src/signode/runner.go: _runner_run_guest"]}
{"id": "C121", "title": "Clocks that agree to 5 ms suffice for messages to be let in", "statement": "The firewall is told, for a run asked for with a start, to buffer from 5 ms before the start, to forward from the start, and to stop one second after the protocol is over; once the goroutine of this allowance has begun and goes on at that first time or later, the firewall has begun to buffer. Several processes are asked, each once, for runs of one id with the same start. A message of such a run comes in no earlier than the start by the clock of its sender. So if the sender's clock is ahead of the receiver's by at most drift, the receiver's firewall begins to buffer at most e after it is due (5 ms before the start), and drift + e <= 5 ms, then every message of the run that comes in up to one second after the protocol is over finds the firewall buffering or forwarding; with room in the buffer none is dropped. Hence members in several processes sign, or generate a key (C103, C108), with no assumption on the firewalls but these times.", "quantifier": "all executions of any number of processes, starts, clock differences and timer latenesses within the bound", "why_tests_cant": "Concurrent executions of several processes with different clocks.", "anchors": ["siggy/src/signode/runner.go: _runner_run_guest", "siggy/src/protocol/firewall.go: fw_set_allowance,_fw_state_step,fw_process", "siggy/src/net/net_listener.go: Receive"]}
{"id": "C122", "title": "What a request prints", "statement": "A request to sign prints nothing until its runs, of all guests, are over; it then prints one line with the run id and after that one line for each guest: the signature it took for the guest, or, if there is none, that there is none, with the run id and the guest. A request for key generation prints, after its runs, one line for each guest with the guest and its key share. A request that has returned has printed exactly these lines, the guests each once in some order; at any earlier time, a beginning of them. Nothing else is printed, and every output that is taken is printed. The printed form of a signature is the address byte by byte and the integer, in decimal, and determines the signature; a line of this form is printed only by a request to sign that took this very signature for a guest. If the members' shares are right and the run id was used once, such a line is a valid signature of the document of the request that printed it, under the key of a guest.", "quantifier": "all histories of a node, all signatures", "why_tests_cant": "Concurrent histories of many requests; unboundedly many byte strings and integers are printed.", "anchors": ["siggy/src/signode/run_sig.go: _run_sig", "siggy/src/signode/run_longterm.go: _longterm", "ch/core/services/signatures/ethschnorr/ethschnorr.go: Signature"]}
{"id": "C123", "title": "The texts of points and scalars identify them", "statement": "String of a point is Secp256k1{X: fieldElt{x}, Y: fieldElt{y}} and of a scalar scalar{s}, where the integers are in hexadecimal: lower case, no leading zeros, a minus sign if negative; SetString with base 16 reads such a text back as the integer. So two points of the group have the same String exactly if they are Equal, two scalars (reduced, as all operations leave them) likewise, and no String is both that of a point and of a scalar.", "quantifier": "all integers, points and scalars", "why_tests_cant": "The input space is 2^256-sized; tests compare the texts of zero.", "anchors": ["ch/core/services/signatures/secp256k1/point.go: String", "ch/core/services/signatures/secp256k1/field.go: String", "ch/core/services/signatures/secp256k1/scalar.go: String"]}
{"id": "C124", "title": "Lengths, fresh elements and identifiers of the group", "statement": "ScalarLen and PointLen are the lengths of all encodings, and nothing of another length is decoded. A fresh scalar is zero and can be encoded; a fresh point is the neutral element, which cannot be encoded. MarshalID tells scalars from points.", "quantifier": "all scalars, points and byte strings", "why_tests_cant": "The input space is 2^256-sized (or unbounded); tests sample a handful of values.", "anchors": ["ch/core/services/signatures/secp256k1/curve.go: Scalar,Point,ScalarLen,PointLen", "ch/core/services/signatures/secp256k1/point.go: MarshalSize,MarshalID", "ch/core/services/signatures/secp256k1/scalar.go: MarshalSize,MarshalID"]}
