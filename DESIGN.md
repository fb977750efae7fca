# Formal model of MuKnSys/signing-tool: design

Everything is under `rocq/theories/` (logical name `Verif`), Coq 8.16.1, standard
library only (plus nothing from mathcomp, std++, Iris or the other installed libraries).

## 1. Layout of the development

Each area has a model (the Go code, function by function, every definition citing
file and lines), a small specification with the vocabulary of the statements, proofs, and
a `Props*.v` file with the property theorems, their non-vacuity `Example`s and
`Print Assumptions`.

| area | code in /repo | model | vocabulary | proofs | statements |
|---|---|---|---|---|---|
| mathematics | (none) | | | `NumTh FastP PrimeP PrimeN Zmod ECGroup Curve OrderCert Order Lagrange` | |
| common | btcec constants, math/big bytes, Go outcomes, three-level maps | `Params Bytes Res KMap` | | | |
| curve, keys | `ch/.../secp256k1/{field,scalar,point,curve,suite}.go` | `Secp Stream Keys` | `Spec StreamSpec` | `SecpProofs SecpProofs2` | `PropsSecp PropsEqual PropsKeys PropsStream` |
| public keys, Schnorr | `secp256k1/public_key.go`, `core/utils/utils.go`, `ethschnorr/ethschnorr.go` | `PublicKey Schnorr Heap` | `Spec` | `SchnorrProofs` (and in `Heap`) | `PropsSchnorr` |
| threshold signatures | `ethdss/ethdss.go` | `Dss` | `DssSpec` | `DssProofs DssProofs2 DssProofs3` | `PropsDss` |
| random generator | `csprng/csprng/csprng.go` | `Csprng` | `CsprngSpec` | `CsprngProofs` | `PropsCsprng` |
| wire structs, key file | `siggy/src/protocol/{dkg_dto,dss_dto}.go`, `signode/longterm_db.go` | `Dto` | `DtoSpec` | `DtoProofs` | `PropsDto` |
| one protocol run | `protocol/prot.go` | `Prot` (`ProtToy`: example protocol) | `ProtSpec TimeSpec` | `ProtProofs`, `ProtProofs2`..`6`, `TimeProofs`, `TimeProofs2` | `PropsProt PropsTime` |
| key generation and signing stages | `protocol/{dkg,dss}.go` | `DkgProt` | `DkgSpec` | `DkgProofs DkgEnd` | `PropsDkg PropsOutputs` |
| outputs | `protocol/prot.go` 311-336 | `Outputs` | | | `PropsOutputs` |
| firewall | `protocol/firewall.go` | `Firewall` | `FwSpec` | `FwProofs`, `FwProofs2`..`4`, `EndProofs`, `EndProofs2`..`4` | `PropsFw PropsEnd PropsOpen PropsOpen2`..`PropsOpen4` |
| outgoing queues | `net/net_caller.go` | `Net Connect` | `NetSpec ConnectSpec` | `NetProofs` | `PropsNet PropsConnect` |
| termination observers | `protocol/prot.go` 285-310 | `Observers` | `ObsSpec` | `ObsProofs` | `PropsObs` |
| configuration | `layout/*.go`, `util/file.go`, `base/base.go`, `hostcomp/*.lisp`, `s2j/*.lisp` | `Layout Hostcomp` | `LayoutSpec HostcompSpec` | `LayoutProofs LayoutProofs2` | `PropsLayout PropsHostcomp` |
| several members signing | as for one run and DSS | - | `SignSpec` | `SignProofs`, `SignProofs2` | `PropsSign` |
| a running node | `protocol/prot.go` (run table, queues), `dss.go` (documents), `signode/{runner,run_sig,run_longterm}.go` | `Node` | `NodeSpec FairSpec ObjSpec ReachSpec` | `NodeRun NodeRun2 NodeProofs`, `NodeProofs2`..`11`, `ObjProofs`, `ObjProofs2`, `ObjProofs3`, `ReachProofs`, `ReachProofs2`, `DocsProofs` | `PropsNode`, `PropsNode2`..`5`, `PropsObj`, `PropsReach`, `PropsDocs` |
| several nodes | `net/net_caller.go`, `net/net_listener.go`, `protocol/prot.go` (sending, receiving) between processes | `Cluster` | `ClusterSpec DeliverSpec ClockSpec` | `ClusterProofs`, `ClusterProofs2`..`5`, `ClusterDemo ClusterDemo2` | `PropsCluster PropsCluster2 PropsCluster3 PropsCluster4 PropsClock` |
| honest runs | `protocol/dkg.go`, `protocol/dss.go`, `protocol/prot.go` with all members taking part | (as above) | `FlowSpec HonestSpec` | `FlowProofs HonestProofs` to `HonestProofs4`, `HonestDemo` | `PropsHonest` |
| starting a process | `signode/signode.go`, `protocol/prot.go:84-131`, `util/{file,prim}.go`, `keygen/keygen.go` | `Main` | `MainSpec DeploySpec` | `MainProofs` | `PropsMain PropsMain2 PropsMain3` |
| texts | `ch/.../secp256k1/{field,point,scalar}.go` (`String`) | `Text` | `ReqSpec` | | `PropsText` |
| the group | `ch/.../secp256k1/curve.go` (lengths, fresh elements), `MarshalSize`, `MarshalID` | `Group` | `Spec` | | `PropsGroup` |
| printing | `signode/{run_sig,run_longterm}.go` | `Print` | | `PrintProofs` | `PropsPrint PropsPrint2` |
| requests | `signode/{run_sig,run_longterm}.go` | `Requests` | `ReqSpec` | `RequestsProofs` | `PropsReq` |

## 2. Modelling decisions

* `*big.Int` is `Z`. A method that mutates its receiver is a function from the old
  receiver (where its old value matters) to the new one. Where aliasing is the point
  (C28, C81) an explicit heap is used (`Heap.v`).
* Go's `int` and `uint32` are `Z`; where a value of the wire is converted, the range
  that matters is a hypothesis of the statement.
* Errors are values: `Ok v | Err | Panic` (`Res.v`). nil pointers / nil interfaces and foreign
  dynamic types are explicit constructors.
* Points are coordinate pairs as btcec keeps them: affine integers, with (0,0) for
  the identity.  btcec's `Add/ScalarMult/ScalarBaseMult` are modelled by the textbook
  affine chord-and-tangent law and by repeated addition (contract B1 below); nothing
  about groups is assumed: associativity, order and cofactor are proved.
* The hash functions (keccak-256, kyber's share hash) are variables, quantified in the theorems;
  theorems that need 32-byte output say so. No collision resistance is assumed; where
  it matters the theorem's conclusion exhibits the collision.
* Random streams and map iteration orders are arbitrary functions/lists, quantified universally.
* Goroutines are threads of an explicit transition system whose steps are the code's
  critical sections (each is guarded by a mutex or is a channel operation); theorems
  quantify over all event lists, that is over all interleavings. Time is an integer supplied by
  the environment, only assumed monotone and that a sleep of d does not end before d has passed.
* Network peers are adversarial: any message with any field values may arrive at any time.
* A panic of any goroutine ends the process; the model then records no further steps.

## 3. External contracts (trusted)

* B1 btcec `KoblitzCurve`: Add and ScalarMult compute the group law on reduced affine
  coordinates with (0,0) as identity.
* B2 Go `math/big`: exact integers; `Mod` Euclidean; `ModInverse`; `Exp`; `Bytes` minimal big-endian;
  `SetString(s, 16)`.
* B3 kyber `share`: `PubPoly.Eval` (Horner at i+1), `RecoverSecret` (sorted by index,
  invalid dropped, first t, Lagrange at 0), `PriShare.Hash` an unspecified function.
* B4 kyber `random.Int`: a value in [1,mod) or non-termination. AES-CTR keystream: any
  function of (key, position).
* B5 kyber's `dkg/rabin` and `vss/rabin` objects are opaque: any state type and any functions of the right
  shape that do not panic (record `kyber` in `DkgProt.v`). Theorems that need key generation to
  have dealt correct shares say so as a hypothesis (`shares_ok`, `right_share`, `well_dealt`).
* B6 gob, net/rpc, net/http, encoding/json, bufio, time.Parse and the file system are not modelled; what
  they deliver is quantified over (for the start of a process: the record `world` of `Main.v`).
* B7 Go channels, mutexes, `fmt.Println`, `time`, `io.Writer` and `io.ReadFull` behave as documented.

## 4. What is modelled and what is not

Modelled: all functions of the files in the table of section 1, except the following.

* Warnings and logging anywhere, `String` of the curve. (What `_run_sig` and `_longterm` print on standard output is in `Print`, beside `Node`.)
* `suite.go`: `Read`/`Write` (kyber's `fixbuf`), `Hash`, `XOF`.
* `net_listener.go`: listening and serving; an incoming RPC is an event carrying any message.
  Closing connections in `net_caller.go`.
* `signode.go`, `keygen.go`: decoding of JSON and gob, time.Parse, the checks of kyber's NewDistKeyGenerator (an abstract predicate), net.Listen (an abstract predicate) and serving.
* `hostcomp` and `s2j`: reading and printing of S-expressions and of JSON text; what is computed from the
  expressions is modelled (`Hostcomp`), with cl-json's text for a symbol as a parameter.
* `siggy/build` is a copy of `siggy/src` made by the build scripts.

## 5. Properties

"refuted" theorems: the property as the documentation or a user would state it is false of
the code; the theorem named `..._refuted` gives the witness and companion theorems say what does hold.
Theorems below are named `<id>_<name>`.

How they are proved:

| ids | proof |
|---|---|
| C01-C04, C19 | modular arithmetic; C04, C19 refuted with exact characterisation |
| C05-C08, C15 | Euler criterion for p = 3 mod 4, big-endian lemmas; C08 refuted with characterisation |
| C09, C10 | associativity from the complete addition formulas (polynomial identities by `ring`), no 2-torsion, order by a certificate for N*G=0, cofactor 1 by counting cosets |
| C11-C14, C18 | group order, codecs, induction on the retry loop |
| C16, C17 | codecs, hex by finite case analysis |
| C20 | case analysis on an explicit model of reflect types |
| C21-C28, C81 | group algebra; byte-string injectivity; heap model for C28, C81 |
| C29-C37 | Lagrange interpolation over Z/N, invariants over call lists |
| C38-C40 | induction over call lists |
| C41-C43 | round-trips by induction |
| C44-C52, C90 | invariants of the two-thread machine over all event lists (C90: timed ones) |
| C53-C55 | case analysis over all messages |
| C56-C60, C86 | invariants over event lists of the run table, observers, outputs |
| C61-C66 | invariants and refinement of the firewall to what each run's trace shows |
| C67-C69 | invariant over failure schedules |
| C70-C74 | permutations, sortedness, case analysis over configurations |
| C75-C80, C82-C85, C87, C88 | invariants of the composed node over event lists; decimal and hexadecimal lemmas |
| C91, C92 | induction over handled partial signatures; C90 for arrival in time |
| C93-C95 | a node's run object refines an execution of the run machine; C92 carried over to nodes |
| C96 | the firewall of a node refines a firewall; invariant: what a consumer took for a run is what its object received and what is held |
| C97 | each process of a cluster refines a node and each lane an outgoing queue; what comes in, is called, is put in a lane and is sent are compared as sequences and multisets; the firewall passes a subsequence of what comes in |
| C98 | a send of a run is a put into its lane (C97); the call that carries it is followed by its coming in; the firewall passes it on (C96; C62 if it was buffered), the queue accepts it, and when nothing for the run waits any more, the run has got it; then C95 |
| C99 | invariant of executions: the data, what was done and whether it gave up equal the data flow of the stages entered so far, with the messages handled in each; messages for a stage are handled while it is the present one |
| C100 | by C90 every message is taken up, so by C99 each run's data flow is over exactly the others' messages; phase by phase (deals, responses, commitments) what a member sends is determined by what it got, in whatever order; then `works` gives the output |
| C101 | the state at the end of the nonce generation, from the proof of C100, is the readiness that C92 asks for |
| C102 | the document map holds the run's document from before the run is made until the request waits no longer, which is after the run has ended; induction over the history of the node |
| C103 | from C97 and the delivery lemma of C98, what the runs of the members receive is what C100's connectedness asks for; C102 gives document and share; so all are ready (C101) and C98 applies |
| C107 | C106 gives what C103 assumes of the set-up of the processes |
| C108 | as C103 without the signing half: delivery between the nodes gives C100's connectedness for the run of each member; what is popped was delivered by that run (C85) |
| C109 | C106 gives what C108 assumes of the set-up; by C108 the first round delivers shares of one key, so C79's loop ends with it |
| C110 | C109's shares go through save and load (C43, C104) and are what C107 asks for |
| C111 C112 | induction over the chunks that a reader delivers; C03 and C06 for each item |
| C113-C115 | induction over attempts and rounds with bounds on the delays; C115: invariant that no nil is ever announced, and C67 |
| C116 | each step inverted: expressions, JSON values and C74 for loading |
| C117 | equality modulo p of coordinates; the isomorphism with the group (`Curve`, `Order`), whose order is odd |
| C118 | C97 (queues of a cluster are queues) with C115 |
| C119 | round trips of C06 and C05; 7 is no square modulo p (by computation) |
| C120 | the schedule invariant of C47 with the lateness bound; the invariant of the firewall at each entered phase; a message can be in a queue, and a guest can make a run, only after the buffering began; at most one allowance per run asked for once |
| C121 | cut the execution after the call that brings the message in: it was sent before (C97), so its run was made, no earlier than the start (C76), at a time the sender's clock had reached; the receiver has begun to buffer by then, and stays open (C120) |
| C122 | invariant over histories: what a request has printed, by its phase; decimal numbers contain no spaces or brackets, so the printed form can be read back |
| C123 | hexadecimal numerals of the standard library, related to the positional value of the digits; the closing brace is no digit |
| C89 | ranking of each goroutine's position, over infinite fair schedules |

| id | property | in | theorems |
|---|---|---|---|
| C01 | Scalar arithmetic is arithmetic mod the group order | PropsSecp.v | `scalar_arithmetic` |
| C02 | Scalar division and inversion | PropsSecp.v | `division`, `division_panics`, `inversion`, `inversion_of_zero` |
| C03 | Scalar binary encoding round-trips | PropsSecp.v | `scalar_encoding`, `scalar_decoding_fails_iff`, `scalar_encoding_injective` |
| C04 | Scalar decoding is canonical (expected to fail) | PropsSecp.v | `scalar_decoding_canonical_refuted`, `ambiguous_strings` |
| C05 | Point decoding accepts exactly the curve's compressed points | PropsSecp.v | `decodes_iff`, `decoded_point`, `never_panics` |
| C06 | Point binary encoding round-trips | PropsSecp.v | `point_roundtrip`, `point_encoding_injective` |
| C07 | MarshalBinary fails exactly off the curve, including at the identity | PropsSecp.v | `marshal_fails_iff_off_curve`, `marshal_never_panics`, `identity_not_encodable` |
| C08 | Point decoding is canonical (expected to fail) | PropsSecp.v | `point_decoding_canonical_refuted`, `only_ambiguity` |
| C09 | Points form an abelian group | PropsSecp.v | `abelian_group`, `chord`, `tangent`, `negation` |
| C10 | Scalar multiplication is a Z/N action and the group has prime order N | PropsSecp.v | `scalar_action`, `cyclic_of_order_N`, `nil_is_the_base_point` |
| C11 | Key pairs are sound | PropsSecp.v | `key_pairs_sound`, `distinct_keys`, `zero_key_unusable` |
| C12 | ValidPublicKey decides curve membership | PropsSecp.v | `valid_public_key_iff` |
| C13 | ValidPublicKey means usable on-chain (expected to fail) | PropsSecp.v | `valid_means_onchain_usable_refuted`, `onchain_usable_is_valid` |
| C14 | Embed and Data round-trip | PropsSecp.v | `embed_roundtrip`, `embed_panics_iff`, `data_spec` |
| C15 | Uncompressed encoding round-trips and validates | PropsSecp.v | `long_roundtrip`, `long_unmarshal_iff`, `long_unmarshal_never_panics`, `set_coordinates` |
| C16 | PublicKey address agrees with the point's address | PropsSchnorr.v | `address_agrees`, `bad_key_has_zero_address` |
| C17 | PublicKey text and database forms round-trip | PropsSchnorr.v | `roundtrips`, `parses_iff`, `failure_keeps_receiver` |
| C18 | Random picks are in range for every stream | PropsSecp.v | `scalar_pick`, `point_pick`, `generate`, `generate_returns` |
| C19 | RepresentsScalar is a range check (expected to fail) | PropsSecp.v | `represents_scalar_range_refuted`, `exactly_below_N`, `range_for_nonnegative` |
| C20 | Suite.New constructs by type (expected to fail) | PropsSecp.v | `new_by_type_refuted`, `new_only_for_nil_type` |
| C21 | Signatures verify | PropsExact.v, PropsSchnorr.v | `foreign_key`, `signers`, `signatures_verify`, `any_nonce` |
| C22 | Verify accepts exactly the Schnorr relation | PropsSchnorr.v | `verify_iff`, `verify_total`, `nil_signature_panics` |
| C23 | Sign rejects messages that are not uint256 (expected to fail) | PropsSchnorr.v | `sign_rejects_bad_messages_refuted`, `bad_message_signed_but_unverifiable` |
| C24 | The challenge binds key, message and commitment | PropsSchnorr.v | `challenge_is_hash_of_input`, `input_injective`, `sign_not_bound` |
| C25 | The challenge equals the on-chain challenge (expected to fail) | PropsSchnorr.v | `onchain_parity_refuted`, `agree_iff_large`, `smaller_messages_hash_shorter_strings` |
| C26 | A reused nonce reveals the key; different nonces are needed | PropsSchnorr.v | `nonce_reuse_reveals_key`, `signature_formula` |
| C27 | No second response for one commitment | PropsSchnorr.v | `second_response_is_a_collision` |
| C28 | Verify has no side effect on its arguments | PropsSchnorr.v | `verify_pure` |
| C29 | Accepted partial signatures are correct | PropsDss.v, PropsExact.v | `commitments_have_polynomials`, `accepted_iff`, `collected_partials_correct`, `session_binds` |
| C30 | Honest partial signatures are accepted | PropsDss.v | `honest_partial_accepted`, `partial_available` |
| C31 | The threshold signature verifies under the group key | PropsDss.v | `signature_verifies` |
| C32 | All participants produce the same signature | PropsDss.v | `same_signature` |
| C33 | A rejected partial signature changes nothing; accepted ones are counted once | PropsDss.v | `rejected_changes_nothing`, `accepted_is_new`, `call_sequences`, `own_index_twice_refuted` |
| C34 | Signature availability | PropsDss.v | `available_iff_distinct`, `enough_iff_signature`, `enough_but_no_signature_refuted` |
| C35 | PartialSig is idempotent on the share | PropsDss.v | `partial_idempotent` |
| C36 | ProcessPartialSig never panics (expected to fail) | PropsDss.v | `negative_index_panics_refuted`, `panics_iff` |
| C37 | A document that is not a uint256 is refused before signing (expected to fail) | PropsDss.v | `out_of_range_signed_refuted`, `out_of_range_signature_rejected` |
| C38 | Fill overwrites completely and independently of prior contents | PropsCsprng.v | `independent_of_contents`, `fill_total` |
| C39 | No keystream byte is ever output twice and no key is used for more than 1 MiB | PropsCsprng.v | `consecutive`, `output`, `no_reuse`, `concurrent`, `concurrent_length` |
| C40 | XORKeyStream checks lengths first | PropsCsprng.v | `mismatch_panics_first`, `match_is_fill`, `panics_iff` |
| C41 | Protocol messages survive the wire format | PropsDto.v | `roundtrip`, `commits_refused_iff` |
| C42 | Malformed wire structs are rejected, never half-accepted | PropsDto.v | `decodes_iff`, `never_panics`, `decoded_reencodes` |
| C43 | Long-term shares survive save and load | PropsDto.v | `save_load`, `load_checks` |
| C44 | Received messages are conserved | PropsProt.v | `messages_conserved`, `messages_conserved_overall`, `only_late_dropped` |
| C45 | Messages are handled only in their stage | PropsProt.v | `processed_in_stage`, `arrival_order` |
| C46 | Stages run once, in order | PropsProt.v | `stages_in_order`, `all_stages` |
| C47 | Stage schedule does not drift | PropsDkg.v, PropsProt.v | `timeouts`, `schedule` |
| C48 | Every run terminates | PropsProt.v | `terminates` |
| C49 | No message leaves before its stage | PropsProt.v | `sent_in_stage` |
| C50 | Broadcast reaches every other member exactly once and never self | PropsProt.v | `broadcast`, `multicast`, `headers` |
| C51 | Abandonment is final | PropsDkg.v, PropsProt.v | `dkg_dss`, `abandonment_final`, `nothing_sent` |
| C52 | Nothing is processed after termination | PropsDkg.v, PropsProt.v | `dkg_dss`, `nothing_after_termination`, `data_untouched` |
| C53 | Sender fields are bound | PropsDkg.v | `sender_bound` |
| C54 | Honest justifications are accepted (expected to fail) | PropsDkg.v | `only_own_complaints`, `answers_refused`, `refuted` |
| C55 | No network message crashes the node (expected to fail) | PropsDkg.v | `bare_response_crashes`, `unsigned_partial_crashes`, `others_handled_dkg`, `others_handled_dss`, `refuted` |
| C56 | Finished runs are removed (expected to fail for DKG) | PropsNode.v | `signing_runs_removed`, `each_signal_removes`, `key_generation_runs_stay`, `every_run_removed_refuted` |
| C57 | Network messages cannot delete runs or reach foreign guests | PropsNode.v | `incoming`, `queues`, `removals` |
| C58 | Termination observers are told exactly once | PropsObs.v | `no_send_or_close_on_closed`, `told_at_most_once`, `telling_never_waits`, `observers_of_listed_runs_told`, `observers_registered_in_time_told`, `told_only_after_termination` |
| C59 | Outputs are delivered once | PropsOutputs.v | `pop_returns_last_push`, `second_pop_empty` |
| C60 | A signing run leaves no secret behind (expected to fail) | PropsOutputs.v | `nonce_share_stays`, `signing_leaves_nothing_refuted` |
| C61 | The firewall denies by default | PropsFw.v | `deny_by_default` |
| C62 | The firewall preserves order and multiplicity per run | PropsFw.v | `order_and_multiplicity` |
| C63 | Firewall buffers are bounded and emptied | PropsFw.v | `buffers_bounded`, `fresh_allowance_starts_empty` |
| C64 | Revocation is complete | PropsFw.v | `revocation_complete` |
| C65 | Runs are isolated in the firewall | PropsFw.v | `runs_isolated`, `other_runs_do_not_matter` |
| C66 | Allowance observers see each phase once | PropsFw.v | `fresh_told_each_phase`, `repeated_changes_nothing`, `never_blocks` |
| C67 | Outgoing messages are delivered at most once and in order | PropsNet.v | `calls_in_order_at_most_once`, `every_message_accounted_for`, `calls_connected_drops_disconnected`, `reliable_while_connected` |
| C68 | A message whose call failed is retried (expected to fail) | PropsNet.v | `failed_call_never_repeated`, `failure_noticed_only_by_next_message`, `refuted` |
| C69 | Sending never blocks and queues are bounded | PropsNet.v | `send_never_waits`, `queue_bounded`, `refused_leaves_no_trace` |
| C70 | All nodes agree on member indices | PropsLayout.v | `nodes_agree_on_members`, `member_list`, `load_fails_iff` |
| C71 | Guests are located by their secret | PropsLayout.v | `guests_are_members_with_a_secret`, `every_secret_finds_its_member`, `other_secrets_ignored`, `guest_addresses` |
| C72 | Members map to their host | PropsLayout.v | `compiled_config_parses`, `members_map_to_their_host`, `every_queue_exists` |
| C73 | Unknown key files are rejected (expected to fail) | PropsLayout.v | `unknown_file_becomes_member_0`, `redirects_member_0`, `refuted` |
| C74 | Configuration parsing is faithful | PropsLayout.v | `config_parsed_faithfully`, `otherwise_panics` |
| C75 | Only locally requested documents are signed | PropsNode.v | `only_requested_runs`, `only_requested_documents` |
| C76 | Nothing is said before the start time | PropsNode.v | `not_before_start`, `silent_before` |
| C77 | Run ids identify requests (expected to fail in general) | PropsExact2.v, PropsReq.v | `signing_id`, `kinds_apart`, `ids_distinct_refuted`, `same_millisecond`, `ids_distinct` |
| C78 | Deleted runs stay deleted | PropsNode.v | `not_recreated` |
| C79 | Long-term key generation stops after one valid round | PropsExact.v, PropsNode2.v, PropsReq.v | `round_times`, `rounds_apart`, `round_names`, `node_returns_complete`, `returned_shares`, `one_round`, `failure_panics`, `round_ids` |
| C80 | Signing requests are parsed exactly | PropsReq.v | `triples`, `outcome`, `every_document` |
| C81 | The scalar and point API is aliasing-safe | PropsSchnorr.v | `aliasing_safe` |
| C82 | Every request returns (expected to fail for reused ids) | PropsNode.v | `duplicate_never_returns`, `every_request_returns_refuted` |
| C83 | Incoming queues are first in, first out | PropsNode.v | `queues_fifo` |
| C84 | Every signature a node outputs verifies | PropsNode2.v | `output_verifies`, `returned_verifies` |
| C85 | Key generation returns only shares of a certified and finished generator | PropsNode2.v | `output_finished`, `returned_finished` |
| C86 | An ended signing run forgets its signing session | PropsOutputs.v | `ended_run_forgets` |
| C87 | A returned request leaves no activity behind | PropsNode3.v | `silent_after_return`, `document_forgotten` |
| C88 | A node survives what comes in | PropsNode4.v | `node_survives`, `signing_node_survives`, `any_requests_refuted` |
| C89 | Requests with fresh ids return on every fair schedule | PropsNode5.v | `requests_return`, `signing_requests_return` |
| C90 | Messages between punctual members are not dropped | PropsTime.v | `deadline`, `none_late`, `sent_early`, `in_time` |
| C91 | Enough ready members produce a signature, all the same one | PropsSign.v | `partial_sent`, `enough_partials`, `same_signature` |
| C92 | A timely threshold of members signs | PropsSign.v | `members_sign` |
| C93 | What is proved of a run holds of the runs of a node | PropsObj.v | `every_run_object`, `run_is_execution` |
| C94 | A request returns the signature its run made | PropsObj.v | `returns_last`, `returned_once`, `signature_returned` |
| C95 | Enough timely members return the same valid signature | PropsObj.v | `nodes_sign` |
| C96 | Messages reach their run in order, once, and only a full queue loses them | PropsReach.v | `node_has_firewall`, `in_order_once`, `firewall_to_queue`, `arrivals_reach_run` |
| C97 | Between nodes, what a run receives from a member is what that member's run sent | PropsCluster.v | `processes`, `queues`, `arrivals`, `run_to_run`, `stage_to_stage` |
| C98 | Between nodes, a timely threshold of members signs | PropsCluster2.v | `arrives_in_time`, `cluster_signs` |
| C99 | What a run computes depends only on the messages of each stage | PropsHonest.v | `run_computes`, `timing_irrelevant` |
| C100 | Members who all take part generate a key | PropsHonest.v | `key_generated` |
| C101 | Members who all take part sign a document | PropsHonest.v | `members_sign` |
| C102 | A signing run finds its document until it ends | PropsDocs.v | `document_found` |
| C103 | Between nodes, members who all take part sign a document | PropsCluster3.v | `cluster_signs` |
| C104 | A process starts as its command line, configuration and files say | PropsExact.v, PropsMain.v | `secret_names`, `set_up`, `long_term_shares`, `starts_iff`, `every_threshold` |
| C105 | Generated keys are accepted | PropsExact.v, PropsMain.v | `file_names`, `keygen`, `generated_key_is_guest` |
| C106 | Processes deployed from one configuration fit together | PropsMain.v | `deployment` |
| C107 | Processes deployed from one configuration sign | PropsMain2.v | `deployed_processes_sign` |
| C108 | Between nodes, members who all take part generate a key | PropsCluster4.v | `cluster_generates` |
| C109 | Processes deployed from one configuration generate a key | PropsMain3.v | `generated_shares` |
| C110 | Generate, then sign | PropsMain3.v | `generate_then_sign` |
| C111 | Streams of points and scalars are read back as written | PropsStream.v | `stream_roundtrip`, `reads_what_is_next` |
| C112 | Failing streams are reported and leave the receiver alone | PropsStream.v | `short_stream`, `failed_write` |
| C113 | A peer that becomes reachable is connected to in bounded time | PropsConnect.v | `reconnects`, `announcements`, `not_busy` |
| C114 | Peers have 2.4 seconds to start | PropsConnect.v | `prompt_peer`, `sharp` |
| C115 | No message to a peer that starts in time is dropped | PropsConnect.v | `prompt_peer_no_drops`, `same_announcements` |
| C116 | A compiled configuration is the source's first hosts form, or is refused | PropsHostcomp.v | `source_is_used`, `compiled_file`, `stale_intermediate_file` |
| C117 | Equal on points is equality of group elements | PropsEqual.v | `equal_coordinates`, `equal_is_equality`, `equal_public_keys`, `opposite` |
| C118 | Processes that start within 2.4 seconds of each other lose no messages between them | PropsClock.v | `nothing_lost`, `few_messages` |
| C119 | Further forms of keys | PropsKeys.v | `from_bytes`, `key_of_point`, `is_zero`, `uncompressed`, `must_hash`, `scalar_to_hash` |
| C120 | Runs keep their schedule and the firewall stays open for them | PropsEnd.v | `stages_in_time`, `ends_in_time`, `phases_not_early`, `open_from_buffering`, `open_when_made`, `open_while_running` |
| C121 | Clocks that agree to 5 ms suffice for messages to be let in | PropsOpen.v, PropsOpen4.v | `allowance`, `buffers_when_due`, `not_before_start`, `lets_in`, `cluster_signs`, `cluster_generates`, `timers_open` |
| C122 | What a request prints | PropsPrint.v, PropsPrint2.v | `returned_printed`, `printed_in_order`, `printed_after_the_runs`, `only_requests_print`, `outputs_printed`, `signature_form`, `signature_readable`, `signature_line`, `signature_line_verifies` |
| C123 | The texts of points and scalars identify them | PropsText.v | `hex_form`, `hex_reads_back`, `text_forms`, `point_text`, `point_text_equal`, `scalar_text`, `kinds_differ` |
| C124 | Lengths, fresh elements and identifiers of the group | PropsGroup.v | `lengths`, `fresh`, `identifiers` |

## 6. Trusted base

* Coq 8.16.1's kernel, including its virtual machine (`vm_compute` is used for the primality and
  order certificates and in examples).
* `Print Assumptions` of every one of the 330 theorems listed above answers
  "Closed under the global context": no axiom at all, neither of the standard library nor of
  this development. (Each is printed in its `Props*.v` file during the build.)
* `coqchk` checks the compiled files; the context summary it prints has seven entries
  `Coq.ssr.ssrunder.Under_rel.*`: parameters of a module of Coq's own ssreflect library, loaded by modules of the
  standard library. No theorem depends on them.
* The contracts B1-B7 and the reading of the Go code recorded in the comments of the model.

## 7. Testing the statements

`seeded/LOG.jsonl` has one line per wrong program tried: a definition of the model is edited in a
scratch copy the way a bug would change the code, the development is rebuilt, and the theorems that no
longer prove are recorded. Where no theorem of the broken claim failed, the statement was tightened.
