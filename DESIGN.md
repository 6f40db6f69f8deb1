# Formal model of the Tezos Ledger app (Zondax/ledger-tezos)

The model is written in Rocq (Coq 8.16.1), standard library only, in
`rocq/theories`. It models the Rust code in `/repo/rust` and the host library in
`/repo/js/src` function by function;
every definition cites the file and lines it models. Properties are listed in
`properties.jsonl`, their status in `MANIFEST.json`.

## Conventions of the model

* A byte is an `N`, a byte string a `list N`. Where a statement needs it, the
  bytes are required to be below 256 (`bytes_ok`).
* `u8/u16/u32/u64/usize` arithmetic that can wrap is written with an explicit
  `mod`; `usize` is 32 bits (the device is a 32-bit ARM and the release profile
  has no overflow checks).
* A parser returns `POk rest value`, `PErr` (a `nom` error) or `PPanic`.
* A device computation returns `Ok`, `Err e` (status word `e`), `Panic`
  (`exit_app(255)`; RAM lost, flash kept) or `Cut` (power lost, ditto).
* A flash page write asks a schedule (an arbitrary list in the device state)
  what happens: it succeeds, it reports an error leaving an arbitrary page, or
  power is lost leaving an arbitrary page.
* Hashes, key derivation and signing are the fields of a record (`Oracles.v`);
  theorems quantify over all its values. Where the size of an answer matters the
  hypothesis `oracles_ok` says that answers have the right size; nothing else is
  assumed of them (no collision resistance, no unforgeability). CRC-32 and
  base58 are implemented concretely.
* The device (`Device.v`) is a transition system over events: an APDU (arbitrary
  buffer and length), approval, rejection, a display error, power cycle. A ghost
  log `d_log` records each successful call of the signing primitive, with the
  message whose digest was signed.
* The device with its screen (`Zui.v`, `UiDevice.v`) is a transition system over
  inputs: an APDU, a button, power cycle. `z_seen` records the screens shown
  since the review began. C48 relates its histories to those of `Device.v`.
* The host library (`Client.v`) is a set of functions over any transport.
  `plugged` is the transport to the modelled device: before each command the APDU
  buffer may hold anything, and a schedule says what the user does with a review.

## Files

| Layer | Model | Specification | Properties |
|---|---|---|---|
| flash slots | `Flash` | `FlashSpec` | `PropsFlash` |
| watermark and key encodings, paths, status words | `Codecs` | `CodecsSpec` | `PropsCodecs` |
| upload buffer, lock, packets, APDU buffer | `Upload` | `UploadSpec` | `PropsUpload` |
| consensus messages and the watermark rule | `Baking` | `BakingSpec` | `PropsBaking` |
| operations | `Operations` | `OperationsSpec` | `PropsOperations` |
| addresses, base58 | `Address` | `AddressSpec` | `PropsAddress` |
| device | `Device` | `DeviceSpec` | `PropsConsensus`, `PropsDevice` |
| contents of the slots, requests that are served | `Device` | `ServiceSpec` | `PropsService` |
| texts, table of bakers | `Text`, `Bakers`, `KnownBakers` | `TextSpec`, `BakersSpec` | `PropsText` |
| screens of the reviews | `Screens` | `ScreensSpec` | `PropsScreens` |
| what the screens tell apart | `Screens` | `LooksSpec` | `PropsLooks` |
| buttons | `Zui`, `UiDevice` | `UiSpec` | `PropsUi` |
| stored key, set-up, HMAC, versions | `Device` | `ServiceSpec` | `PropsAdmin` |
| host library | `Client` | `ClientSpec` | `PropsClient` |
| what depends on the private keys | `Device`, `UiDevice` | `SecretSpec` | `PropsSecret` |
| what stops the app | `Device` | `StopSpec` | `PropsStop` |
| accepted packets and signatures | `Device` | `AcceptedSpec` | `PropsAccepted` |
| sizes of signed messages | `Device`, `Upload` | `UploadSpec` | `PropsSize` |
| interrupted commands | `Device` | `InterruptSpec` | `PropsInterrupt` |
| what the device remembers | `Device` | `MemorySpec` | `PropsMemory` |
| an ideal app | `Device` | `IdealSpec` | `PropsIdeal` |
| keys, signatures and hashes over the system calls | `Element` | `ElementSpec` | `PropsElement` |
| exceptions of the system, main loop | `Catch`, `Loop` | `LoopSpec` | `PropsLoop` |
| question for the running app | `AppInfo` | `AppInfoSpec` | `PropsAppInfo` |
| documented protocol | `Device` | `DocSpec` | `PropsDoc` |
| conversations of the host library | `Client` | `TalkSpec` | `PropsTalk` |
| developer builds | `DevBuild` | `DevSpec` | `PropsDev` |
| version file, flash memory, lazy statics | `BuildTime` | `BuildSpec` | `PropsBuild` |
| requests decided by hand | (composition) | `HandSpec` | `PropsHand` |
| host library on a device in a user's hands | `Desk` | `DeskSpec` | `PropsDesk` |
| signatures a host gets | (composition) | `ReturnedSpec` | `PropsReturned` |
| reviews as slices of the upload buffer | `Borrow` | `BorrowSpec` | `PropsBorrow` |
| build of the unit tests | `Mock` | `MockSpec` | `PropsMock` |
| test driver of reviews | `Zuit` | `ScreensSpec` | `PropsZuit` |
| fuzz targets | `Fuzz` | `StopSpec`, `MockSpec` | `PropsFuzz` |
| harness and baking flow of the unit tests | `Harness` | `HarnessSpec`, `IdealSpec` | `PropsHarness` |
| messages and baking tests of the emulator | `Blobs` | `BlobsSpec`, `IdealSpec` | `PropsBlobs` |
| arrows in a review, signing tests of the emulator | `Signs` | `ArrowsSpec` | `PropsSigns` |
| generators of test vectors | `Generators` | `GeneratorsSpec`, `TextSpec`, `ScreensSpec` | `PropsGenerators` |
| letters of identifiers; key and version tests of the emulator | `KeyTests` | `LettersSpec`, `AddressSpec` | `PropsLetters` |
| test library of developer builds and its tests | `DevClient` | `DevSpec` (`idle` in `DevClientFacts`) | `PropsDevClient` |
| combinations of test cases | `Cartesian` | `Forall2` of the standard library | `PropsCartesian` |

`*Spec` files hold the independent specifications: encoders of the protocol,
value functions, histories. `*Facts`, `*Proofs` and the like hold lemmas;
`*Examples` and `*Demo` hold concrete cases. `Props*` files hold the property
theorems only, each followed by `Print Assumptions` and a case that meets its
hypotheses.

## Plan per property

| Property | What is modelled | How it is proved |
|---|---|---|
| C01-C04 | the whole baking build: dispatcher, uploader, lock, flash slots, handlers, UI accept/reject | one invariant over all events (stored watermark dominates every signed message since the last reset), induction over the event list |
| C05 | as above, query handler | same invariant; the Emmy to Tenderbake decrease is a `_refuted` theorem |
| C06 | flash writes with an arbitrary fault schedule | the invariant is proved for every schedule of power cuts; write-before-sign order |
| C07, C08 | baking handlers | case analysis of the request path, for every state |
| C09 | every handler | case analysis of all instructions; frame lemma for each helper |
| C10, C11 | as C01 | invariant / frame lemma over the event list |
| C12, C13 | reset and setup handlers | symbolic execution plus flash round trip |
| C14, C16 | the two 52-byte encodings | round trip by computation with big-endian lemmas |
| C15 | device | invariant over all events: every valid page of a slot has the layout of that slot |
| C17-C20 | `Slot`, `Wear` with concrete CRC-32 | simulation of an abstract log of writes; C20 refuted by computation |
| C21 | `SwappingBuffer` | simulation of a byte list |
| C22-C24 | `Uploader`, `Lock`, packet types | induction over the packet list |
| C25-C27 | `handle_apdu`, `ApduBufferRead`, dispatch | case analysis; C27 refuted in general |
| C28, C29 | `Sign`, `SignUI` | invariant over the event list tying a pending review to the last upload |
| C30 | `BIP32Path` | independent grammar of encodings, both directions |
| C31 | `Zarith` | independent value function by induction |
| C32, C33 | all operation parsers | independent encoder, round trip for each kind, induction for batches |
| C34 | `SignUI::{num_items,find_op_with_item}` | comparison with the flattened item list; refuted beyond 255 items and for anonymous operations |
| C35 | `handle_ui_message` | pages of a list |
| C36 | `intstr_to_fpstr_inplace` | denotation of decimal strings |
| C37 | `ZUI` paging | invariant over button presses |
| C38 | `baker_lookup` | correctness of the binary search for every sorted table |
| C39 | base58 and the address builders | value-based correctness, length bound, injectivity |
| C40 | public key handlers | symbolic execution |
| C41, C42 | `ApduError`, `Lock` | case analysis |
| C43, C44 | consensus message parsers | independent encoder, round trip; panic set characterised |
| C45, C46 | all operation parsers | totality and locality by cases; C46 refuted in general, proved for protocol encodings |
| C47 | device with screen and buttons | invariant: every page before the current one has been seen; composed with the log of signatures |
| C48 | as C47 | simulation of the button-level device by the event-level device |
| C49-C51 | device | symbolic execution of a whole request, induction over its packets, from any reachable state |
| C52, C53 | device | symbolic execution of the request and of the decision, from any reachable state |
| C54, C55 | path texts, packets | independent grammar of path texts; induction over the message |
| C56-C61 | host library plugged into the device | the packets sent form a request in the sense of C49-C53; the answer is read back |
| C62 | any two pending reviews with the same screens | texts, titles and sheets are injective up to the listed exceptions |
| C63 | two devices with different signing functions | relational logic over the handlers, lifted to executions of the device and of its screens |
| C64 | device | no handler panics except on the characterised messages (outcome logic over the handlers); answers bounded by 132 bytes; faults consumed are tracked |
| C65 | device, any behaviour of the upload buffer's flash short of unnoticed damage | invariant relating the buffer to the packets answered with success |
| C66 | device, power losses at any point | logic of ordered writes over the handlers, slots abstracted to a value or to lost |
| C67 | two devices of any histories, power losses at any point | bisimulation up to page layout, stale buffers and old paths |
| C68 | device with working flash | simulation by an abstract machine without flash, buffers and encodings |
| C69 | `SecretKey`, `PublicKey` over a record of system calls | both sides factor through one derived key; device level by the log theorem |
| C70 | buffers of the same functions | erasure on every outcome; refuted where `?` leaves early |
| C71 | hash contexts | induction over the pieces with an absorption relation |
| C72 | `catch` over setjmp/longjmp, nested at will | the jumping machine refines a structural meaning of try/catch; refuted for codes wider than 16 bits |
| C73 | `app_main` | invariant over the wire; projection onto a run of the device |
| C74 | `app_main`, exceptions and failing initialisation | symbolic execution, induction over the failures; refuted where an answer has no question or the buffer overflows |
| C75 | `getAppInfo` | independent encoder of the answer, for all lengths; refuted for empty flags and other formats |
| C76 | answers and docs/APDUSPEC.md | table of answers per instruction; all histories, by an outcome logic over the handlers; return codes and instruction 5 refuted |
| C77 | signing calls against any transport | relation between the packets, the answers and the result; induction over the pieces; refuted for the first packet |
| C78 | `Sha256` of developer builds | reassembly lemmas of the upload, from any state that is reached |
| C79 | `BlindSign` of developer builds | symbolic execution from request to decision; invariant of what waits; pages read as the digest |
| C80 | developer builds beside the app | refinement for ordinary histories, frame for the others, the invariant of C01 lifted; refuted for blind signatures |
| C81 | `Echo`, `Debug` of developer builds | symbolic execution; refuted for short texts, unfinished uploads and zeros |
| C82 | `Except` of developer builds | equality with the machine of C72; refuted for the code 0 |
| C83 | the macro `version!` | equivalence with files of comments, blank lines and definitions |
| C84 | the attribute `nvm`, `NVM::write` | equivalence with the memory of nested arrays; exact effect of a write |
| C85 | the attribute `lazy_static` | equal answers to a static initialised at the start; refuted for uncleared RAM |
| C86 | packets and button presses | number of presses exists; pages seen, answer and state of approval and of rejection |
| C87 | library calls and button presses | every call over `held` is the same call over `plugged` with decisions that approve only where both buttons were pressed; results of the calls by number of presses |
| C88 | what a signing call returns | result of the call against the device's log of signatures, for every device state, decision and fault of the transport; the messages signed for a host over many calls increase |
| C89 | the slices behind a review | simulation between the device keeping bytes and the one keeping slices; invariant that the slice holds the message; refuted without the gate of the system |
| C90 | the build of the unit tests | simulation by the device with an approval after every command; refuted without room for the reviews |
| C91 | the test driver of reviews, `verify_ui` | one page per row, equal to the concatenated pages of either device; consequence for passing vectors; refuted for what a vector does not mention |
| C92 | the fuzz targets | C33 for the operations; C90 and C64 together for the commands |
| C93 | the baking flow of the unit tests | equivalence; the test build refines the ideal app of C68 through C90 |
| C94 | the emulator tests of baking | equivalence; the device refines the ideal app of C68; refutation for round 0; blindness to rounds |
| C95 | arrows, and the emulator tests that sign | a review is a line of places; equivalence for passing; refuted for signatures of Secp256R1 and for long transactions |
| C96 | the generators of test vectors | what a generator writes passes `verify_ui` on what it asks for, and decides every row; exactness of its amounts below 2^33 tez, refuted above |
| C97 | identifiers begin with the letters of their kind | bounds on the number a text stands for, for all data |
| C98 | the emulator tests of keys and versions | the device passes; what any passing device has returned; refuted for the path and for the legacy call |
| C99 | sizes of signed messages | every signed message fits the buffer with the path of its key, whatever the flash does; everything that fits can be signed |
| C100 | the developer's test library | exceptions come back; hashing refuted: the test cannot pass; which texts are shown; what blind signing returns |
| C101 | combinations of test cases | all of them, once, in order |

## Trusted base

* Coq's kernel (and `coqchk`).
* `Print Assumptions` is printed beneath every property theorem; the intended
  result is "Closed under the global context" for all of them.
* The reading of the Rust code embodied in the model files. As a check of that
  reading, the model was run on all 232 operations of the project's own test data
  (zemu/test-vectors, zemu/tests/data): it parses each of them into the stated number and kinds
  of operations, and gives the stated branch and, where rows are stated, exactly
  these titles and messages. One vector of each file is kept in `Vectors.v`.
  `Vectors.v` also runs the model on inputs of the Rust tests: the signing flows of
  rust/app/tests/baking.rs, the decimal strings of handlers/utils.rs, the zarith, boolean,
  entrypoint and endorsement cases, and the Tenderbake blocks of misc_tb_blocks.bin (three are
  kept, all 38 were run).

Simplifications, beside those noted at each definition:

* Not modelled: the SDK and, of `app/c`, what is not the main loop; the real BOLOS system calls
  (flash, cryptography, USB), pixel rendering, timing, and memory safety of `unsafe` blocks.
* While a review is on screen the SDK does not deliver a further APDU to the app
  (asynchronous reply); an APDU event is ignored in that state. What is drawn depends
  on it (`C89_ungated_refuted`).
* The build of the unit tests (`Mock`) is taken with the arithmetic of the release profile and
  the same flash; what differs is the display. The commands and answers of `ledger_apdu` are
  header, length byte and data, and data and status word (`Harness`).
* Numbers given to the helpers of the emulator tests are integers, and their `Buffer`s are
  the bytes in front of the offset (`Blobs`). The clicks of a test are an approval.
* Zemu presses the buttons a test names, and `[n, 0]` is `n` times right and then both
  (`Signs`). The comparison with stored pictures is left out. The pages into which the system
  of the Nano X divides a long text by itself are not counted: of the tests' own data this
  concerns the hash of a Michelson message, 3 presses there and 2 in the model.
* JavaScript numbers of the generators are integers below 2^53, which are exact, and one
  division, rounded to nearest (`Generators`). The node forges what it is asked for in the
  encoding of the protocol, and the SHA-256 of Node.js is that of the device; what the node
  estimates is arbitrary, below 2^28 (larger numbers the device cannot show).
* Flash hardware is the fault schedule above. Any page contents may result from
  a torn write; theorems that need the checksum to notice say so
  (`tear_detected`), and `C19_damage_is_detected` gives a class of damage that is
  always noticed.
* The flow engine of the Nano X (`ux_flow`, text paging inside a step) is
  trusted to call the step initialisers in the order modelled in `Zui.v`. The
  buttons inside its error flow are reduced to "Ok". The Nano S idle menu is
  reduced to the entry that toggles expert mode.
* That texts given to the display are valid UTF-8 is not modelled (bytes outside
  of ASCII become points first).
* A `Viewable` is stored at the end of the APDU buffer; its size is a parameter
  (`cf_room`).
* The host library: `Transport.send` of `@ledgerhq/hw-transport` is modelled from
  its documentation (`send_codes`). Of the JavaScript libraries `host_ok` assumes
  that `Number` reads decimal numerals, that `blake2b` and SHA-256 are the
  functions of the device, and that `bs58` writes base58. Number texts that are
  not integers and error messages are not modelled. On an answer too short for them the
  fields of a version are `undefined`; in the model the call throws. `legacy.*.test.ts` run
  the app in `legacy/`, a program of its own, and are not modelled.
* `Element.v` models the layer below the oracles, down to the system calls of the
  secure element, which are fields of a record and may fail. There, a value that is
  moved is taken to leave its old place; in fact `assume_init` followed by `zeroize`
  (ecfp256.rs l.141) clears a temporary, and whether the original stack slot is
  cleared is up to the compiler.
* The main loop (`Loop.v`) and exceptions (`Catch.v`): the SDK is not part of the
  repository. Taken from its documentation: `io_exchange` takes no command while one
  is unanswered, `IO_ASYNCH_REPLY` sends nothing, `longjmp` with 0 gives 1. A closure
  that `catch` runs again after a jump with low half 0 is modelled as run again; in Rust
  it has been moved and this is undefined. Of the APDU buffer only the part that is to be
  sent is tracked; behind it there may be anything.
* `BuildTime.v`: source files are ASCII. A failing build is `None`. RAM is taken to be cleared
  before the app starts; otherwise a lazily initialised static may be used uninitialised
  (`C85_garbage_refuted`). The relocation of addresses (`PIC`) is the identity.
* Oracles are functions: the same request gets the same answer. Signatures need
  not be deterministic for any theorem about the log.

## Findings

Behaviour of the code found while proving. Each item names the theorem that
proves it where there is one.

Display and approval:

* The number of rows of a review is a `u8`. With 256 rows a Nano S review shows
  nothing but APPROVE, and both buttons sign the whole batch
  (`C47_256_rows_refuted`, `C34_256_rows_refuted`). With 253 proposals only the
  branch is shown (`C47_253_proposals_refuted`, `C34_253_proposals_refuted`).
* On the Nano X a review of 256 rows or more can be neither approved nor rejected
  (`C37_long_review_refuted`).
* The baking app signs a whole batch after showing only its first operation, a
  delegation or reveal (`C47_baking_batch_refuted`). It does not compare source
  and delegate with the authorised key, as a comment in the code intends
  (handlers/baking.rs l.308-313).
* In expert mode on the Nano S, pressing both buttons on any row jumps to APPROVE
  (`C47_expert_mode_refuted`); after a decision in expert mode an error screen
  appears although the decision was carried out.
* Anonymous operations (e.g. double baking evidence) have no rows: a batch with
  them looks like the batch without (`C34_anonymous_refuted`).
* Amounts, fees, limits and counters of 2^28 or more (268.435456 tez) cannot be
  shown, hence not be signed (`C34_large_numbers_refuted`, `C48_large_amount_case`).
* Not shown at all: the entrypoint of a transfer (`C62_entrypoints_refuted`), the
  signature inside an endorsement with slot (`C62_inner_signatures_refuted`). The hash shown for an unknown operation leaves out its
  tag byte.
* The announced number of pages is one too many for texts whose length is a
  multiple of the page size and wraps at 256 (`C35_multiple_refuted`).
* Zarith numbers with superfluous groups, booleans other than 0 and 255, and
  padding of contract addresses are accepted, so different bytes are shown alike
  (`C46_decoding_injective_refuted`, `C46_padded_numbers_refuted`).
* One address of the registry of bakers has two names (`C38_two_names_refuted`);
  duplicates are removed before sorting, not after.
* Two different delegates are both shown as "Tezos Japan", without their address,
  so a delegation to one looks exactly like a delegation to the other
  (`C62_namesakes_refuted`).

* A signature review is drawn from slices of the upload buffer after its lock has been
  released. Only the system, which passes on no command while an answer is outstanding,
  keeps another upload from changing the screens under the digest to be signed
  (`C89_ungated_refuted`).
* The display of the unit tests does not check whether a review fits its memory, so no
  unit test can notice a review that the device cannot show (`C90_no_room_refuted`).
* `verify_ui` of the tests zips the pages with the expected messages: rows not mentioned,
  entries without messages and all messages but the first are not compared
  (`C91_unmentioned_refuted`, `C91_unchecked_refuted`). The vectors of zemu/test-vectors that
  state rows mention all of them; seed.json states none.
* The fuzz target of the commands keeps its state from input to input, and the one crash there
  is needs earlier ones, so the input the fuzzer saves does not reproduce it
  (`C92_apdu_target`, `C92_one_input`). The target also calls `zemu_sys::set_out`, which does not
  exist any more.
* The baking flow of the unit tests asserts status words only; it passes for every signer, even one
  that returns no bytes (`C93_test_flow`).
* The emulator tests that sign do not verify signatures of Secp256R1, nor ask whether the device
  gave a public key then (`C95_verified_refuted`); for Secp256K1 they overwrite the first byte of
  the signature before verifying it. The 30 presses of the test vectors reach the approval only
  if the review takes at most 29 of them: a transfer with three delegations does not
  (`C95_long_refuted`). Two of the sample operations, of 8276 and 8473 bytes, do not fit into the
  device's buffer and cannot pass (`C95_too_large_run`, and for every history `C99_large_never`).
* The generators of test vectors compute amounts in floating point. From 2^33 tez on they
  misprint them (`C96_amounts_refuted`); the device cannot show such amounts anyway.
  Their random secrets never contain the byte 0xff (`Math.random() * 255`), and the generator
  of seed nonces writes no expected pages, so the review of a seed nonce is tested nowhere.
* The emulator test of `legacyGetPubKey` compares the address that the library computed from
  the answer with the same computation, so it passes for any 65 bytes (`C98_legacy_refuted`),
  and on the device although the address is wrong (C58). No test says that a key is the key of
  the path (`C98_path_refuted`).
* `getHash` of `zemu/tests/dev.ts` counts packets from 0 but marks number 1 as the first one,
  so its upload never begins; the app refuses, and the SHA256 test of `dev.test.ts` cannot
  pass on a fresh app, whatever the message (`C100_hash_refuted`, `C100_hash_test_refuted`). An app
  that answers success without any hash does pass it (`C100_hash_says_refuted`). `display` admits
  35 bytes, which the app refuses, and fewer than 17, on which it dies (`C100_display_long`,
  `C100_display_short`).
* The emulator tests cannot make a Tenderbake block of round 0: `get_blocklevel_info` asks
  `if (round)`, which is false for 0, and builds an Emmy block instead
  (`C94_round_zero_refuted`). So `Sign blocklevel` under 'Standard tenderbake baking' signs
  an Emmy block, and the step commented 'level is equal but round is higher' follows an
  Emmy block, after which any Tenderbake message is accepted. No test compares two rounds:
  an app that orders them the wrong way around passes all six (`C94_rounds_untested`).

Double-signing protection:

* The level stored decreases when a Tenderbake message follows a higher Emmy
  watermark (`C05_level_never_decreases_refuted`).
* `Wear::write` advances its position before the write. If the write reports an
  error and leaves the page alone, the oldest page is read from then on, and an
  old level can be signed again (`C20_failed_write_keeps_value_refuted`,
  `C20_failed_write_no_double_signing_refuted`).
* After a torn page is noticed the slot stays unreadable for ever; the other
  valid pages are not used (`C19_torn_page_is_permanent`).
* A stored watermark of unknown kind is read as the default, an Emmy watermark with
  an invalid level. The Tenderbake rule does not look at the level of an Emmy
  watermark, so any message is signed (`C15_unreadable_refuses_tenderbake_refuted`).
  The device never stores such a payload (`C15_slots_hold_records`).
* A set-up writes the key, the two watermarks and the chain one after the other. If the
  power fails in between, the new key stays authorised with the old watermarks
  (`C66_atomic_refuted`). If one of the later writes reports an error, the request is
  answered with an error although the key has changed (`C09_failed_write_refuted`).
* RESET changes the watermarks without confirmation; RESET and SETUP always store
  Emmy watermarks, so that a Tenderbake device may sign Emmy messages afterwards.
* The chain id stored by SETUP is never compared with the message; the TEST
  watermark is never used for signing.

Robustness:

* A Tenderbake fitness with fewer than four bytes after the version stops the app
  (`C44_no_crash_refuted`, `C64_short_fitness_stops`).
* `ApduBufferRead` bounds the payload by the buffer's size, not by the received
  length, so a command can be given bytes of earlier APDUs
  (`C27_payload_inside_apdu_refuted`).
* If the flash write of a first packet of 255 bytes fails, its length is kept though
  its bytes are not: the packets that follow are taken for the path. A last packet
  with too few bytes stops the app; otherwise the path is too long and refused, so
  nothing wrong is signed (`C65_signature_covers_accepted`).
* An upload goes on after a flash error. If the failed write damaged the buffer, what
  is signed is not what was sent (`C65_damaged_buffer_refuted`).
* `BIP32Path::new` panics on more components than its capacity (unreachable from
  APDUs), `ApduError::try_from` on short slices, the fixed-point formatter on
  strings of zeros (`C36_zeros_refuted`; unreachable,
  `C36_zeros_not_numbers_refuted`).
* `EndorsementWithSlot::from_bytes` subtracts without a check; it is not used.
* The HMAC command signs a constant with a key chosen by the host, without
  confirmation, and uses the signature as HMAC key.

Host library:

* `legacySign` returns the first 32 bytes of the signature and a hash of zeros
  (`C56_legacy_sign_refuted`).
* `legacyGetPubKey`, `legacyPromptPubKey` and `legacySetup` take the length byte of
  the answer for the first byte of the key (and append the address, if one was
  sent, to it), so the public key and the address they return are wrong; on the
  secp curves the first byte is overwritten as well (`C58_legacy_get_refuted`,
  `C58_legacy_prompt_refuted`).
* `publicKeyToAddress` writes into its argument, since `Buffer.slice` shares memory.
* Paths of three components, such as m/44'/1729'/0', are refused although the device
  accepts them (`C54_other_lengths_refused`).
* `sig_hash`, `legacySign` and `legacySignWithHash` know only the Emmy bytes
  (`C61_tenderbake_refuted`).
* The answer to the first packet of a message is not examined before the second is
  sent (`C77_first_answer_refuted`).
* `legacyResetHighWatermark` takes a signed level although levels are unsigned;
  `getVersion` makes targets of 2^31 and more negative; the commit text ends with a
  NUL.

Developer builds (feature `dev`, not released):

* `Echo` subtracts 17 from the length of its text: below 17 bytes the app ends
  (`C81_echo_short_refuted`).
* `Debug` locks the upload buffer without emptying it, so the bytes of an unfinished
  upload are displayed as part of the command (`C81_debug_stale_refuted`). It displays raw
  bytes, and a zero among them ends the text (`C81_debug_cut_refuted`).
* `BlindSign` signs any digest with any key after a review of the digest alone. In a
  baking build this includes the authorised key, past the watermarks
  (`C80_blind_conflict_refuted`).
* Exception 0 comes back as 1 (`C82_except_zero_refuted`), as `longjmp` has it.
* If the display of a blind signature fails, `PATH` is not cleared (seen in
  `C79_blind_signature`); the next request replaces it.

System layer:

* A signature whose point has an odd ordinate is marked in the lowest bit of its first
  byte only if the system reports nothing else: `info == CX_ECCINFO_PARITY_ODD` misses
  the combination with `CX_ECCINFO_xGTn` (`C69_odd_marked_refuted`).
* If `cx_ecfp_generate_pair_no_throw` fails, `public_into` returns before it erases the
  private key (`C70_pair_failure_refuted`); if the derivation throws after having
  written its buffer, the buffer is not erased (`C70_derive_failure_refuted`).
* `catch` keeps the low 16 bits of an exception (`as_u16`). Codes of the cryptographic
  library (0xFFFFFFxx) come out as codes of the system, never as `Cx`
  (`C72_cx_code_refuted`). A code whose low half is 0 is taken for the first return of
  `setjmp`, and the closure runs again, without end if it throws again
  (`C72_low_half_zero_refuted`).
* An exception of `io_exchange` while no command is pending sends an answer that nobody
  asked for (`C74_unsolicited_refuted`).
* Each failure of the initialisation appends a status word to the APDU buffer. After 130
  failures the words are written behind the buffer (`C74_init_overflow_refuted`); after
  fewer, they are all sent once the initialisation succeeds
  (`C74_init_failures_partial`).

Host library, question for the running app:

* `getAppInfo` stores its error for an unknown format in a variable that is not used: the
  call succeeds, with 'err' as name and version (`C75_format_refuted`). With an empty
  field of flags it reads the status word 0x9000 as flags and reports the PIN as validated
  (`C75_no_flags_refuted`).

Documentation (docs/APDUSPEC.md):

* Five return codes that the app sends (0x6700, 0x6984, 0x6985, 0x6B00, 0x9001) are not
  documented (`C76_codes_refuted`); 0x6982, 0x6983, 0x6D00 and 0x6F00 are documented and
  never sent (`C76_unused_codes`). An unknown instruction is answered with 0x6986.
* Instruction 5 is documented for data that are already hashed; it hashes them like
  instruction 4 (`C76_unsafe_refuted`).
