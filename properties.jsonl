{"id": "C01", "title": "No double baking", "statement": "On a baking-build device whose watermark is not reset by a RESET or an approved SETUP command, no sequence of APDUs, button presses and power cycles makes the device sign two block headers at the same level (Emmy) or at the same level and round (Tenderbake).", "quantifier": "every finite sequence of host APDUs (arbitrary bytes), user approvals/rejections and power cycles, from every well-formed device state, without an intervening watermark reset", "why_tests_cant": "The claim is about all request histories, including interleavings of different commands and restarts; a test fixes one history.", "anchors": ["rust/app/src/handlers/baking.rs: Baking::baker_sign, handle_blockdata", "rust/app/src/parser/baking.rs: BlockData::validate_with_watermark, derive_watermark", "rust/app/src/handlers/hwm.rs: HWM::read, HWM::write", "rust/app/src/dispatcher.rs: apdu_dispatch"]}
{"id": "C02", "title": "No double endorsing and no double pre-endorsing", "statement": "Under the same conditions as C01 the device never signs two endorsements at the same level (Emmy) or level and round (Tenderbake), and never two pre-endorsements at the same level and round.", "quantifier": "every finite sequence of APDUs, user decisions and power cycles without an intervening watermark reset", "why_tests_cant": "Quantifies over all histories; equivocation appears only for particular orders of messages.", "anchors": ["rust/app/src/handlers/baking.rs: handle_endorsement", "rust/app/src/parser/baking.rs: EndorsementData::{validate_with_watermark,derive_watermark}", "rust/app/src/parser/baking/emmy.rs: EmmyEndorsement::validate_with_watermark", "rust/app/src/parser/baking/tenderbake.rs: TenderbakeEndorsement::validate_with_watermark"]}
{"id": "C03", "title": "Consensus signatures are strictly ordered", "statement": "Between two watermark resets, the consensus messages the device signs form a strictly increasing sequence: all Emmy messages precede all Tenderbake ones; within Emmy the pair (level, block before endorsement) strictly increases; within Tenderbake the triple (level, round, block < pre-endorsement < endorsement) strictly increases lexicographically.", "quantifier": "every history of APDUs, approvals and restarts between resets, and every pair of signatures issued in it", "why_tests_cant": "An ordering over an unbounded history needs an inductive invariant.", "anchors": ["rust/app/src/handlers/baking.rs: baker_sign", "rust/app/src/parser/baking.rs", "rust/app/src/parser/baking/tenderbake.rs", "rust/app/src/parser/baking/emmy.rs"]}
{"id": "C04", "title": "No return to Emmy after Tenderbake", "statement": "Once a Tenderbake block, pre-endorsement or endorsement has been signed, no Emmy block or endorsement is signed until the watermark is reset.", "quantifier": "every history of requests after the first Tenderbake signature", "why_tests_cant": "Must hold for all later histories.", "anchors": ["rust/app/src/parser/baking.rs: BlockData::validate_with_watermark", "rust/app/src/parser/baking/emmy.rs: EmmyEndorsement::validate_with_watermark"]}
{"id": "C05", "title": "Reported high watermark never falls below what was signed", "statement": "After any history without a reset, the level answered by QUERY_MAIN_HWM is the level of the last consensus message that passed the watermark check, and it never decreases between resets except possibly at the first Tenderbake message following an Emmy watermark (where the full claim is false of the code).", "quantifier": "every history of requests and every later query", "why_tests_cant": "Needs an invariant linking stored flash state to the signing history.", "anchors": ["rust/app/src/handlers/legacy/hwm.rs: LegacyQueryMainHWM", "rust/app/src/handlers/hwm.rs: HWM::hwm", "rust/app/src/handlers/baking.rs"]}
{"id": "C06", "title": "Double-signing protection survives power loss", "statement": "Cutting power at any point of any request, including half-way through a flash page write that leaves the page old, new, or detectably corrupt, never lets the device afterwards sign a consensus message that conflicts with one it had already signed.", "quantifier": "every crash point in every request of every history, and every detectable content of the page being written", "why_tests_cant": "Crash points and torn contents cannot be enumerated by unit tests; the mocked flash never fails.", "anchors": ["rust/bolos/src/flash_slot.rs: Wear::{new,align,write,read}", "rust/app/src/handlers/baking.rs: handle_blockdata, handle_endorsement", "rust/app/src/handlers/hwm.rs"]}
{"id": "C07", "title": "Unattended signing only with the authorised key", "statement": "The device produces a consensus signature only when the request's curve and derivation path equal the authorised ones currently stored, and the signature is made with exactly that key; with no authorised key the request is answered with ConditionsNotSatisfied or DataInvalid and nothing is signed.", "quantifier": "every device state and every signing request (every curve byte, path encoding, message)", "why_tests_cant": "All stored/requested key combinations and all malformed path encodings.", "anchors": ["rust/app/src/handlers/baking.rs: check_with_stored, sign, baker_sign", "rust/bolos-common/src/bip32.rs: BIP32Path::read"]}
{"id": "C08", "title": "Out-of-range levels are never signed", "statement": "No consensus message with a level of 2^31 or above is ever signed, whatever the watermark is.", "quantifier": "every message and every stored watermark", "why_tests_cant": "2^64 message/watermark combinations.", "anchors": ["rust/app/src/handlers/hwm.rs: WaterMark::is_valid_blocklevel", "rust/app/src/parser/baking.rs", "rust/app/src/parser/baking/emmy.rs", "rust/app/src/parser/baking/tenderbake.rs"]}
{"id": "C09", "title": "Refused requests do not change persistent state", "statement": "A request or decision answered with an error status word leaves the authorised key, watermarks and chain id readable from the device unchanged, now and after restarts, unless the error is that no signature could be made after the watermark had been raised by the very message being signed. This holds also when power may be lost during any flash write of the history. It does not hold if a flash write may itself report an error: a set-up whose second write fails is answered with an error although the key has changed.", "quantifier": "every reachable device state, every APDU and decision, in both build flavours; flash either working during the request after any earlier faults, or losing power at any write", "why_tests_cant": "All error paths of all handlers from all states.", "anchors": ["rust/app/src/dispatcher.rs: apdu_dispatch, handle_apdu", "rust/app/src/handlers/baking.rs", "rust/app/src/handlers/legacy/hwm.rs", "rust/app/src/handlers/legacy/baking/setup.rs"]}
{"id": "C10", "title": "Authorised key changes only on user approval", "statement": "The authorised baking key changes only when the user approves an authorise, deauthorise or setup request on the device; no APDU by itself and no rejection changes it, and after approval of an authorise request the stored key is exactly the one in that request.", "quantifier": "every history of APDUs, approvals, rejections and power cycles", "why_tests_cant": "An attacker chooses any APDU sequence; tests pick a few.", "anchors": ["rust/app/src/handlers/baking/authorization.rs", "rust/app/src/handlers/legacy/baking.rs", "rust/app/src/handlers/legacy/baking/setup.rs", "rust/app/src/handlers/baking.rs: store_baking_key, remove_baking_key"]}
{"id": "C11", "title": "Deauthorisation disables unattended signing", "statement": "After an approved deauthorise, no consensus message is signed and QUERY_AUTH_KEY fails with ConditionsNotSatisfied until an authorise or setup request is approved.", "quantifier": "every history of APDUs and power cycles after the approval", "why_tests_cant": "Must hold for all continuations, including across restarts.", "anchors": ["rust/app/src/handlers/baking/authorization.rs: DeAuthorizeUI::accept", "rust/app/src/handlers/baking.rs: check_with_stored", "rust/app/src/handlers/baking/queryauth.rs: query"]}
{"id": "C12", "title": "Watermark reset semantics", "statement": "A well-formed RESET with level L makes both chain watermarks report L, keeps the authorised key and an already set chain id, and a payload shorter than 4 bytes is refused without effect. (No user confirmation is asked for: recorded as a finding.)", "quantifier": "every device state, every payload", "why_tests_cant": "All 2^32 levels and all states.", "anchors": ["rust/app/src/handlers/legacy/hwm.rs: LegacyResetHWM", "rust/app/src/handlers/hwm.rs: HWM::reset, HWM::all_hwm"]}
{"id": "C13", "title": "Setup stores what was requested", "statement": "After the user approves SETUP(chain, main, test, curve, path), QUERY_ALL_HWM answers exactly main, test and chain, the authorised key is exactly (curve, path), the answer contains that key's public key, and rejecting it changes nothing.", "quantifier": "every setup payload, every prior device state", "why_tests_cant": "2^96 parameter values and arbitrary prior state.", "anchors": ["rust/app/src/handlers/legacy/baking/setup.rs: LegacySetup, SetupUI::accept", "rust/app/src/handlers/hwm.rs"]}
{"id": "C14", "title": "Watermark storage is lossless", "statement": "Storing any watermark in its 52-byte flash payload and reading it back gives the same watermark; and every payload whose tag is unknown reads as the default watermark at level 2^32-1.", "quantifier": "every watermark, every 52-byte payload", "why_tests_cant": "All 2^66 watermark values.", "anchors": ["rust/app/src/handlers/hwm.rs: From<&[u8;52]> for WaterMark, From<WaterMark> for [u8;52]"]}
{"id": "C15", "title": "Unreadable watermark blocks signing", "statement": "A consensus signature is made only over a stored watermark that can be read and interpreted and that the message exceeds. If the watermark slot was never written or fails its checksum, the request is refused and nothing changes. A slot that reads successfully always holds a record in the layout of that slot. (The decoder alone does not ensure this: given an unknown tag it returns a default that lets any Tenderbake message pass.)", "quantifier": "every history, every schedule of flash faults that leaves pages old, new or detectably corrupt, every message", "why_tests_cant": "All histories and fault schedules.", "anchors": ["rust/app/src/handlers/hwm.rs: WaterMark::default, From<&[u8;52]>", "rust/app/src/parser/baking/tenderbake.rs: validate_with_watermark", "rust/app/src/handlers/baking.rs: handle_endorsement, handle_blockdata", "rust/bolos/src/flash_slot.rs"]}
{"id": "C16", "title": "Authorised key storage is lossless", "statement": "Any curve and any path of 1 to 10 components stored as the authorised key is read back identically; a blanked slot reads as no key; a slot with an unknown curve or too many components is reported as an error.", "quantifier": "every curve, every path, every 52-byte payload", "why_tests_cant": "Paths range over 2^320 values.", "anchors": ["rust/app/src/handlers/baking.rs: Bip32PathAndCurve::{try_from_bytes, empty}, From<Bip32PathAndCurve> for [u8;52]"]}
{"id": "C17", "title": "Wear-levelled slot returns the last value written", "statement": "After any sequence of successful writes, reading a wear-levelled slot returns the last payload written, before and after a restart; reading a never-written one reports Uninitialized.", "quantifier": "every number of pages, every sequence of payloads, restart at any point", "why_tests_cant": "Unbounded write sequences and restart positions.", "anchors": ["rust/bolos/src/flash_slot.rs: Wear::{new,align,write,read,format}, Slot::{from_storage,as_storage}"]}
{"id": "C18", "title": "Wear levelling spreads erases", "statement": "After n writes to a slot with S pages every page has been programmed either floor(n/S) or ceil(n/S) times.", "quantifier": "every n and every S >= 1", "why_tests_cant": "Unbounded n.", "anchors": ["rust/bolos/src/flash_slot.rs: Wear::write, Wear::idx"]}
{"id": "C19", "title": "Torn page writes are never read as data", "statement": "If power is lost while a page is being written, the next start either recovers exactly the value before or after the write, or reports corruption; it never returns anything else. (It does not always recover: a detectably torn page makes every later start fail, recorded as a finding.)", "quantifier": "every history of writes, every torn page content the checksum detects", "why_tests_cant": "Torn contents range over 2^512 pages.", "anchors": ["rust/bolos/src/flash_slot.rs: Slot::from_storage, Wear::align"]}
{"id": "C20", "title": "Flash write failures do not roll the watermark back", "statement": "If a flash write reports an error and the device keeps running, later reads return either the last successfully stored value or an error. (False of the code: the write position is advanced before the write, so the oldest page is read; the restart-safe part is proved.)", "quantifier": "every history of writes with failures at any position", "why_tests_cant": "Requires a failing flash at every position.", "anchors": ["rust/bolos/src/flash_slot.rs: Wear::write, Wear::read"]}
{"id": "C21", "title": "Upload buffer is a faithful byte accumulator", "statement": "Between two resets, the upload buffer's contents are the concatenation of the accepted writes regardless of when it spills from RAM to flash; a write that would exceed the flash capacity is refused and leaves the contents unchanged.", "quantifier": "every sequence of write sizes and contents, every RAM/flash capacity with RAM <= flash", "why_tests_cant": "All split points around the RAM boundary.", "anchors": ["rust/bolos/src/swapping_buffer.rs: SwappingBuffer::{write,read_exact,reset}"]}
{"id": "C22", "title": "Multi-packet uploads reassemble exactly", "statement": "For every way of splitting a message over an initial, any number of intermediate and one final packet (native or legacy packet numbering), the command receives exactly the initial packet's P2, the initial payload and the concatenation of the remaining payloads.", "quantifier": "every message up to the buffer capacity and every split into packets of at most 255 bytes", "why_tests_cant": "Exponentially many splits.", "anchors": ["rust/app/src/utils/buffer_upload.rs: Uploader::upload", "rust/app/src/handlers/utils.rs: ZPacketType, LegacyPacketType, PacketTypes", "rust/app/src/handlers/lock.rs"]}
{"id": "C23", "title": "Uploads of different commands are not mixed", "statement": "An intermediate or final packet is only appended to an upload started by the same command family; otherwise it is refused (Busy or ExecutionError) without touching the buffered bytes, and after a completed upload a packet without a new initial packet is refused.", "quantifier": "every interleaving of packets of all upload commands", "why_tests_cant": "Exponentially many interleavings.", "anchors": ["rust/app/src/handlers/lock.rs: Lock::{lock,acquire,release}", "rust/app/src/utils/buffer_upload.rs: Uploader::upload, Drop for UploaderOutput"]}
{"id": "C24", "title": "Oversized or malformed uploads are refused", "statement": "A packet with an unknown packet type is answered InvalidP1P2, and an upload exceeding the buffer capacity is answered DataInvalid; in both cases nothing is signed.", "quantifier": "every packet type byte and every upload longer than the capacity", "why_tests_cant": "Unbounded upload lengths.", "anchors": ["rust/app/src/utils/buffer_upload.rs", "rust/bolos/src/swapping_buffer.rs: write"]}
{"id": "C25", "title": "Every APDU gets a well-formed answer", "statement": "For a full-size APDU buffer, every APDU shorter than 5 bytes or longer than the buffer is answered WrongLength, every other class byte ClaNotSupported, every unassigned instruction CommandNotAllowed, and the status word always occupies the last two bytes of the reported response length; only commands that arrive while a review is pending are ignored.", "quantifier": "every buffer content and every received length", "why_tests_cant": "All 2^2080 buffers.", "anchors": ["rust/app/src/dispatcher.rs: apdu_dispatch, handle_apdu", "rust/app/src/utils/apdu_wrapper.rs: ApduBufferRead::new"]}
{"id": "C26", "title": "Build flavours are isolated", "statement": "A wallet build never answers a baking-only instruction with anything but CommandNotAllowed, never changes baking state, and signs nothing without a user approval; a baking build refuses the wallet-only instruction.", "quantifier": "every APDU sequence in each build flavour", "why_tests_cant": "All sequences in two configurations.", "anchors": ["rust/app/src/dispatcher.rs: apdu_dispatch", "rust/app/src/handlers/legacy/signing.rs"]}
{"id": "C27", "title": "Payload stays inside the received APDU", "statement": "The payload handed to a command consists only of bytes of the APDU just received. (False of the code, which bounds the payload by the buffer size instead of the received length; proved for APDUs whose length byte is consistent.)", "quantifier": "every buffer, received length and length byte", "why_tests_cant": "All inconsistent length combinations with stale buffer contents.", "anchors": ["rust/app/src/utils/apdu_wrapper.rs: ApduBufferRead::payload"]}
{"id": "C28", "title": "Wallet signatures require approval and cover exactly the uploaded bytes", "statement": "Every signature returned by SIGN, legacy SIGN, SIGN_WITH_HASH and SIGN_UNSAFE is over the hash of exactly the bytes uploaded after the path packet of the latest completed upload, with the key at the uploaded path and curve, and is produced only by a user approval of that request; a rejection produces CommandNotAllowed and no signature.", "quantifier": "every history of APDUs and user decisions", "why_tests_cant": "All histories, including abandoned uploads, failed requests and stale state.", "anchors": ["rust/app/src/handlers/signing.rs: Sign::start_sign, SignUI::{accept,reject}", "rust/app/src/handlers/legacy/signing.rs"]}
{"id": "C29", "title": "Confirmed signing never covers consensus messages", "statement": "Data whose first byte marks a block, endorsement or pre-endorsement is never signed through a user-confirmed signing command: it is refused with CommandNotAllowed.", "quantifier": "every uploaded byte string", "why_tests_cant": "All byte strings and states.", "anchors": ["rust/app/src/handlers/signing.rs: start_sign", "rust/app/src/parser.rs: Preemble::from_bytes", "rust/app/src/handlers/baking.rs: baker_sign"]}
{"id": "C30", "title": "Derivation path decoding", "statement": "A path encoding is accepted exactly when it is a count byte n with 1 <= n <= max followed by exactly n 4-byte big-endian components, the decoded components are those numbers, and decoding inverts the serialisation of every valid path.", "quantifier": "every byte string and every maximum length", "why_tests_cant": "All encodings including truncated and over-long ones.", "anchors": ["rust/bolos-common/src/bip32.rs: BIP32Path::{read,serialize,components,new}"]}
{"id": "C31", "title": "Arbitrary-precision integers are read exactly or refused", "statement": "Reading an encoded natural (or signed) number yields its exact mathematical value or nothing, never a truncated one; it consumes exactly the bytes up to the first byte without the continuation bit; values are refused exactly when their encoding exceeds the container's 7-bit groups.", "quantifier": "every byte string and every container width", "why_tests_cant": "Unbounded encodings.", "anchors": ["rust/app/src/parser.rs: Zarith::{from_bytes,read_as}"]}
{"id": "C32", "title": "Operation contents are decoded as the Tezos binary format prescribes", "statement": "For each supported operation kind, decoding the protocol encoding of any operation followed by any further bytes yields exactly that operation's fields and leaves exactly the further bytes.", "quantifier": "every operation value of every kind and every continuation", "why_tests_cant": "Unbounded field contents and lengths.", "anchors": ["rust/app/src/parser/operations/*.rs: from_bytes, from_bytes_into", "rust/app/src/parser/operations/operation_type.rs: OperationType::from_bytes_into"]}
{"id": "C33", "title": "Batches are decoded completely and in order", "statement": "Decoding the concatenation of the encodings of a list of operations yields exactly that list in order, with no bytes left over; every decode of a non-empty rest consumes at least one byte, so decoding any byte string terminates.", "quantifier": "every list of operations and every byte string", "why_tests_cant": "Unbounded batches.", "anchors": ["rust/app/src/parser/operations.rs: EncodedOperations::{parse_into,parse_next_into}", "rust/app/src/handlers/signing.rs: SignUI::num_items"]}
{"id": "C34", "title": "Review shows every field of every operation exactly once", "statement": "For an operation batch the review screens number 1 plus the sum of the operations' items; item k shows the branch for k = 0 and otherwise the row given by flattening the operations' rows in order, with its title and a text of its value split over pages. The same holds of the other reviews (keys, authorisations, setups). (False of the code when the rows exceed 255, e.g. 256 transfers' rows or 253 proposals; when the batch contains anonymous operations, which have no rows; and for numbers of 2^28 or more, whose item fails. Proved otherwise, and each exception proved.)", "quantifier": "every pending review after every sequence of events, every batch of operations, both kinds of device", "why_tests_cant": "Unbounded batches and field values; the counterexamples need more than 255 items.", "anchors": ["rust/app/src/handlers/signing.rs: SignUI::{num_items,find_op_with_item,render_item}", "rust/app/src/parser/operations/*: DisplayableItem impls", "rust/app/src/handlers/{public_key,baking,hwm}.rs: Viewable impls"]}
{"id": "C35", "title": "Long texts are paged without loss", "statement": "Showing the pages of a text on a screen buffer of m+1 bytes in order shows exactly the text; every page is NUL-terminated and fits; page numbers past the end are refused, except that a text shorter than the screen is shown for every page number. The announced page count is the number of pages. (The announced count is one too many when the length is a positive multiple of m and wraps at 256 pages: refuted there, proved otherwise.)", "quantifier": "every text, screen size and page number", "why_tests_cant": "All lengths around multiples of the page size.", "anchors": ["rust/app/src/handlers/utils.rs: handle_ui_message"]}
{"id": "C36", "title": "Amounts are shown with the right decimal point", "statement": "Formatting a decimal digit string with d decimals yields a string denoting exactly the number divided by 10^d, with at least one integer digit, no superfluous leading zeros and exactly d fractional digits, whenever the buffer is large enough; different amounts have different texts; a smaller buffer stops the program, and a buffer without a terminating zero or with something else than a digit before the first digit other than zero is refused, so that no wrong text comes out. (False for strings of two or more zeros and nothing else, which never come from a number: refuted there, proved for every other digit string.)", "quantifier": "every digit string, every number of decimals, every sufficient buffer", "why_tests_cant": "All values and leading-zero patterns.", "anchors": ["rust/app/src/handlers/utils.rs: intstr_to_fpstr_inplace"]}
{"id": "C37", "title": "Review navigation stays in range and reaches approval only deliberately", "statement": "Whatever buttons are pressed, the current item index stays within the items plus the actions, pressing both buttons on an information screen neither approves nor rejects, approval happens only on the approve screen and rejection only on the reject screen, and every item can be reached by pressing right; right always leads to the next page, item or action and left to the previous one, staying put at the two ends.", "quantifier": "every sequence of button presses, every number of items and pages", "why_tests_cant": "Unbounded button sequences.", "anchors": ["rust/zemu/src/ui_toolkit.rs: ZUI::{paging_increase,paging_decrease,review_action,review_update_data,approve,reject}"]}
{"id": "C38", "title": "Baker names are looked up correctly", "statement": "Looking up a delegate by prefix and hash in the table built from a registry of addresses returns a name registered for exactly that delegate if there is one and nothing otherwise; this holds of the built-in registry. (One built-in address has two names, so there it is one of the two.)", "quantifier": "every sorted table, every registry of addresses, the built-in registry, every key", "why_tests_cant": "All keys; the binary search's boundary cases depend on the table size.", "anchors": ["rust/app-derive/src/unroll.rs: baker_lookup generation", "rust/app/src/parser/operations/delegation.rs", "rust/app-derive/src/unroll.rs: retrieve_data", "rust/app/vendor/BakersRegistryCoreUnfilteredData.json"]}
{"id": "C39", "title": "Addresses identify curve and key hash", "statement": "The address text shown or returned for a key hash is the base58 encoding of the curve's prefix, the hash and the double-SHA-256 checksum; it always fits its buffer, and two different (address kind, hash) pairs never give the same text.", "quantifier": "every curve and every 20-byte hash (and contract ids, branches, chain ids)", "why_tests_cant": "2^160 hashes.", "anchors": ["rust/app/src/handlers/public_key.rs: Addr::{new_into,from_hash,base58}", "rust/app/src/parser/operations.rs: ContractID::base58, Operation::base58_branch_into", "rust/app/src/handlers/hwm.rs: ChainID::id_to_base58"]}
{"id": "C40", "title": "Public key answers are length-prefixed and exact", "statement": "GET_PUBLIC_KEY, GET_ADDRESS and the authorise and setup approvals answer the key length, the public key of exactly the requested path and curve, and (where documented) the address, followed by Success; the queries for the authorised key answer exactly its path (after its curve where asked for); malformed curves and paths are refused.", "quantifier": "every curve byte, payload and request flavour", "why_tests_cant": "All request bytes.", "anchors": ["rust/app/src/handlers/public_key.rs: GetAddress::handle, AddrUI::accept", "rust/app/src/handlers/legacy/public_key.rs", "rust/app/src/handlers/baking/queryauth.rs: QueryAuthUI::accept"]}
{"id": "C41", "title": "Status words are a faithful code", "statement": "Each error condition has its own status word; decoding a status word gives back the condition, and unknown words are refused.", "quantifier": "every status word", "why_tests_cant": "All 65536 words.", "anchors": ["rust/app/src/constants.rs: ApduError, TryFrom<u16>, TryFrom<&[u8]>"]}
{"id": "C42", "title": "Buffer lock is exclusive", "statement": "At any time at most one command family holds the upload buffer, only the holder can acquire or release it, a new initial packet takes it over, and release makes every acquisition fail until it is locked again.", "quantifier": "every sequence of lock, acquire and release by any callers", "why_tests_cant": "All call sequences.", "anchors": ["rust/app/src/handlers/lock.rs: Lock::{lock,acquire,release}"]}
{"id": "C43", "title": "Consensus messages are decoded as the protocol prescribes", "statement": "Decoding the protocol encoding of any Emmy or Tenderbake block header, endorsement or pre-endorsement yields its level, round and kind exactly; the preamble byte and the decoded kind must agree or the request is refused.", "quantifier": "every block header / (pre-)endorsement and every fitness of at least the minimal length", "why_tests_cant": "Unbounded contents; the level and round decide slashing safety.", "anchors": ["rust/app/src/parser/baking.rs: BlockData::from_bytes, Fitness::from_bytes, EndorsementData::from_bytes", "rust/app/src/parser/baking/emmy.rs", "rust/app/src/parser/baking/tenderbake.rs", "rust/app/src/handlers/baking.rs"]}
{"id": "C44", "title": "Malformed consensus messages do not crash the device", "statement": "Every byte string uploaded as a consensus message is either signed or answered with an error status. (False of the code: a Tenderbake fitness with fewer than 4 bytes after the version panics; proved for all other inputs.)", "quantifier": "every byte string", "why_tests_cant": "All byte strings; the crash needs a particular short fitness.", "anchors": ["rust/app/src/parser/baking/tenderbake.rs: TenderbakeFitness::from_bytes", "rust/app/src/parser/baking.rs: Fitness::from_bytes"]}
{"id": "C45", "title": "Operation decoding is total and local", "statement": "Decoding an operation from any byte string never panics, consumes at least one byte when it succeeds, and its result depends only on the bytes it consumed, not on what follows them.", "quantifier": "every byte string and every continuation", "why_tests_cant": "All byte strings; a dependency on following bytes needs a particular pair of inputs.", "anchors": ["rust/app/src/parser/operations/operation_type.rs: OperationType::from_bytes_into", "rust/app/src/parser/operations/*.rs: from_bytes_into", "rust/app/src/parser.rs: Zarith::from_bytes, public_key_hash, public_key"]}
{"id": "C46", "title": "Different operation bytes decode differently", "statement": "Two different byte strings never decode to the same reviewed operations. (False of the code: non-canonical booleans, contract padding, padded numbers and anonymous operations are not told apart; proved for protocol encodings without anonymous operations.)", "quantifier": "every pair of batches", "why_tests_cant": "All pairs of inputs.", "anchors": ["rust/app/src/parser.rs: Zarith, boolean", "rust/app/src/parser/operations.rs: ContractID::from_bytes, AnonymousOp::from_bytes"]}
{"id": "C47", "title": "What is signed after a review was shown on the screen", "statement": "With expert mode off, whenever the wallet signs a batch of operations with fewer than 256 rows or Michelson data, or the baking app signs a delegation or reveal, there is an earlier moment when the user pressed both buttons at the approval screen of that very request, and every page of every row describing the signed operations had been on the screen since the review began. (Without the conditions it is false of the code: reviews of 256 rows or more, 253 proposals, expert mode on the Nano S, and further operations after the first in the baking app are signed unseen; each is a _refuted theorem.)", "quantifier": "every sequence of APDUs, button presses and power cycles, every fault schedule, both screen types, every batch", "why_tests_cant": "Unbounded interleavings of packets, navigation back and forth, errors and power cycles; all batches.", "anchors": ["rust/zemu/src/ui_toolkit.rs", "rust/zemu/src/ui_toolkit/backends/nanos.rs", "rust/zemu/src/ui_toolkit/backends/nanox.rs", "rust/app/src/handlers/signing.rs: SignUI", "rust/app/src/handlers/baking.rs: BakingSignUI, handle_delegation"]}
{"id": "C48", "title": "The screen and the buttons do no more than approve, reject or abandon", "statement": "For every sequence of APDUs, button presses and power cycles, the answers and the state of the device are those of a sequence of APDUs, approvals, rejections and abandonments in which every approval and rejection comes from pressing both buttons at the corresponding screen. In particular no button and no review stops the app.", "quantifier": "every sequence of inputs, every fault schedule, both screen types", "why_tests_cant": "Unbounded sequences; absence of crashes for every reviewable value.", "anchors": ["rust/zemu/src/ui_toolkit.rs", "rust/zemu/src/ui_toolkit/backends/nanos.rs", "rust/zemu/src/ui_toolkit/backends/nanox.rs", "rust/app/refactor/view_s.c", "rust/app/refactor/view_x.c"]}
{"id": "C49", "title": "Well-formed requests to sign after a review are served", "statement": "A request to sign an operation or Michelson data, sent as one packet naming the key and any number of further packets with the message, is acknowledged packet by packet and put to the user, whatever happened before, including an abandoned upload. Approval answers with the signature of exactly the message sent by exactly the key named, with the digest in front for the instructions that ask for it; rejection answers 0x6986 and signs nothing. The flash slots do not change.", "quantifier": "every history, key, message, split into packets and instruction", "why_tests_cant": "All messages, splits and histories.", "anchors": ["rust/app/src/handlers/signing.rs", "rust/app/src/handlers/legacy/signing.rs", "rust/app/src/utils/buffer_upload.rs: Uploader", "rust/app/src/dispatcher.rs"]}
{"id": "C50", "title": "Well-formed consensus requests are served exactly above the watermark", "statement": "In the baking app a protocol-encoded block, endorsement or preendorsement sent for the authorised key, in any number of packets, is answered with its signature exactly if its position is above the stored watermark (and its level is below 2^31); the watermark then is that position and the other slots are unchanged. Otherwise the answer is 0x6984 and nothing changes.", "quantifier": "every history with no fault ahead, every message, watermark, key and split into packets", "why_tests_cant": "All watermarks, messages and splits.", "anchors": ["rust/app/src/handlers/baking.rs: baker_sign, handle_endorsement, handle_blockdata", "rust/app/src/parser/baking.rs", "rust/app/src/handlers/hwm.rs"]}
{"id": "C51", "title": "The baking app signs delegations and reveals, and no other operation", "statement": "In the baking app a single operation sent for the authorised key is put to the user if it is a delegation or a reveal, and approval answers with its signature by the authorised key; every other operation is refused with 0x6986 without a review.", "quantifier": "every history, operation, branch and split into packets", "why_tests_cant": "All operations and histories.", "anchors": ["rust/app/src/handlers/baking.rs: handle_delegation, BakingSignUI"]}
{"id": "C52", "title": "Requests that change the stored key are served", "statement": "In the baking app a well-formed request to authorise a key, to deauthorise, or to set up is put to the user, whatever happened before. Approval answers with the public key (nothing for deauthorise) and stores exactly the key named, or none, and for a set-up both levels and the chain; this also holds after a restart, and the other slots are unchanged. Rejection answers 0x6986 and changes nothing.", "quantifier": "every history without a fault ahead, every key, level and chain", "why_tests_cant": "All histories and keys, restarts at every point.", "anchors": ["rust/app/src/handlers/baking/authorization.rs: AuthorizeBaking, DeAuthorizeBaking", "rust/app/src/handlers/legacy/baking.rs", "rust/app/src/handlers/legacy/baking/setup.rs"]}
{"id": "C53", "title": "The HMAC and version commands answer", "statement": "The HMAC command answers with the HMAC of exactly the bytes after the path, under the hash of the key's signature of a constant, and leaves the flash slots alone. The version commands answer with the kind of app, its version, the target and the first eight characters of the commit in every state without a review.", "quantifier": "every state, key, message and build configuration", "why_tests_cant": "All states and messages.", "anchors": ["rust/app/src/handlers/legacy/hmac.rs", "rust/app/src/handlers/baking/hmac.rs", "rust/app/src/handlers/version.rs", "rust/app/src/handlers/legacy/version.rs"]}
{"id": "C54", "title": "The client names the path the caller wrote", "statement": "serializePath turns the text of a path with two or four components, hardened or not, into bytes that the device reads as exactly these components; every text it accepts yields bytes that name a path of two or four components; texts of other lengths are refused.", "quantifier": "every path text", "why_tests_cant": "Unbounded set of texts.", "anchors": ["js/src/helper.ts: serializePath", "rust/bolos-common/src/bip32.rs: BIP32Path"]}
{"id": "C55", "title": "The client cuts messages without loss", "statement": "prepareChunks yields the path followed by pieces of one to 250 bytes whose concatenation is the message, and exactly as many as needed.", "quantifier": "every message", "why_tests_cant": "All lengths, including multiples of the chunk size.", "anchors": ["js/src/index.ts: prepareChunks", "js/src/common.ts: CHUNK_SIZE"]}
{"id": "C56", "title": "A wallet client gets the signature of exactly its message", "statement": "signOperation, signMichelson and legacySignWithHash, run against the device after any history and with any old contents of the APDU buffer, return the hash and the whole signature of exactly the caller's message by exactly the caller's key if the user approves; if the user rejects they return 0x6986, no signature is made and nothing changes. (legacySign returns only the first 32 bytes of the signature.)", "quantifier": "every history, path, curve, message that the device can review, decision of the user", "why_tests_cant": "Composition of two programs over all messages and histories.", "anchors": ["js/src/index.ts: signOperation, signMichelson, legacySignWithHash, legacySign, signSendChunk", "rust/app/src/handlers/signing.rs"]}
{"id": "C57", "title": "A baker client gets a signature exactly above the watermark", "statement": "signBaker on a protocol-encoded block, endorsement or preendorsement of Emmy or Tenderbake chooses the right leading byte, and returns the hash and signature of exactly this message exactly if its position is above the stored watermark and its level below 2^31, in which case the watermark is raised to it; otherwise it returns 0x6984 and nothing changes. On a single delegation or reveal it returns the signature if the user approves; on other operations 0x6986.", "quantifier": "every history without a fault ahead, every message, watermark and path", "why_tests_cant": "Composition of two programs over all messages and watermarks.", "anchors": ["js/src/index.ts: signBaker", "rust/app/src/handlers/baking.rs: baker_sign"]}
{"id": "C58", "title": "The client returns the right key and address", "statement": "getAddressAndPubKey, and showAddressAndPubKey if the user approves, return the device's public key for the path and the text of its address; publicKeyToAddress computes the same text from that key. (legacyGetPubKey and legacyPromptPubKey return neither.)", "quantifier": "every state without a review, every path and curve", "why_tests_cant": "All keys.", "anchors": ["js/src/index.ts: processGetAddrResponse, publicKeyToAddress, legacyGetPubKey, legacyPromptPubKey", "rust/app/src/handlers/public_key.rs"]}
{"id": "C59", "title": "Watermarks set by the client are read back", "statement": "After legacyResetHighWatermark with a signed 32-bit level, legacyGetHighWatermark and legacyGetAllWatermark return this level (modulo 2^32), at once and after a restart; other levels throw without a command being sent. After an approved legacySetup the stored key is the caller's, and legacyGetAllWatermark returns the caller's levels and chain, at once and after a restart; a rejected one changes nothing.", "quantifier": "every history without a fault ahead, every level and chain", "why_tests_cant": "All levels; restarts.", "anchors": ["js/src/index.ts: legacyResetHighWatermark, legacyGetHighWatermark, legacyGetAllWatermark, legacySetup", "rust/app/src/handlers/legacy/hwm.rs"]}
{"id": "C60", "title": "Keys, HMAC, versions and return codes read by the client", "statement": "An approved authorizeBaking returns the public key and stores exactly the caller's key, which queryAuthKeyWithCurve returns afterwards; an approved deauthorizeBaking removes it; rejections change nothing. legacyHMAC returns the HMAC of exactly the caller's message. The version calls return what the app was built from. Every status word that the device can answer has a description in the client.", "quantifier": "every history without a fault ahead, every path, curve and message", "why_tests_cant": "All states; every reachable answer.", "anchors": ["js/src/index.ts: authorizeBaking, deauthorizeBaking, queryAuthKeyWithCurve, legacyHMAC, legacyGetVersion, legacyGetGit", "js/src/common.ts: ERROR_DESCRIPTION, getVersion"]}
{"id": "C61", "title": "sig_hash computes what was signed", "statement": "For operations and Michelson data the hash that sig_hash computes is the hash which the signing calls return and which the device signed. (For Tenderbake messages it is not: sig_hash knows only the Emmy bytes.)", "quantifier": "every message and history", "why_tests_cant": "All messages.", "anchors": ["js/src/index.ts: sig_hash, signBaker"]}
{"id": "C62", "title": "Requests that look the same on the screen are alike", "statement": "If two pending reviews (of less than 256 rows, on any devices with the same hash functions) write the same to the screen for every item and page and every item is shown, they ask for the same kind of thing with the same contents: same branch and, operation by operation, same kind, accounts, amounts, fees, counters, limits, levels, ballots, proposals and keys, and same hashes of code and data. Encoded operations made only of fields shown as they are have to be equal, and so the messages signed. Exceptions, each shown to be one: the entrypoint of a call, the signature inside an endorsement with a slot, operations without rows, and delegates to which the built-in table gives one name, which are only the two called Tezos Japan.", "quantifier": "every pair of pending reviews after any event sequences, both kinds of device, every hash function, every batch of encoded operations", "why_tests_cant": "It is a claim about all pairs of requests: any field missing from, truncated on or ambiguous on the screen breaks it.", "anchors": ["rust/app/src/parser/operations/delegation.rs: render_item", "rust/app/src/parser/operations/transfer.rs: render_item", "rust/app/src/parser/operations/endorsement.rs: EndorsementWithSlot", "rust/app/src/handlers/signing.rs: render_item", "rust/app/src/handlers/baking.rs: render_item", "rust/app/vendor/BakersRegistryCoreUnfilteredData.json"]}
{"id": "C63", "title": "Only the recorded signatures leave the device", "statement": "Replace the keys of the secure element by others with the same public keys, so that every signature may come out different. If the signatures that the log records agree (for an HMAC: only the SHA-512 of the signature), then every answer, every screen and every stored byte is the same. So the answers, the screens and the flash reveal nothing of the private keys beyond the recorded signatures, and a wallet app without an approval reveals nothing at all.", "quantifier": "every replacement of the signing function, both apps, every sequence of APDUs, decisions, button presses and power cuts, every fault schedule", "why_tests_cant": "It compares two devices over whole executions; a signature left in a buffer, in flash, in an error path or on a screen is found only by the one run that reads it out.", "anchors": ["rust/app/src/handlers/signing.rs: Sign::sign, accept", "rust/app/src/handlers/baking.rs: Baking::sign, baker_sign", "rust/app/src/handlers/baking/hmac.rs", "rust/app/src/crypto.rs: SecretKey::sign"]}
{"id": "C64", "title": "What can stop the app", "statement": "With a flash that does not tear pages, an event stops the app (panic or power loss) exactly when it is a power cycle, or the power is cut during a write it makes, or it completes the upload of a block (Emmy or Tenderbake) whose version-2 fitness field has fewer than four bytes after the version, naming the authorised key. No other command, decision or upload stops it, whatever its bytes. Such a block is not signed and changes nothing in flash. With a flash that tears pages the only further cause is a slot that cannot be read.", "quantifier": "both apps, every sequence of APDUs, decisions and power cuts, every APDU content, every schedule of slot faults; answers of up to 134 bytes fit in the buffer", "why_tests_cant": "Every index, slice, unwrap and length computation of every handler is involved; a test sees only the inputs it sends, and a panic on one malformed message halts a baker.", "anchors": ["rust/app/src/parser/baking.rs: Fitness", "rust/app/src/parser/baking/tenderbake.rs: TenderbakeFitness", "rust/app/src/dispatcher.rs: handle_apdu", "rust/app/src/handlers/baking.rs: handle_blockdata, baker_sign", "rust/bolos/src/flash_slot.rs: Wear::new", "rust/app/src/handlers/baking/queryauth.rs: accept", "rust/app/src/handlers/public_key.rs: accept"]}
{"id": "C65", "title": "Signatures cover exactly the accepted packets", "statement": "Every signature except those of the HMAC command covers the concatenation of the payloads of the intermediate packets that the device answered with success since the last accepted initial packet, followed by the payload of the final packet; its curve and path are those of the accepted initial packet. Packets that were refused, for whatever reason, contribute nothing and can be sent again. This holds whatever the flash of the upload buffer does (failed writes, power losses that damage it), except when a write reports an error and leaves the buffer damaged; in that case it is false.", "quantifier": "both apps, every sequence of APDUs, decisions and power cuts, every schedule of slot faults and of upload-buffer faults other than error reports with damage", "why_tests_cant": "Needs a write to fail, or power to be lost, at each point of an upload that moves from RAM to flash, interleaved with arbitrary other commands; tests run on a flash that never fails.", "anchors": ["rust/app/src/utils/buffer_upload.rs: Uploader::upload", "rust/bolos/src/swapping_buffer.rs: write, read_exact, reset", "rust/app/src/handlers/lock.rs: Lock", "rust/app/src/handlers/signing.rs: Sign::handle", "rust/app/src/handlers/baking.rs: Baking::handle"]}
{"id": "C66", "title": "What an interrupted command leaves behind", "statement": "Power may be lost between commands and during any flash write (leaving the page old, new or detectably torn). After any history each of the four slots holds a value that survives restarts, or can never be opened again. Every RESET, authorisation, deauthorisation, set-up and consensus message determines a list of slots and values to store. If success is reported all of them are stored and no other slot has changed. Otherwise either nothing has changed, or exactly a first part of the list is stored, the slot whose turn it was is as before or lost, all other slots are as before, and the device has stopped without an answer, or the list is complete and the only possible error is that the consensus message could not be signed. A set-up is therefore not atomic: the new key can stay with the old watermarks.", "quantifier": "both apps, every sequence of APDUs, decisions and power cuts of length below 2^64, every schedule of power losses during slot writes, any faults of the upload buffer", "why_tests_cant": "Tests never cut the power during a flash write; the property needs every write of every command, in every reachable state, to be cut before, after and half-way.", "anchors": ["rust/app/src/handlers/hwm.rs: HWM::reset", "rust/app/src/handlers/legacy/baking/setup.rs: SetupUI::accept", "rust/app/src/handlers/baking.rs: Baking::store_baking_key, Baking::handle_endorsement, Baking::handle_blockdata", "rust/app/src/handlers/baking/authorization.rs: accept", "rust/bolos/src/flash_slot.rs: Wear::write, Wear::align"]}
{"id": "C67", "title": "What the device remembers", "statement": "Two devices, of any histories, that hold the same values in their four slots (or have lost the same slots), show the same review (with the same key for a request to sign), have received the same packets of the same upload, and whose flash behaves alike from now on, answer every further sequence of events in the same way, make the same further signatures and remember the same afterwards. Nothing else is remembered: no counter or page layout of the flash, no path of an earlier request, no byte of an earlier upload influences an answer. In particular, if no review is shown and no upload is in progress, a restart of the device is unobservable; during an upload or a review it is not.", "quantifier": "both apps, every pair of histories and every continuation (APDUs, decisions, power cuts) with total length below 2^64, every schedule of power losses during slot writes, any faults of the upload buffer", "why_tests_cant": "A test compares the answers of one history with recorded ones. Independence of leftover state (stale buffers, page indices, old paths) quantifies over all pairs of histories with the same relevant contents and all continuations.", "anchors": ["rust/app/src/dispatcher.rs: handle_apdu", "rust/app/src/utils/buffer_upload.rs: Uploader::upload", "rust/app/src/handlers/signing.rs: Sign::start_sign, Sign::sign, PATH", "rust/bolos/src/flash_slot.rs: Wear::read, Wear::write, Wear::align", "rust/bolos/src/swapping_buffer.rs: SwappingBuffer"]}
{"id": "C68", "title": "The app is an ideal app", "statement": "While the flash reports no error and power is lost only between commands, the app cannot be told from an ideal app whose whole memory is an optional authorised key, an optional position on the main chain, an optional test level, an optional chain id, one upload, one review with the key it will use, and the signatures made. The ideal app has no flash pages, no wear counters, no buffers, no encoding of stored values and no stored path; it reads messages by offsets. From the first start on, every sequence of APDUs, decisions and power cycles gets the same answers byte for byte (including when the app stops), makes the same signatures with the same keys, digests and data in the same order, and leaves the same review on the screen.", "quantifier": "both apps, every sequence of events below 2^64, every behaviour of the hash, key and signature functions", "why_tests_cant": "Tests sample a few exchanges of each command. That the whole command set, with its persistent state and its uploads, behaves as a small abstract machine under every interleaving of commands, decisions and restarts is a statement about unboundedly many sequences.", "anchors": ["rust/app/src/dispatcher.rs: handle_apdu, ApduBufferRead::new", "rust/app/src/handlers: all", "rust/app/src/utils/buffer_upload.rs: Uploader::upload", "rust/bolos/src/flash_slot.rs: Wear::read, Wear::write", "rust/bolos/src/swapping_buffer.rs: SwappingBuffer"]}
{"id": "C69", "title": "The key that is shown is the key that signs", "statement": "For a curve and a path, the public key the app gives and every signature it makes come from one private key: the first 32 bytes of the node the secure element derives for that path, with SLIP-10 for Ed25519 and BIP-32 for the other three curves, on curve 0x71, 0x21, 0x22 or 0x71. Keys on the Edwards curve are the compressed point (33 bytes), the others the whole point (65 bytes). Signatures are EdDSA with SHA-512, or ECDSA with RFC 6979 nonces and SHA-256 whose first byte gets its lowest bit set exactly if the call reports 'ordinate odd' and nothing else. Every key and signature the element can give is given, and no other. Every signature a device has ever made is one of the key derived for the curve and path in its record. If the element derives different nodes for different arguments, different curves or paths never share a private key.", "quantifier": "every secure element whose calls write buffers of the documented sizes (and may fail at any call), every curve, path and digest; every history of the device", "why_tests_cant": "The functions that derive, compress, sign and hash are behind system calls that do not exist on the test host; the emulator covers one seed and a few paths. That the public key and the signature use the same derivation for every curve and path, also when calls fail, is a statement about the code for every element.", "anchors": ["rust/bolos-impl/src/crypto/ecfp256.rs: SecretKey::generate_into, public_into, sign; bindings", "rust/bolos-impl/src/crypto.rs: Mode, Curve, os_perso_derive_node_with_seed_key", "rust/app/src/crypto.rs: Curve::to_secret, SecretKey::sign, From<Curve>", "rust/app/src/handlers/public_key.rs: GetAddress::new_key_into"]}
{"id": "C70", "title": "Secrets are erased after use", "statement": "After the app has signed or computed a public key, successfully or not, neither the derived node nor the private key is left in the buffers that held them.", "quantifier": "every secure element, curve, path, digest and size of the output buffer; every outcome of the calls", "why_tests_cant": "Memory contents after a call are not observable by the tests, least of all on the paths where a system call fails.", "anchors": ["rust/bolos-impl/src/crypto/ecfp256.rs: SecretKey::generate_into, public_into, cx_ecfp_generate_pair_into, cx_ecdsa_sign, cx_eddsa_sign", "rust/bolos-sys/src/extra_traits.rs: Zeroize for cx_ecfp_private_key_t"]}
{"id": "C71", "title": "Hashing in pieces is hashing the whole", "statement": "Checksums and key hashes are computed with a hash context that is fed several pieces, finalised, reset and used again. For every way a message is cut, the result is the hash of the whole message; the double SHA-256 restarts from an empty context; and the address of every public key is the one obtained from the plain hashes: BLAKE2b-160 of the key without its first byte (Edwards) or of parity byte and abscissa (the others), and the first four bytes of the double SHA-256 of prefix and hash.", "quantifier": "every element that computes some hash function as a stream, every message and every way to cut it, every curve and every key of the right length", "why_tests_cant": "A context that is not reset, or pieces fed in the wrong order, is only seen by tests for the few cuts that occur in them, and the device code for hashes does not run on the test host.", "anchors": ["rust/app/src/crypto.rs: PublicKey::hash", "rust/app/src/handlers/public_key.rs: Addr::new_into", "rust/app/src/handlers/utils.rs: sha256x2", "rust/bolos-impl/src/hash.rs: CxHash, update, finalize_dirty_into, reset", "rust/bolos-impl/src/hash/sha256.rs, blake2b.rs"]}
{"id": "C72", "title": "Exceptions of the system reach the handler that waits for them", "statement": "A computation run by catch yields its value or, as an error, the code it throws; handlers nest; effects happen in order and once; afterwards the exception context is the one of the caller. The error read from a code gives back that code.", "quantifier": "every nesting of computations, effects, throws and catches; every code", "why_tests_cant": "The code runs only on the device; on the test host catch is a plain call. Nested throws and codes of the cryptographic library do not occur in the tests.", "anchors": ["rust/bolos-impl/src/errors.rs: catch_raw, throw_raw, catch", "rust/bolos-impl/src/errors/exceptionsS.rs: SyscallError, Error, From<u32>", "rust/bolos-impl/src/errors/exceptionsX.rs"]}
{"id": "C73", "title": "The main loop answers each command once", "statement": "On the wire commands and answers alternate, starting with a command. What the host sees is what the device model answers to these commands, to the decisions of the user and to resets, in this order. While a review waits, no command is taken.", "quantifier": "every sequence of initialisations, commands, decisions, resets and power losses, every state of the buffer behind a command", "why_tests_cant": "The loop of the C part runs only on the device; its flags and lengths live across iterations and exceptions, so that a leftover shows only after a particular sequence.", "anchors": ["rust/app/c/main.c l.112-177: handle_generic_apdu, app_init, app_main, main", "rust/app/src/lib.rs: rs_handle_apdu", "rust/zemu/src/ui.rs: approve, reject"]}
{"id": "C74", "title": "Exceptions end as status words", "statement": "An exception during a command is answered with a status word and the loop goes on with the same state of the device. A failing initialisation leaves nothing behind, and nothing is sent without a command.", "quantifier": "every exception code, every sequence of failures of the initialisation", "why_tests_cant": "Exceptions of the transport and of the initialisation cannot be provoked in the tests, and the overflow needs 131 of them.", "anchors": ["rust/app/c/main.c l.117-175: app_main, main"]}
{"id": "C75", "title": "The host library reads name, version and flags of the running app", "statement": "getAppInfo returns the name, the version, the number of flags and the flags that the device answers, whatever their lengths, and reports answers in another format as errors.", "quantifier": "every name, version and flags field, every answer", "why_tests_cant": "The tests of the library ask one device with one app; other lengths, an empty field of flags and other formats do not occur.", "anchors": ["js/src/index.ts l.162-209: getAppInfo"]}
{"id": "C76", "title": "Answers have the documented form", "statement": "Every answer of a history of commands and decisions consists of data and a return code. The return code is one of the documented ones. A successful answer has the fields that docs/APDUSPEC.md lists for its instruction, an unsuccessful one has no data, and instruction 5 takes data that are already hashed.", "quantifier": "every build, every sequence of commands, decisions, power cycles and failing flash writes", "why_tests_cant": "The tests look at the answers of chosen commands, not at those of arbitrary payloads, states and failing writes; return codes that are documented and never sent cannot show up in a test.", "anchors": ["docs/APDUSPEC.md l.24-280", "rust/app/src/dispatcher.rs l.100-220: apdu_dispatch, handle_apdu", "rust/app/src/handlers/legacy/signing.rs l.119-134: LegacySignUnsafe"]}
{"id": "C77", "title": "A signing call sends its message and stops when refused", "statement": "A signing call of the host library sends the path and then exactly its message, in pieces of at most 250 bytes in order, each piece only after the packet before was answered with success; after a refusal it sends nothing more and returns that code. The hash and the signature it returns are those of the last answer, and a text that is not a path leads to no packet at all.", "quantifier": "every message of at least one byte, path text, curve, instruction, and every behaviour of the other end of the connection", "why_tests_cant": "The tests talk to a device that answers as expected; a device that refuses a packet in the middle, answers with a wrong length or vanishes is not simulated, and nobody counts the packets sent.", "anchors": ["js/src/index.ts l.131-156: prepareChunks, signGetChunks", "js/src/index.ts l.246-316: signSendChunk", "js/src/index.ts l.318-424: signBaker, signOperation, signMichelson", "js/src/index.ts l.656-746: legacySignWithHash, legacySign"]}
{"id": "C78", "title": "The developer's hash command hashes exactly what was uploaded", "statement": "In a developer build, the packets of instruction 0xF0 are each answered with success, and the last one with the SHA-256 of the payloads of all packets, in order; afterwards the upload buffer is empty and free, and nothing else has changed.", "quantifier": "every state that can be reached with nothing waiting, every way to cut up to 8190 bytes into packets, whatever an abandoned upload left in the buffer", "why_tests_cant": "The test uploads one constant text of 255 bytes three times from a fresh start.", "anchors": ["rust/app/src/handlers/dev/sha256.rs l.27-64: Sha256::handle", "rust/app/src/utils/buffer_upload.rs: Uploader"]}
{"id": "C79", "title": "A blind signature covers the digest on display", "statement": "In a developer build, a blind signature is made only when its review is approved. It is made with the key named in the request, over the Blake2b digest of the uploaded message; that digest is on the screen, on one page or two, and precedes the signature in the answer. Rejecting answers 0x6986 and makes none.", "quantifier": "every history of commands, decisions and power cycles; every message up to the capacity, key and cut into packets; every digest", "why_tests_cant": "The test signs one short message; nobody reads the screen, and the digests displayed on two pages are not compared with the digest signed.", "anchors": ["rust/app/src/handlers/dev/blind_sign.rs l.36-116: BlindSign", "rust/app/src/handlers/dev/blind_sign.rs l.118-209: BlindSignUi"]}
{"id": "C80", "title": "Developer builds leave the app as it is", "statement": "A developer build treats the instructions of the app exactly as the released app does. The developer's instructions, and decisions on what they show, change neither the watermarks nor the authorised key nor the app's record of signatures, so the consensus messages the app signs stay strictly ordered whatever a developer does in between. The released app refuses all of these instructions with 0x6986.", "quantifier": "every history, fault schedule and kind of build", "why_tests_cant": "Features are compiled in or out; the tests run in one configuration at a time and compare nothing between them.", "anchors": ["rust/app/src/dispatcher.rs l.111-196: apdu_dispatch", "rust/app/src/handlers/dev"]}
{"id": "C81", "title": "The developer's screens show what was sent", "statement": "In a developer build, the text of an echo command (17 to 34 bytes) is displayed as it was sent, a longer one is refused with 0x6700; an instruction the app does not know is displayed with its header, length and payload. Approving answers success, rejecting 0x6986, and the upload buffer used for the display is emptied.", "quantifier": "every text, every unknown instruction and payload, every state that can be reached with nothing waiting and an empty upload buffer", "why_tests_cant": "The tests send one text of 34 bytes and look at no screen.", "anchors": ["rust/app/src/handlers/dev/echo.rs l.26-100: Echo", "rust/app/src/handlers/dev/debug.rs l.27-110: Debug"]}
{"id": "C82", "title": "A thrown exception is reported with its code", "statement": "In a developer build, the exception command with P1 of at least 1 answers the code in P2 as eight bytes and success, as the catching mechanism has it; with P1 = 0 the exception reaches the main loop, which answers the code and 0x6400.", "quantifier": "every code from 1 to 255, every state with nothing waiting", "why_tests_cant": "The Rust tests run on the host, where nothing is thrown.", "anchors": ["rust/app/src/handlers/dev/exception.rs l.26-82: Except::handle", "rust/bolos-impl/src/errors.rs, rust/bolos-impl/src/errors/exceptionsS.rs: catch", "rust/app/c/src/main.c l.158-167"]}
{"id": "C83", "title": "The version answered is the one in Makefile.version", "statement": "The build accepts a version file exactly when it consists of comments, blank lines and definitions NAME=VALUE of different names, each value a decimal number below 256 (a plus sign is allowed), and then defines exactly these constants; any other file stops the build.", "quantifier": "every text", "why_tests_cant": "The project's test only checks that three names exist for one file.", "anchors": ["rust/app-derive/src/version.rs l.28-119: version, retrieve_data", "rust/app/src/handlers/version.rs l.20", "rust/app/Makefile.version"]}
{"id": "C84", "title": "Flash memory starts as declared and writes stay in place", "statement": "A static declared with the nvm attribute holds, for an array type of any depth, its initial row in every row (zeros without an initial value), and other declarations stop the build; the areas of new_flash_slot! start as pages that read as empty. A write changes exactly the bytes it covers; one that does not fit changes nothing.", "quantifier": "every array type and initial value; every memory, offset and data, also where the end wraps around 32 bits", "why_tests_cant": "Tests cover a few sizes and no offsets that overflow.", "anchors": ["rust/bolos-derive/src/nvm.rs l.80-224: walk_multi_array, nvm, expand_array, reduce_lens", "rust/bolos-impl/src/nvm.rs l.60-90: NVM::write", "rust/bolos/src/flash_slot.rs l.291-307: new_flash_slot!"]}
{"id": "C85", "title": "Statics get their value before they are used", "statement": "A static declared with lazy_static answers every use as if it had been initialised when the app started, through any number of uses, panics of the initialiser and restarts, provided that the RAM of its sentinel is not 1 at the start; the position of a wear-levelled area in the device model is such a static.", "quantifier": "every type, initialiser, sequence of uses and restarts", "why_tests_cant": "Tests run in one process in which statics are initialised once.", "anchors": ["rust/bolos-derive/src/lazy_static.rs l.91-199: init, get, get_mut", "rust/app/src/handlers/hwm.rs l.37-44", "rust/app/src/handlers/baking.rs l.44-46"]}
{"id": "C86", "title": "Requests decided by hand", "statement": "After anything sent and pressed before, a well-formed request for a signature, for an address, to authorise a key or to set up is answered as the user decides with the buttons: some number of presses of the right button brings every page of every row on the screen, then both buttons approve it and give exactly the documented answer and state; with one more press of the right button, they reject it, with the documented refusal and the state unchanged.", "quantifier": "both devices, every sequence of packets and button presses before, every well-formed request of the named kinds whose rows can be shown; on the Nano S the rows are known to be seen unless expert mode was on", "why_tests_cant": "The emulator tests replay a few fixed sequences of buttons and compare screenshots; the number of pages depends on the content.", "anchors": ["rust/zemu/src/ui_toolkit.rs and backends: show, left_button, right_button, accept and reject buttons", "rust/app/refactor/view_s.c, view_x.c", "rust/app/src/handlers/signing.rs: Sign, SignUI", "rust/app/src/handlers/baking.rs: AuthorizeBaking, Baking, Setup", "rust/app/src/handlers/public_key.rs: GetAddress"]}
{"id": "C87", "title": "Calls of the library with a user at the buttons", "statement": "Any call of the JavaScript library on a device in a user's hands behaves as with a device whose user decides: approval happens only where both buttons were pressed at once. For a call that asks for a signature, an address, the authorisation of a key or a setup there is a number of presses of the right button that shows the whole request; then both buttons make the call return the documented result, and one more press of the right button before them makes it return the status 0x6986 with nothing signed or stored. A call during which nobody presses both buttons changes no authorised key and makes the device sign nothing that needs a review.", "quantifier": "every call of the library, both devices, every sequence of packets and button presses before, every sequence of buttons pressed while the call waits, every earlier content of the device's APDU buffer", "why_tests_cant": "The tests of the library and the tests of the screens are run with a few fixed button sequences per request; a call with a user who presses anything at all is outside of them.", "anchors": ["js/src/index.ts: TezosApp, all calls", "js/src/helper.ts, js/src/common.ts", "rust/app/c/main.c: app_main", "rust/zemu/src/ui_toolkit.rs and backends: left_button, right_button, accept and reject", "rust/app/src/handlers/signing.rs, baking.rs, public_key.rs"]}
{"id": "C88", "title": "What a host gets signed", "statement": "A call of the JavaScript library that asks for a signature with its hash returns either the one signature the device made during the call, which is of exactly the message and with exactly the key the caller named, with its hash and the code of success; or neither hash nor signature and another code, and then the device signed nothing during the call. This holds in every state of the device, whatever the user decides or presses, and whenever the transport gives up. Over any number of such calls, with anything but a reset of the watermark happening in between, the consensus messages for which the host got a signature strictly increase in level, round and kind.", "quantifier": "every signing call, path text, message and state of the device reached by any events and flash faults except torn upload pages; every decision and button press; every number and order of calls and other events between them", "why_tests_cant": "The tests make one call at a time on a fresh emulator that works, and compare one result; a call on a busy or half-loaded device, or two calls hours apart, is outside of them.", "anchors": ["js/src/index.ts: signOperation, signMichelson, signBaker, legacySignWithHash, sign, signSendChunk", "js/src/common.ts: splitBufferToChunks, processErrorResponse", "rust/app/src/handlers/signing.rs", "rust/app/src/handlers/baking.rs: baker_sign", "rust/app/src/dispatcher.rs"]}
{"id": "C89", "title": "What a review draws is what was uploaded", "statement": "The structures behind a signature review hold slices of the upload buffer, which is reset and released before the first screen is drawn. Nevertheless, as long as the review is pending, these slices lie inside the buffer and hold exactly the uploaded message whose digest an approval signs, so that what is drawn is what was decoded when the review started; this holds after any history and whatever is pressed.", "quantifier": "every history of commands, decisions, button presses and power losses, every fault of the flash, both builds, messages kept in RAM and in flash", "why_tests_cant": "The tests never send a command while a review is on the screen, and compare screens with the message, not with the memory they are drawn from; whether memory that is no longer locked may change is a question about all histories.", "anchors": ["rust/app/src/utils/buffer_upload.rs: UploaderOutput, drop", "rust/app/src/handlers/signing.rs: SignUI", "rust/app/src/handlers/baking.rs: BakingSignUI", "rust/bolos/src/swapping_buffer.rs: reset", "rust/app/src/handlers/lock.rs"]}
{"id": "C90", "title": "The test build is a device whose user approves every review", "statement": "In the build used by the unit tests showing a review accepts it at once, inside the command. Whatever commands a test sends, after any history, it sees the answers a host sees of a device whose user approves every review: the same bytes in the same order, the answer of a review in the display's buffer, and a panic exactly where the device stops; without a panic both end in the same state. So what the unit tests establish holds of the device, except that the test build never finds a review too big for its memory.", "quantifier": "every list of commands, every history before it, every fault of the flash, both builds of the app, every answer of the system calls", "why_tests_cant": "This is about what the tests are evidence of: no test compares the two builds, and the real display cannot be run in a unit test.", "anchors": ["rust/zemu/src/ui_mock.rs: show", "rust/zemu/src/ui/manual_vtable.rs", "rust/app/src/dispatcher.rs", "rust/app/tests/baking.rs"]}
{"id": "C91", "title": "A passing test vector says what the device shows", "statement": "The test driver of reviews collects exactly one page per announced row; its title and text stand for the row and equal the title and the concatenated pages of the item on either device, though the driver's buffers have other sizes. It panics only if a row cannot be shown by either device. Hence, if a test vector passes, what it says of an item is what a device reviewing the same operations shows there. What a vector does not mention, and every message of an entry after the first, is not compared.", "quantifier": "every review, every operation batch of any bytes, every test vector, both screens", "why_tests_cant": "The tests run the driver on the driver's own buffers and never on those of a device; that one stands for the other is an assumption of every vector.", "anchors": ["rust/zuit/src/lib.rs: MockDriver::drive", "rust/app/src/parser/integration_tests.rs: verify_ui", "rust/app/src/handlers/signing.rs: to_sign_ui", "zemu/test-vectors"]}
{"id": "C92", "title": "What the fuzz targets can find", "statement": "The fuzz target of the operations ends for every input without a crash, within one round per byte. The fuzz target of the commands crashes exactly when an input completes the upload of a block with a short fitness for the authorised key; never in the wallet, and never at the first input of a fresh process.", "quantifier": "every input of any length for the operations; every sequence of inputs, every answer of the system calls and both builds for the commands", "why_tests_cant": "A fuzzer samples inputs; that it will find nothing else, or nothing at all, is a statement about all of them.", "anchors": ["rust/hfuzz-parser/apdu.rs", "rust/hfuzz-parser/operations.rs", "rust/zemu/src/ui_mock.rs", "rust/app/src/parser/operations.rs: parse_next"]}
{"id": "C93", "title": "What a passing baking test says", "statement": "The baking flow of the unit tests - reset, authorise a key, send messages in pieces, assert success each time - passes exactly if the positions of the messages rise strictly from the reset level and stay below the limit of the app. If it passes, each message was signed exactly once with the authorised key, in order, and nothing else was signed.", "quantifier": "every level, curve, path, list of blocks, pre-endorsements and endorsements of any content and length that fit the upload, every earlier tests of the same process, and every answer of the system calls", "why_tests_cant": "The tests send one recorded list; which lists pass, and what passing implies, is a statement about all of them.", "anchors": ["rust/app/tests/prelude.rs: process_apdu, process_apdu_chunks, prepare_path", "rust/app/tests/baking_prelude.rs", "rust/app/tests/baking.rs: baking_flow", "rust/app/tests/signatory_samples.bin", "rust/zemu/src/ui_mock.rs"]}
{"id": "C94", "title": "What the emulator tests of baking sign and say", "statement": "From arguments in their ranges get_endorsement_info and get_blocklevel_info make a message that signBaker marks and the app reads at one position, the stated one except for a block of round 0, which becomes an Emmy block: no arguments make a Tenderbake block of round 0. All other arguments are an exception. A test (reset, authorise, sign messages with an expected verdict each) passes exactly if the expected verdicts are those of a baker that signs what is strictly later; if it passes, the device has signed exactly the accepted messages with the authorised key, in order. The six tests of the suite pass, and would with any rule on two different rounds.", "quantifier": "every chain, branch, level, round and type; every list of calls and expected verdicts; every curve and path, every history of the device before the test, every previous content of the APDU buffer and every answer of the system calls", "why_tests_cant": "The tests use a few literals and trust their own helpers: nothing checks that the helper makes the message the test talks about.", "anchors": ["zemu/tests/baking_utils.ts: get_endorsement_info, get_blocklevel_info", "zemu/tests/baking.test.ts: l.382-614", "js/src/index.ts: signBaker, authorizeBaking, legacyResetHighWatermark", "rust/app/src/handlers/baking.rs", "rust/app/src/handlers/hwm.rs"]}
{"id": "C95", "title": "Where arrows lead in a review, and what the emulator tests that sign say", "statement": "A review of less than 256 rows that can all be shown is a line of places: whatever arrows are pressed, nothing is answered and nothing changes, and the place shown is the one the arrows add up to. Both buttons approve at one place, reject at the next and do nothing at the others. So a test that signs with 30 right, one left and both passes exactly if the review takes at most 29 presses and the signature verifies, one that navigates [n, 0] exactly if n is the number of presses and the signature verifies; otherwise nothing is signed. With at most 14 rows 29 presses suffice, with 30 rows they do not. For Secp256R1 the tests accept any signature, and no public key.", "quantifier": "every message of a wallet whose review has less than 256 rows that can all be shown, every sequence of arrow buttons, every key, every history of the device before the test, every host library that computes the hashes, every verifier of signatures, every signature, every answer of the system calls, both families of devices", "why_tests_cant": "The tests press fixed numbers of buttons for fixed data, found by trying; they do not say for which data these lead to the approval, nor what a passing test has checked.", "anchors": ["zemu/tests/testvectors.test.ts: l.30-150", "zemu/tests/standard.test.ts: l.156-376", "rust/zemu/src/ui_toolkit/backends/nanos.rs", "rust/zemu/src/ui_toolkit/backends/nanox.rs", "js/src/index.ts: signOperation, signMichelson, getAddressAndPubKey, sig_hash"]}
{"id": "C96", "title": "What the generators of test vectors write passes, and what passing says", "statement": "A vector that a generator writes passes verify_ui on the operation the generator asks the node to forge, whatever the node estimates below 2^28, and has one entry for every row of the review: fees, limits, counters and amounts are exact, addresses, keys and hashes are those of the operation, and a delegate appears under the name the device's table has for it. Nothing else passes: a message that passes shows row by row the same texts, under titles that start with the same words. Amounts below 2^33 tez are written exactly in spite of floating point; 2^33 tez and one millionth are not. Which delegate, vote and order of proposals a vector has follows from its number, and the default of ten vectors contains every case.", "quantifier": "every vector of the eight generators that write expected pages (any branch, source, counter, number of the vector, estimate), every operation it stands for, every table of bakers that agrees with the generator's names, every message compared against it, every amount below 2^33 tez", "why_tests_cant": "The tests run the vectors recorded in the repository, a few of each kind, and compare their own generator's output with the app; they do not show that generator and app agree for other inputs, nor that a message passing a vector must be the one intended.", "anchors": ["zemu/test-vectors-gen/common.ts", "zemu/test-vectors-gen/legacy.ts", "zemu/test-vectors-gen/delegation.ts", "zemu/test-vectors-gen/origination.ts", "zemu/test-vectors-gen/reveal.ts", "zemu/test-vectors-gen/ballot.ts", "zemu/test-vectors-gen/proposals.ts", "zemu/test-vectors-gen/endorsement.ts", "zemu/test-vectors-gen/activate_account.ts", "rust/app/src/parser/integration_tests.rs: verify_ui"]}
{"id": "C97", "title": "Identifiers begin with the letters of their kind", "statement": "The text of an address, contract, branch, proposal, public key or chain begins with the letters of its kind (tz1, tz2, tz3, KT1, B, P, edpk, sppk, p2pk, Net) and has the fixed length of its kind, whatever its data and checksum; letters and length tell the kinds apart. This holds for the texts the device shows and for the addresses the host library computes, of any bytes.", "quantifier": "every hash, key and chain id, every checksum, every text that reads as the bytes, every curve", "why_tests_cant": "Tests compare a few texts; that no hash among 2^160 or 2^256 gives a text with other letters or another length needs bounds on base58 numbers.", "anchors": ["rust/app/src/constants.rs", "rust/app/src/crypto.rs", "rust/app/src/parser/operations.rs", "js/src/index.ts: publicKeyToAddress", "zemu/tests/standard.test.ts: l.120, l.145"]}
{"id": "C98", "title": "What the emulator tests of keys and versions say", "statement": "The device passes the tests that ask for a public key, for every curve and path. A device that passes the test of getAddressAndPubKey has returned the address of the key it returned, but not necessarily the key of the path. The test of legacyGetPubKey passes exactly if the answer could be read: any 65 bytes pass, and so does the wrong address that the library computes on the real device. The version tests pass, the legacy one exactly for the kind of app it expects. A version test that passes, whatever it talks to, has had an answer with the status word 0x9000.", "quantifier": "every curve, every path of two or four components, every state of the device without review, every other device, every answer of at least 65 bytes, every build", "why_tests_cant": "A test cannot say what it fails to notice.", "anchors": ["zemu/tests/standard.test.ts: l.48-153", "zemu/tests/baking.test.ts: l.80-100", "js/src/index.ts: getAddressAndPubKey, legacyGetPubKey, publicKeyToAddress"]}
{"id": "C99", "title": "What is signed fits the upload buffer, and whatever fits can be signed", "statement": "Every message that the device signs by review or as a consensus message fits the 8191 bytes of the upload buffer together with the byte of the curve and the serialised path; so no message of 8186 bytes or more is ever signed that way, two of the sample operations among them. Conversely the wallet signs every operation or Michelson message that fits, with every key.", "quantifier": "every build, every history of commands, decisions and restarts, every behaviour of the flash, every signature; every key and message", "why_tests_cant": "A test uploads messages of a few sizes in one way; it cannot try all interleavings of uploads, restarts and failing writes.", "anchors": ["rust/app/src/utils/buffer_upload.rs: l.104-151", "rust/bolos/src/swapping_buffer.rs: write, read_exact", "zemu/tests/data/samples.json"]}
{"id": "C100", "title": "What the developer's test library and its tests do", "statement": "With nothing waiting for a decision the exception tests of the developer build pass, caught and uncaught, and leave the state alone. The library's getHash never marks the first packet as the first: unless somebody else has begun an upload for hashing, the app refuses it, the refusal is not handled, and the hash test fails for every message; yet a device that answers success and no hash passes it. display shows texts of 17 to 34 bytes and reports the user's decision; 35 bytes, which the library admits, are refused by the app, fewer than 17 make it die, and more than 35 are not sent; the display test passes exactly for 17 to 34 bytes. blind_sign returns, if the user approves, the hash of the message with the byte 5 in front and its signature with the key of the path, and 0x6986 if they reject.", "quantifier": "every state without review, every exception code 1 to 255, every message, every text, every stale buffer contents", "why_tests_cant": "The tests use one or two messages; they cannot show that no message passes, nor at which lengths the app dies.", "anchors": ["zemu/tests/dev.ts: except, sendHashChunk, getHash, display, blind_sign", "zemu/tests/dev.test.ts: l.41-134", "rust/app/src/handlers/dev"]}
{"id": "C101", "title": "The emulator tests run for every combination", "statement": "cartesianProduct returns exactly the combinations that take one element of each list, as many as the product of the lengths, none twice unless an element is repeated, and the first element varies slowest.", "quantifier": "every number of lists, of every length, of every kind of element", "why_tests_cant": "The tests that use it would silently run for fewer cases.", "anchors": ["zemu/tests/common.ts: l.29-34", "zemu/tests/standard.test.ts: l.107, l.132, l.156, l.167", "zemu/tests/baking.test.ts: l.166, l.205, l.616"]}
