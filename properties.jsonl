{"id": "C01", "title": "Integer fields decode exactly", "statement": "Reading an 8/16/32/64-bit field from the transaction bytes yields the little-endian value of exactly the next 1/2/4/8 bytes and moves the cursor past them; if fewer bytes remain the read is refused with 'unexpected buffer end'. It never touches a byte outside the supplied buffer.", "quantifier": "every buffer of up to 65535 bytes, every cursor position, every width", "why_tests_cant": "the space of buffers and cursors is unbounded for tests; off-by-one at the end of the buffer only shows on specific lengths", "anchors": ["app/src/parser_utils.c:readU8,readU16,readU32,readU64", "app/src/parser_utils.h:GEN_DEC_READFIX_UNSIGNED"]}
{"id": "C02", "title": "CLType descriptors are consumed exactly", "statement": "For every supported runtime-argument type descriptor (primitive, fixed byte array, or one level of option/list/result/tuple, or a map), the parser accepts it and consumes exactly its encoding, so the next argument starts at the right byte; descriptors that nest containers in option/list/result/tuple are refused.", "quantifier": "every type descriptor, at every position of every buffer", "why_tests_cant": "types are a recursive grammar; a desynchronised cursor after one exotic type changes the meaning of every following byte", "anchors": ["app/src/parser_utils.c:get_type,parse_additional_typebytes,check_runtime_type,is_container_type"]}
{"id": "C03", "title": "Runtime arguments are looked up by name, first match wins", "statement": "For every well-formed list of named arguments, looking up a name returns the type, position and length of the value of the first argument bearing that name, or 'not found' when no argument bears it; other arguments never influence the result.", "quantifier": "every list of named arguments (any count, names, values, supported types), every searched name", "why_tests_cant": "argument lists are unbounded; a wrong match shows another argument's value to the user", "anchors": ["app/src/runtime_arg.c:searchRuntimeArgs,parseRuntimeArgs", "app/src/parser.c:parser_runtimeargs_getData"]}
{"id": "C04", "title": "An argument whose name merely starts with a known name is never mistaken for it", "statement": "An argument is presented as 'amount', 'target', 'validator', ... only if its on-chain name is exactly that string.", "quantifier": "every argument list, including names containing any byte values", "why_tests_cant": "only adversarial names (e.g. with an embedded zero byte) distinguish the device's comparison from the chain's comparison", "anchors": ["app/src/runtime_arg.c:searchRuntimeArgs", "app/src/parser.c:parser_runtimeargs_getData"]}
{"id": "C05", "title": "Deploy header fields are located exactly", "statement": "For every well-formed deploy header (either key type, any number of dependencies, any chain name), account, timestamp, TTL, gas price, body hash, dependencies, chain name and deploy hash are read from exactly the bytes that encode them.", "quantifier": "every well-formed deploy that fits the device buffer", "why_tests_cant": "header parts have data-dependent positions; tests sample a handful of sizes", "anchors": ["app/src/parser_impl_deploy.c:index_headerpart_deploy,header_length_deploy"]}
{"id": "C06", "title": "Accepted deploys are bound to their hash", "statement": "If the device accepts a deploy for review, then BLAKE2b-256 of the header bytes equals the deploy hash that will be signed, and BLAKE2b-256 of the payment and session bytes equals the body hash inside that header. Two accepted deploys with the same signed digest therefore have the same header and body bytes, or exhibit a hash collision.", "quantifier": "every byte string the device accepts as a deploy", "why_tests_cant": "the guarantee is about all adversarial inputs, including ones with inconsistent lengths", "anchors": ["app/src/parser_impl_deploy.c:_validateTxDeploy", "app/src/parser.c:parser_validate"]}
{"id": "C07", "title": "Only standard payment is accepted", "statement": "Every accepted deploy pays with the standard payment: module-bytes payment with exactly one argument, 'amount' of type U512. Any other payment is refused, so a Fee can always be shown.", "quantifier": "every byte string", "why_tests_cant": "must hold for all malformed and adversarial payment sections", "anchors": ["app/src/parser_special.c:parseSystemPayment", "app/src/parser_impl_deploy.c:parser_read_deploy"]}
{"id": "C08", "title": "Native-transfer deploys show exactly what they do", "statement": "For every well-formed native-transfer deploy with the standard arguments, the review consists of exactly the documented items in the documented order, in normal and expert mode, and each value is the rendering of the corresponding field of the deploy (hash, type, chain, account, fee, target, amount, id, ...).", "quantifier": "every well-formed native-transfer deploy, every item index, both modes, every argument order", "why_tests_cant": "the item index arithmetic and the rendering must agree with the deploy for all field contents", "anchors": ["app/src/parser_impl_deploy.c:_getItemDeploy,_getNumItemsDeploy", "app/src/parser_special.c:parser_getItem_NativeTransfer,parseNativeTransfer"]}
{"id": "C09", "title": "Delegation deploys show validator, delegator and amount", "statement": "For every well-formed stored-contract deploy whose entry point is delegate, undelegate or redelegate with the standard arguments, the review names the operation and shows the delegator, validator (and new validator) and amount carried by the deploy.", "quantifier": "every such deploy, both modes, every argument order", "why_tests_cant": "same as C08, with five contract addressing forms", "anchors": ["app/src/parser_special.c:parseDelegation,parser_getItem_Delegation,render_fixed_delegation_items,checkForDelegationItems"]}
{"id": "C10", "title": "The argument hash covers every argument", "statement": "Whenever the review replaces the runtime arguments by an 'Args hash', that hash is the BLAKE2b-256 of the complete encoded argument list of the transaction.", "quantifier": "every accepted transaction that is shown with an argument hash", "why_tests_cant": "a hash over a prefix looks exactly like a hash over everything on the screen", "anchors": ["app/src/parser_special.c:parser_getItem_NativeTransfer,parser_getItem_Delegation", "app/src/runtime_arg.c:showRuntimeArgsHash", "app/src/parser_impl_transactionV1.c:parser_getItem_txV1_Custom"]}
{"id": "C11", "title": "No argument is silently dropped from a recognised operation", "statement": "When a deploy is shown as a recognised operation (token transfer, delegate, undelegate, redelegate), every runtime argument is either displayed or part of a displayed argument hash (expert mode).", "quantifier": "every accepted deploy", "why_tests_cant": "extra arguments are adversarial and unbounded in number and name", "anchors": ["app/src/parser_special.c:checkNativeTransferArgs,checkForDelegationItems,parseDelegation"]}
{"id": "C12", "title": "TransactionV1 layout is enforced", "statement": "A TransactionV1 is accepted only if every metadata table lists its fields in index order with 1..10 entries and every field starts exactly where its table says and each section ends where its size says.", "quantifier": "every byte string", "why_tests_cant": "tables are nested and adversarial", "anchors": ["app/src/parser_primitives.c:read_metadata", "app/src/parser_impl_transactionV1.c"]}
{"id": "C13", "title": "Accepted TransactionV1s are bound to their hash", "statement": "If the device accepts a TransactionV1 for review then BLAKE2b-256 of the payload bytes (its metadata and fields) equals the transaction hash that is displayed and signed.", "quantifier": "every byte string accepted as TransactionV1", "why_tests_cant": "as C06", "anchors": ["app/src/parser_impl_transactionV1.c:_validateTxV1"]}
{"id": "C14", "title": "Native TransactionV1 operations carry their mandatory arguments", "statement": "An accepted TransactionV1 calling transfer/add_bid/withdraw_bid/delegate/... natively has all arguments that operation requires, and amounts have type U512.", "quantifier": "every byte string accepted as TransactionV1", "why_tests_cant": "negative property over all argument lists", "anchors": ["app/src/parser_impl_transactionV1.c:check_sanity_native_transfer"]}
{"id": "C15", "title": "Stored-contract TransactionV1s use a custom entry point", "statement": "A TransactionV1 that targets a stored contract is accepted only with a custom entry point, so the entry point's name can be shown.", "quantifier": "every byte string accepted as TransactionV1", "why_tests_cant": "negative property", "anchors": ["app/src/parser_impl_transactionV1.c:read_entry_point"]}
{"id": "C16", "title": "TransactionV1 native operations show what they do", "statement": "For every well-formed TransactionV1 native operation, the review shows hash, type, chain, account and each argument of the operation rendered from the transaction's own argument list.", "quantifier": "every well-formed TransactionV1, every item index, both modes", "why_tests_cant": "as C08", "anchors": ["app/src/parser_impl_transactionV1.c:_getItemTxV1,parser_getItem_txV1_Transfer"]}
{"id": "C17", "title": "TransactionV1 arguments shown are read from the transaction's argument list", "statement": "The position used to display and sanity-check runtime arguments is the position at which the argument list was parsed.", "quantifier": "every accepted TransactionV1", "why_tests_cant": "depends on the total size of all preceding variable-length fields", "anchors": ["app/src/parser_txdef.h:runtime_args_offset", "app/src/parser_impl_transactionV1.c:read_args"]}
{"id": "C18", "title": "The TransactionV1 item count is not reduced by adding arguments", "statement": "The number of review items of a TransactionV1 is its fixed items plus one per argument shown; adding arguments never removes items from the review.", "quantifier": "every accepted TransactionV1", "why_tests_cant": "only argument counts beyond 8-bit range reveal a wrapped counter", "anchors": ["app/src/parser_txdef.h:numItems", "app/src/parser_impl_transactionV1.c:read_entry_point"]}
{"id": "C19", "title": "Custom calls always show address/name, entry point and argument hash", "statement": "For every accepted TransactionV1 calling a custom entry point of a stored contract, the review items include the contract address or name, the entry point and the argument hash.", "quantifier": "every such transaction, both modes, with and without version", "why_tests_cant": "the item index juggling depends on mode and optional version", "anchors": ["app/src/parser_impl_transactionV1.c:parser_getItem_txV1_Custom,read_target,read_entry_point"]}
{"id": "C20", "title": "Different contract addresses look different", "statement": "Two different 32-byte contract addresses are never displayed as the same text.", "quantifier": "all pairs of addresses", "why_tests_cant": "injectivity over 2^512 pairs", "anchors": ["app/src/parser_utils.c:parser_printByHashAddress", "app/src/parser_utils.c:parser_printBytes"]}
{"id": "C21", "title": "Amounts are displayed exactly", "statement": "A U512 amount is displayed as its exact decimal value, digits grouped in threes, followed by the unit; two different amounts never have the same text.", "quantifier": "every amount up to 64 bytes", "why_tests_cant": "the value space is 2^512", "anchors": ["app/src/parser.c:parser_display_runtimeArgMotes,add_thousands_separators,find_end_of_number,inplace_insert_char"]}
{"id": "C22", "title": "TTL is displayed exactly", "statement": "A time-to-live is displayed as days/hours/minutes/seconds whose total is the TTL in whole seconds; TTLs of 29 days or more are refused; two TTLs with the same text agree to the second.", "quantifier": "every 64-bit TTL", "why_tests_cant": "2^64 values", "anchors": ["app/src/parser.c:parse_TTL"]}
{"id": "C23", "title": "Checksummed hex is the right bytes", "statement": "The mixed-case hexadecimal shown for keys, hashes and addresses has two hex digits per byte which, ignoring case, decode to exactly the bytes; different byte strings of the same length have different texts; the case of each letter is the checksum bit prescribed by CEP-57.", "quantifier": "every byte string of up to 49 bytes", "why_tests_cant": "infinite input space; checksum bit order is easy to get wrong", "anchors": ["app/src/crypto.c:encode,encode_hex,encode_addr,get_next_hash_bit,bytes_to_nibbles"]}
{"id": "C24", "title": "Paging shows the whole value", "statement": "Concatenating the pages 0..pageCount-1 of an item gives exactly the full value, for every screen width.", "quantifier": "every value and page size", "why_tests_cant": "unbounded value and width", "anchors": ["app/src/parser.c:parser_getItem", "app/src/common/parser_utils.c:parser_printBytes"]}
{"id": "C25", "title": "Message signing shows and signs the same message", "statement": "In every history of commands, when the user approves a message review, the signed digest is SHA-256 of exactly the message bytes whose BLAKE2b hash was displayed.", "quantifier": "every history of APDUs and button presses", "why_tests_cant": "history-dependent: leftover state from a previous transaction may select another digest", "anchors": ["app/src/parser_message.c", "app/src/crypto.c:crypto_sign", "app/src/common/actions.h:app_sign"]}
{"id": "C26", "title": "Only prefixed messages can be signed as messages", "statement": "A message review is shown only for data starting with 'Casper Message:' and a newline, so a message signature can never be taken for a transaction signature by the prefix.", "quantifier": "every byte string", "why_tests_cant": "negative property over all inputs", "anchors": ["app/src/parser_message.c:parser_parse_message"]}
{"id": "C27", "title": "Raw WASM deploys are bound to the shown hashes", "statement": "In every history, when the user approves a raw-WASM deploy review, the signed digest is SHA-256 of the displayed deploy hash, which equals BLAKE2b-256 of the header containing the displayed body hash.", "quantifier": "every history of APDUs and button presses", "why_tests_cant": "history-dependent", "anchors": ["app/src/parser_wasm.c", "app/src/crypto.c:crypto_sign", "app/src/apdu_handler.c:handleSignWasm"]}
{"id": "C28", "title": "Parsing never leaves the buffer: TransactionV1", "statement": "Parsing any byte string as TransactionV1 performs no read outside the supplied bytes and no write outside its buffers.", "quantifier": "every byte string", "why_tests_cant": "memory safety for all inputs", "anchors": ["app/src/parser_impl_transactionV1.c:parser_read_transactionV1"]}
{"id": "C29", "title": "Parsing never leaves the buffer: Deploy", "statement": "Parsing any byte string as a deploy performs no read outside the supplied bytes and no write outside its local buffers.", "quantifier": "every byte string", "why_tests_cant": "memory safety for all inputs", "anchors": ["app/src/parser_special.c:parseDelegation", "app/src/parser_impl_deploy.c:parser_read_deploy"]}
{"id": "C30", "title": "Displaying never leaves the buffer", "statement": "Displaying any item of any accepted transaction performs no out-of-bounds access.", "quantifier": "every accepted transaction and item index", "why_tests_cant": "memory safety for all inputs", "anchors": ["app/src/crypto.c:encode", "app/src/parser_special.c:render_fixed_delegation_items", "app/src/parser_impl_deploy.c:_getItemDeploy"]}
{"id": "C31", "title": "Expert mode does not change what is parsed", "statement": "Whether parsing accepts a byte string, and which fields it extracts, does not depend on the expert-mode setting.", "quantifier": "every byte string", "why_tests_cant": "relational property over all inputs", "anchors": ["app/src/parser_special.c", "app/src/parser_impl_transactionV1.c"]}
{"id": "C32", "title": "No signature without approval", "statement": "A signature is produced only by the user's approval of a review that was opened by the last chunk of a signing command, after which the data was accepted by the parser; each review yields at most one signature.", "quantifier": "every history of APDUs and button presses", "why_tests_cant": "histories are unbounded", "anchors": ["app/src/apdu_handler.c", "app/src/common/actions.h:app_sign"]}
{"id": "C33", "title": "The reviewed bytes are the bytes sent", "statement": "The data reviewed by a signing command is the concatenation, in order, of the payloads sent since the last initial chunk; data that does not fit is refused, never truncated or mixed with older data.", "quantifier": "every history of APDUs", "why_tests_cant": "histories and chunkings are unbounded", "anchors": ["app/src/apdu_handler.c:process_chunk", "app/src/common/tx.c"]}
{"id": "C34", "title": "Signing uses the requested Casper key", "statement": "In every history the signature is made with the derivation path given in the initial chunk of that signing session, and that path starts with 44'/506'.", "quantifier": "every history of APDUs", "why_tests_cant": "needs interleavings of failing and succeeding commands", "anchors": ["app/src/apdu_handler.c:extractHDPath,process_chunk"]}
{"id": "C35", "title": "What is signed is what is shown (deploy / TransactionV1)", "statement": "In every history, when the user approves a transaction review, the signed digest is SHA-256 of exactly the 32 bytes displayed as 'Txn hash'.", "quantifier": "every history of APDUs and button presses", "why_tests_cant": "history-dependent", "anchors": ["app/src/crypto.c:crypto_sign", "app/src/common/actions.h:app_sign"]}
{"id": "C36", "title": "A finished signing session must be restarted", "statement": "After the last chunk of a signing session has been processed, further data chunks are refused until a new initial chunk arrives.", "quantifier": "every history of APDUs", "why_tests_cant": "histories are unbounded", "anchors": ["app/src/apdu_handler.c:handleSign,handleSignMessage,handleSignWasm"]}
{"id": "C37", "title": "Every APDU gets a well-formed status", "statement": "Every received command is answered with exactly one two-byte status word, or is left pending on the user; commands of another class, too short, or with an unknown instruction are refused without changing the signing session.", "quantifier": "every APDU and state", "why_tests_cant": "all inputs and states", "anchors": ["app/src/apdu_handler.c:handleApdu"]}
{"id": "C38", "title": "Address response matches the shown address", "statement": "The address returned and shown for a path is the 33-byte compressed public key followed by '02' and its 66-character checksummed hex; what is shown is what is returned.", "quantifier": "every public key", "why_tests_cant": "all keys", "anchors": ["app/src/crypto.c:crypto_fillAddress,encode_addr", "app/src/addr.c"]}
{"id": "C39", "title": "Item indices outside the review are refused", "statement": "Asking for an item at or beyond the number of items is refused, and the number of items of an accepted deploy is at most 127 so every item is reachable.", "quantifier": "every accepted transaction and index", "why_tests_cant": "all inputs", "anchors": ["app/src/parser.c:parser_getItem", "app/src/common/tx.c:tx_getItem"]}
{"id": "C40", "title": "Data after the session does not change the signature", "statement": "Appending bytes to an accepted TransactionV1 or non-module-bytes deploy does not change what was parsed nor the digest that is signed.", "quantifier": "every accepted input and every suffix", "why_tests_cant": "relational over all inputs", "anchors": ["app/src/parser_impl_deploy.c:parser_read_deploy", "app/src/parser_impl_transactionV1.c:parser_read_transactionV1"]}
{"id": "C41", "title": "Parsing only moves forward", "statement": "While parsing, the cursor never moves backwards, so no byte of the input is interpreted twice.", "quantifier": "every byte string", "why_tests_cant": "only length fields near 2^32 reveal the wrap-around", "anchors": ["app/src/parser_utils.c:parse_item", "app/src/parser_primitives.c:read_string,read_bytes"]}
{"id": "C42", "title": "Accepted reviews can be shown completely", "statement": "After a transaction was accepted for review, every item from first to last can be displayed without an error.", "quantifier": "every accepted transaction, every index", "why_tests_cant": "all inputs", "anchors": ["app/src/parser.c:parser_validate,parser_getItem"]}
{"id": "C43", "title": "Different transfer targets look different", "statement": "Two native transfers whose targets differ (in kind or in bytes) show different target texts; values of the same kind with the same text are equal.", "quantifier": "every pair of well-formed native transfers", "why_tests_cant": "injectivity over all targets", "anchors": ["app/src/parser.c:parser_display_runtimeArg"]}
{"id": "C44", "title": "Custom payment code is not presented as a plain fee", "statement": "A deploy whose payment runs code other than the standard payment is refused or shown differently from the standard payment.", "quantifier": "every accepted deploy", "why_tests_cant": "only a payment section with non-empty module bytes and a single amount argument reveals it", "anchors": ["app/src/parser_impl_deploy.c:parseModuleBytes"]}
{"id": "C45", "title": "The contract version shown is the one requested", "statement": "Deploys calling a contract in different versions (or without fixing a version) show different reviews in expert mode.", "quantifier": "every versioned contract call", "why_tests_cant": "relational over all versions, including 'no version'", "anchors": ["app/src/parser_impl_deploy.c:parse_version"]}
{"id": "C46", "title": "Deploys that look alike do the same", "statement": "Two native-transfer or delegation deploys with the standard arguments whose reviews agree in every item except the transaction hash have the same chain, account, fee, operation, parties and amount (targets given by values of the same kind); in expert mode also the same time to live, gas price, transfer id and numbers of dependencies and approvals.", "quantifier": "every pair of well-formed deploys, both modes", "why_tests_cant": "relational over all pairs of transactions", "anchors": ["app/src/parser_impl_deploy.c:parser_getItem", "app/src/parser_special.c"]}
{"id": "C47", "title": "TransactionV1s that look alike do the same", "statement": "Two TransactionV1s with a specified review whose items agree in every item except the transaction hash have the same chain, initiator and operation, and pairwise equal argument values (values of the same kind); in expert mode also the same time to live, payment amount, gas price and number of approvals.", "quantifier": "every pair of well-formed TransactionV1s, both modes", "why_tests_cant": "relational over all pairs of transactions", "anchors": ["app/src/parser_impl_transactionV1.c:parser_getItemTxV1"]}
{"id": "C48", "title": "The pricing of a TransactionV1 is visible", "statement": "Two TransactionV1s that differ in their pricing (payment amount, gas price tolerance, standard-payment flag, computation factor) show different reviews.", "quantifier": "every pair of TransactionV1s, both modes", "why_tests_cant": "relational over all pairs of transactions", "anchors": ["app/src/parser_impl_transactionV1.c:parser_getItem_pricing_mode"]}
{"id": "C49", "title": "Only native operations are shown as native operations", "statement": "A TransactionV1 whose review says Transfer, Delegate, Add Bid, ... has the native target; code carried by the transaction is never presented as a native operation.", "quantifier": "every accepted TransactionV1", "why_tests_cant": "quantifies over all targets and entry points", "anchors": ["app/src/parser_impl_transactionV1.c:check_sanity_native_transfer", "app/src/parser_impl_transactionV1.c:read_target"]}
{"id": "C50", "title": "The code and arguments a TransactionV1 runs are visible", "statement": "Two TransactionV1s that carry different module code, or call it with different entry points or arguments, show reviews that differ in more than the transaction hash.", "quantifier": "every pair of session TransactionV1s, both modes", "why_tests_cant": "relational over all module codes and arguments", "anchors": ["app/src/parser_impl_transactionV1.c:parser_getItemTxV1"]}
{"id": "C51", "title": "Chain name and pricing are shown exactly whatever the length of the chain name", "statement": "For every accepted TransactionV1 the Chain ID item shows its chain name and the Payment and gas-price items show its pricing.", "quantifier": "every accepted TransactionV1, chain names of any length", "why_tests_cant": "lengths above 255 truncate to 8 bits", "anchors": ["app/src/parser_impl_transactionV1.c:index_headerpart_txnV1"]}
{"id": "C52", "title": "Contract names and entry points are shown completely", "statement": "Two contract calls that differ only in the name of the contract or of the entry point show different reviews in expert mode.", "quantifier": "every pair of contract calls", "why_tests_cant": "relational over all byte strings used as names", "anchors": ["app/src/parser_impl_transactionV1.c:parser_getItem_txV1_Custom", "app/src/parser_impl_deploy.c"]}
{"id": "C53", "title": "The value shown for an argument comes from that argument", "statement": "The text shown for an argument is determined by the value bytes of that argument; bytes of neighbouring arguments never appear in it.", "quantifier": "every accepted transaction and every argument shown", "why_tests_cant": "relational over all surrounding bytes", "anchors": ["app/src/parser.c:parser_display_runtimeArg"]}
{"id": "C54", "title": "Every item of an accepted transaction can be asked for", "statement": "For every accepted transaction and every index below its number of items, the function the review screens call (tx_getItem) delivers that item.", "quantifier": "every accepted transaction, every index", "why_tests_cant": "only reviews of more than 128 items reveal that the index is a signed 8-bit number", "anchors": ["app/src/common/tx.c:tx_getItem"]}
{"id": "C55", "title": "Handling raw WASM never leaves the buffer", "statement": "Parsing, checking and displaying any byte string as a raw-WASM deploy performs no access outside the received bytes and the local buffers.", "quantifier": "every byte string", "why_tests_cant": "memory safety for all inputs", "anchors": ["app/src/parser_wasm.c:readHeader,parser_validate_wasm,parser_getWasmItem"]}
{"id": "C56", "title": "A correctly sent transaction is reviewed and can be signed", "statement": "In every idle state, sending a Casper path and then the bytes of an acceptable transaction, split in any way, is answered with success for every chunk but the last, opens the review of exactly these bytes, and approval signs the hash of this transaction with the key of this path.", "quantifier": "every reachable state without review, every path, every acceptable transaction that fits, every splitting into chunks", "why_tests_cant": "all previous histories and all splittings", "anchors": ["app/src/apdu_handler.c:process_chunk,handleSign", "app/src/common/actions.h:app_sign"]}
{"id": "C57", "title": "What a complete session signs does not depend on what happened before", "statement": "After any two histories that end without a review on screen, the same complete session (path, all chunks, approval) for a transaction, a message or a raw-WASM deploy signs the same bytes with the same key.", "quantifier": "every pair of histories, every complete session", "why_tests_cant": "relational over all histories", "anchors": ["app/src/crypto.c:crypto_sign", "app/src/common/actions.h:app_sign", "app/src/parser_wasm.c", "app/src/parser_message.c"]}
{"id": "C58", "title": "Every answer fits the APDU buffer", "statement": "In every history every answer with data, status word included, is at most 260 bytes long.", "quantifier": "every history", "why_tests_cant": "all histories", "anchors": ["app/src/apdu_handler.c", "app/src/common/actions.h:app_reply_address", "app/src/parser_utils.c:parser_getErrorDescription"]}
{"id": "C59", "title": "A raw-WASM deploy too large for the device is reviewed by its hashes and can be signed", "statement": "For every well-formed deploy of module code that does not fit the device, sending its bytes in any chunks opens a review that shows its deploy hash and its body hash, and approval signs the deploy hash with the requested key.", "quantifier": "every well-formed module deploy larger than the buffer, every splitting, every history", "why_tests_cant": "unbounded data and all splittings", "anchors": ["app/src/apdu_handler.c:process_wasm_chunk,handleSignWasm", "app/src/parser_wasm.c"]}
{"id": "C60", "title": "Expert mode shows at least what normal mode shows", "statement": "If a transaction is accepted in expert mode it is accepted in normal mode too, and every item of its normal review also appears, in the same order and with the same text, in its expert review.", "quantifier": "every byte string", "why_tests_cant": "relates two runs of parser and display in different modes over all inputs", "anchors": ["app/src/parser_impl_deploy.c:parser_getItemDeploy", "app/src/parser_special.c", "app/src/parser_impl_transactionV1.c:parser_getItem_Custom"]}
{"id": "C61", "title": "A correctly sent message is reviewed and can be signed", "statement": "In every idle state, sending a Casper path and then any byte string that starts with the message prefix, split in any way, is answered with success for every chunk but the last, opens the review of the hash of exactly these bytes, and approval signs exactly these bytes with the key of that path.", "quantifier": "every idle state, every prefixed byte string that fits, every way of splitting it", "why_tests_cant": "all earlier histories and all splittings", "anchors": ["app/src/apdu_handler.c:handleSignMessage", "app/src/parser_message.c"]}
{"id": "C62", "title": "An address request gives the address of the requested path", "statement": "In every idle state a request for the address of a Casper path is answered with the key and address of this path, at once or, if confirmation was asked for, after a review that shows this address and exactly when the user approves it; it leaves the data collected for a signing session as it is.", "quantifier": "every idle state, every path", "why_tests_cant": "all earlier histories", "anchors": ["app/src/apdu_handler.c:handleGetAddr", "app/src/addr.c", "app/src/common/actions.h"]}
{"id": "C63", "title": "The device never gets stuck", "statement": "From every reachable state, after at most one rejection, a complete session for a well-formed transaction that fits ends with its review and, on approval, its signature.", "quantifier": "every history, every well-formed transaction, every splitting", "why_tests_cant": "liveness from all reachable states", "anchors": ["app/src/apdu_handler.c"]}
{"id": "C64", "title": "The sizes of the buffers do not matter", "statement": "Two devices that differ only in the sizes of their RAM and flash buffers answer every history of commands and user actions alike, as long as the data of every session fits both.", "quantifier": "every history whose sessions fit both devices", "why_tests_cant": "relates two devices over all histories", "anchors": ["app/src/common/tx.c", "app/src/apdu_handler.c"]}
{"id": "C65", "title": "A locked device gives out no address and no signature", "statement": "While the PIN is not validated every command is answered with the version or an error without data and changes nothing: no address, no review, no change of a session.", "quantifier": "every reachable state, every command", "why_tests_cant": "all states and commands", "anchors": ["app/src/apdu_handler.c:handleApdu"]}
{"id": "C66", "title": "Only documented status words are returned", "statement": "Every answer in every history ends with one of the status words listed in docs/APDUSPEC.md.", "quantifier": "every history", "why_tests_cant": "all histories; the list of possible answers must be closed", "anchors": ["app/src/apdu_handler.c", "app/src/common/actions.h", "docs/APDUSPEC.md"]}
{"id": "C67", "title": "The number of approvals shown is the number of approvals", "statement": "In expert mode the item 'Approvals #' shows the number of approvals the transaction carries.", "quantifier": "every accepted transaction", "why_tests_cant": "only a count that does not match the approvals reveals it; it must hold for all accepted bytes", "anchors": ["app/src/parser_impl_transactionV1.c:read_txV1_approvals", "app/src/parser_impl_deploy.c:parser_getItemDeploy"]}
{"id": "C68", "title": "The body of an accepted deploy is a payment and a session", "statement": "The bytes covered by the body hash of an accepted deploy are the encoding of a payment followed by the encoding of a session, and each has exactly the arguments it announces.", "quantifier": "every input accepted as a deploy", "why_tests_cant": "needs every accepted input, not only those made by an encoder; the failing inputs confuse two passes over the same bytes", "anchors": ["app/src/parser_special.c:COUNT_RUNTIME_ARGTYPE", "app/src/runtime_arg.c:searchRuntimeArgs", "app/src/parser_impl_deploy.c:parseTransfer", "app/src/parser_utils.c:parse_additional_typebytes"]}
{"id": "C69", "title": "What is accepted as a deploy is the encoding of a deploy", "statement": "Every input accepted as a deploy is the encoding of a header, the hash of that header, the encoding of a payment called amount, and the encoding of a session, where the body hash in the header is the hash of payment and session.", "quantifier": "every input accepted as a deploy", "why_tests_cant": "a converse of every encoder test: it speaks about all accepted inputs, whatever produced them", "anchors": ["app/src/parser_impl_deploy.c:parser_read_deploy", "app/src/parser_impl_deploy.c:_validateTxDeploy", "app/src/parser_utils.c:get_type"]}
{"id": "C70", "title": "An accepted deploy is shown for what it is, whatever follows it", "statement": "Whatever bytes are accepted as a deploy, the review shows the deploy these bytes encode: hash, type, chain, account, fee and the session's lines; bytes behind the session change nothing except the number shown as approvals.", "quantifier": "every input accepted as a deploy, every mode, every trailing bytes", "why_tests_cant": "tests feed well-formed encodings only; this is about every accepted byte string and every possible tail", "anchors": ["app/src/parser_impl_deploy.c:parser_read_deploy", "app/src/parser_impl_deploy.c:_getItemDeploy", "app/src/parser.c:parser_parse"]}
{"id": "C71", "title": "An accepted TransactionV1 is a transaction, byte for byte, and is shown for what it is", "statement": "Whatever bytes are accepted as a TransactionV1 are the binary encoding of a transaction, possibly followed by other bytes: hash, initiator, times, chain, pricing, arguments, target, entry point, scheduling and approvals one behind the other with right tables and section lengths, the hash being that of exactly the payload; and the review shown is that of this transaction.", "quantifier": "every input accepted as a TransactionV1, every mode, every trailing bytes", "why_tests_cant": "tests feed well-formed encodings and a few corrupted ones; which of the redundant numbers are actually checked, and what is shown when they are not, can only be settled for all inputs", "anchors": ["app/src/parser_impl_transactionV1.c:parser_read_transactionV1", "app/src/parser_impl_transactionV1.c:read_args", "app/src/parser_impl_transactionV1.c:read_target", "app/src/parser_impl_transactionV1.c:_getItemTxV1", "app/src/parser_primitives.c:read_metadata"]}
{"id": "C72", "title": "What is reviewed of a TransactionV1 in arbitrary bytes is what is in it", "statement": "Whatever bytes are accepted as a TransactionV1, they contain exactly one transaction form (parts and redundant numbers), and the review is that of the parts of this form: wrong redundant numbers, argument types the device does not know, algorithm bytes, cut-off signatures and trailing bytes do not change a line; a native operation has each of its mandatory arguments; every line is determined by the signed payload.", "quantifier": "every input accepted as a TransactionV1, every mode, every trailing bytes", "why_tests_cant": "tests compare reviews of well-formed encodings; that no malformed number or trailing byte of any accepted input influences the review is a statement about all inputs (and fails for the hash of the arguments)", "anchors": ["app/src/parser_impl_transactionV1.c:parser_read_transactionV1", "app/src/parser_impl_transactionV1.c:_getItemTxV1", "app/src/parser_impl_transactionV1.c:check_sanity_native_transfer", "app/src/parser_primitives.c:read_metadata", "app/src/parser_impl_transactionV1.c:read_args"]}
{"id": "C73", "title": "Which bytes are accepted as a TransactionV1", "statement": "Bytes that begin with a transaction form are accepted, and reviewed as the parts of the form, if the hash in them is that of the payload and a native operation has its mandatory arguments; otherwise they are rejected with an error. The verdict depends on the hash and the payload only: neither the outermost table nor approvals nor trailing bytes matter, and the review changes at most in the number of approvals.", "quantifier": "every form, every value of the redundant numbers that are not checked, every byte string that begins with it, every mode", "why_tests_cant": "tests reject a few corrupted vectors; an exact criterion for acceptance, and that nothing outside the signed bytes enters it, is about all byte strings", "anchors": ["app/src/parser_impl_transactionV1.c:parser_read_transactionV1", "app/src/parser_impl_transactionV1.c:_validateTxV1", "app/src/parser.c:parser_parse", "app/src/parser.c:parser_validate", "app/src/parser_impl_transactionV1.c:read_txV1_approvals"]}
{"id": "C74", "title": "A signature stands for one payload and one review", "statement": "In every history, when the approval of a transaction signs 32 bytes, these are the hash of the payload (header) received and the screens showed the review of that payload; whenever, on any device, the same 32 bytes are signed again as a transaction, the payload was the same and the screens in the same mode were the same except for the number of approvals - or two different payloads with the same hash are exhibited.", "quantifier": "every two histories of commands and user actions on any two devices with the same cryptography, every transaction format, every splitting into chunks, every trailing bytes", "why_tests_cant": "it relates two arbitrary histories; a test can only compare reviews of transactions somebody thought of", "anchors": ["app/src/crypto.c:crypto_sign", "app/src/common/actions.h:app_sign", "app/src/parser.c:parser_parse", "app/src/parser.c:parser_getItem", "app/src/parser_impl_transactionV1.c:_validateTxV1", "app/src/parser_impl_deploy.c:_validateTxDeploy", "app/src/apdu_handler.c:handleSign"]}
{"id": "C75", "title": "Accepted bytes that look alike do the same", "statement": "For any two byte strings the device accepts (not only correctly encoded transactions): if all screens except the transaction hash are the same, then chain, initiator and operation, every shown argument of a native operation, the contract, entry point and hash of the arguments of a call are the same, and in expert mode also time, lifetime in seconds, pricing and number of approvals; likewise transfers, delegations and calls in deploys. In every two histories on any two devices, equal screens come from such byte strings.", "quantifier": "every pair of accepted byte strings below 65472 bytes, with any redundant numbers, any bytes behind, in both modes; every two histories", "why_tests_cant": "it quantifies over pairs of inputs; a test that compares some pairs cannot exclude that two others look alike", "anchors": ["app/src/parser.c:parser_getItem", "app/src/parser_impl_transactionV1.c:_getItemTransactionV1", "app/src/parser_impl_deploy.c:_getItemDeploy", "app/src/runtime_arg.c", "app/src/parser_primitives.c"]}
{"id": "C76", "title": "The heading of every accepted transaction is shown as it is", "statement": "Whatever follows in the body - arguments of any types, contracts and versions, code, trailing bytes, wrong redundant numbers -: the screens for transaction hash, operation, chain, account, and in expert mode time, lifetime, pricing (gas price, number of dependencies), and for a deploy the fee, show the values at these places of the accepted bytes, and the transaction hash shown is the hash of the signed payload (header) and what a signature signs. All these screens are part of the review, except when so many arguments are given that the counter overflows (C18).", "quantifier": "every accepted byte string below 65472 bytes, in both formats and modes; every history in which it is signed", "why_tests_cant": "a test fixes a body; the claim is that no body whatsoever changes the screens of the heading", "anchors": ["app/src/parser_impl_transactionV1.c:_getItemTransactionV1", "app/src/parser_impl_transactionV1.c:index_headerpart_txnV1", "app/src/parser_impl_deploy.c:_getItemDeploy", "app/src/parser_impl_deploy.c:index_headerpart_deploy", "app/src/parser_impl_deploy.c:_validateTxDeploy"]}
{"id": "C77", "title": "No deploy is signed blind", "statement": "The review of every accepted deploy that runs code or calls a contract tells which (the hash of the code, the address or the name) and with which arguments (each of them, or the hash of all of them), whatever names and types the arguments have.", "quantifier": "all headers, payments, contracts, entry points, code of any length, argument lists and bytes behind the deploy, in both modes", "why_tests_cant": "tests use argument lists of the expected types; the claim is about every list of arguments, and what is not on a screen is noticed only by comparing all transactions with the same screens", "anchors": ["app/src/parser_special.c:COUNT_RUNTIME_ARGTYPE", "app/src/parser_special.c:checkForDelegationItems", "app/src/parser_special.c:parseDelegation", "app/src/parser_special.c:checkNativeTransferArgs", "app/src/parser_special.c:parser_getItem_Delegation", "app/src/parser_impl_deploy.c:_getItemDeploy"]}
{"id": "C78", "title": "Deploys are refused for stated reasons only", "statement": "A deploy with a well-formed header is refused with a definite error if its payment is not code with one argument, amount, of type U512; if its session is of no known kind; if it is a redelegation whose new_validator is missing or no public key; if it is a native transfer whose amount is missing or not of type U512, or with fewer than three arguments all of which are expected; if it is code whose argument auction is not a string of at most 96 characters, names no operation or one without its arguments, or whose new_validator is no public key; if it is a delegation of which an argument stands behind the first three (four for redelegations); or if a hash is wrong. Every other deploy whose shown values are values of their types is accepted with a review, if its code has at most 32 bytes or the hash of its code is not shown.", "quantifier": "all headers, hashes, payments, contracts, entry points, code, argument lists and trailing bytes, in both modes", "why_tests_cant": "tests check a few accepted and a few refused deploys; that the reasons are complete is a statement about all deploys", "anchors": ["app/src/parser_impl_deploy.c:parser_read_deploy", "app/src/parser_impl_deploy.c:parseDeployType", "app/src/parser_special.c:parseSystemPayment", "app/src/parser_special.c:parseNativeTransfer", "app/src/parser_special.c:parseDelegation", "app/src/parser_impl_deploy.c:_validateTxDeploy"]}
{"id": "C79", "title": "The arguments of a TransactionV1 that are reviewed are those that are signed, wherever they stand", "statement": "Whatever the number of bytes before the arguments of a TransactionV1 and whatever the lengths of its texts, the arguments on the screen, the hash of arguments on the screen and the check of mandatory arguments are those of the arguments in the signed payload.", "quantifier": "every TransactionV1 in arbitrary accepted or rejected bytes, every length of the header, every mode", "why_tests_cant": "the position of the arguments is kept in a byte, so the behaviour changes with the total length of all preceding fields; what is read instead has to be said for every length and content", "anchors": ["app/src/parser_txdef.h:runtime_args_offset", "app/src/parser_impl_transactionV1.c:read_args", "app/src/parser_impl_transactionV1.c:check_sanity_native_transfer", "app/src/parser_impl_transactionV1.c:_getItemTxV1"]}
