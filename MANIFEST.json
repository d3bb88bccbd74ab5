{
 "claims": [
  {
   "property": "C01",
   "status": "proved",
   "theorems": [
    "C01_integers_decode_exactly"
   ],
   "note": "All widths, all buffers, all cursors."
  },
  {
   "property": "C02",
   "status": "partial",
   "theorems": [
    "C02_descriptor_consumed_partial",
    "C02_nested_containers_refused",
    "C02_descriptors_read",
    "C02_descriptors_known",
    "C02_descriptor_refuted"
   ],
   "note": "False for types with an inline byte array before the last component (C02_descriptor_refuted). C02_descriptor_consumed_partial: every other supported type is consumed exactly. C02_descriptors_read: on arbitrary bytes, exactly which descriptors are read and how far; C02_descriptors_known: these are the supported types and the ones named odd."
  },
  {
   "property": "C03",
   "status": "proved",
   "theorems": [
    "C03_lookup_first_match",
    "C03_long_name_refused"
   ],
   "note": "Lists of supported types, NUL-free names up to 300 bytes (longer names are refused)."
  },
  {
   "property": "C04",
   "status": "partial",
   "theorems": [
    "C04_exact_names_partial",
    "C04_exact_names_refuted"
   ],
   "note": "Refuted: names are compared as C strings, so a name with an embedded NUL matches; a delegation can show a validator that is not the one of its \"validator\" argument. Proved for NUL-free names."
  },
  {
   "property": "C05",
   "status": "proved",
   "theorems": [
    "C05_header_located"
   ],
   "note": "Every well-formed header, both key types, any number of dependencies that fits the buffer."
  },
  {
   "property": "C06",
   "status": "partial",
   "theorems": [
    "C06_hashes_checked",
    "C06_bound_partial",
    "C06_same_hash_partial",
    "C06_bound_refuted"
   ],
   "note": "Both hash checks proved for every accepted input. Refuted: dependency counts are used modulo 2048, so bytes announcing 2048 dependencies and containing none are accepted. Binding of header, hash and body proved for counts below 2042 modulo 2048."
  },
  {
   "property": "C07",
   "status": "partial",
   "theorems": [
    "C07_standard_payment_partial",
    "C07_payment_name_refuted"
   ],
   "note": "Proved up to the name: an argument called \"amount\" NUL \"x\" is taken for \"amount\"."
  },
  {
   "property": "C08",
   "status": "proved",
   "theorems": [
    "C08_transfer_review",
    "C08_transfer_from_source_review",
    "C08_deploy_review"
   ],
   "note": "Full review, every item, both modes, any argument order. In expert mode the TTL must be below 29 days and the date must be formattable."
  },
  {
   "property": "C09",
   "status": "proved",
   "theorems": [
    "C09_stored_delegation_review",
    "C09_module_delegation_review"
   ],
   "note": "All four stored-contract addressing forms; module bytes up to 32 bytes (longer ones overflow a stack buffer, see C30)."
  },
  {
   "property": "C10",
   "status": "partial",
   "theorems": [
    "C10_args_hash_partial",
    "C10_args_hash_refuted",
    "C10_module_hash_refuted"
   ],
   "note": "Proved for contract calls. Refuted for native transfers with unknown arguments (the hash covers the count and the first argument only) and for module code whose first argument has no name (the hash of four zero bytes is shown)."
  },
  {
   "property": "C11",
   "status": "partial",
   "theorems": [
    "C11_all_arguments_shown_partial",
    "C11_all_arguments_shown_refuted"
   ],
   "note": "Refuted: extra arguments of a delegation are dropped. Proved for the standard argument sets."
  },
  {
   "property": "C12",
   "status": "partial",
   "theorems": [
    "C12_layout_partial",
    "C12_field_count_refuted",
    "C12_section_size_refuted",
    "C12_target_size_refuted"
   ],
   "note": "For arbitrary bytes: every table and field is where the layout says, up to entry counts modulo 256, sizes modulo 65536 and 32-bit sums. Refuted in full: 259 announced fields, a section 65536 bytes too long, and wrong offset and size in the target of a stored contract are all accepted."
  },
  {
   "property": "C13",
   "status": "proved",
   "theorems": [
    "C13_payload_hash",
    "C13_signed_hash",
    "C13_same_hash"
   ],
   "note": "Arbitrary bytes; the signed 32 bytes, in any history, are the hash of the payload that follows them."
  },
  {
   "property": "C14",
   "status": "partial",
   "theorems": [
    "C14_mandatory_arguments_partial",
    "C14_accepted_exactly_partial",
    "C14_mandatory_arguments_refuted"
   ],
   "note": "Proved for every well-formed transaction whose arguments start before byte 256 (the parser accepts exactly the acceptable ones); false beyond: the 8-bit argument position makes the check look elsewhere (witness: fake arguments inside a chain name)."
  },
  {
   "property": "C15",
   "status": "proved",
   "theorems": [
    "C15_stored_contract_custom",
    "C15_any_bytes"
   ],
   "note": "For well-formed transactions and for arbitrary bytes."
  },
  {
   "property": "C16",
   "status": "partial",
   "theorems": [
    "C16_native_review_partial",
    "C16_native_review_refuted"
   ],
   "note": "All eleven native operations, both modes, any argument order; false when the arguments start at byte 256 or later (witness: secp256k1 account, prepaid, casper-test: refused)."
  },
  {
   "property": "C17",
   "status": "partial",
   "theorems": [
    "C17_arguments_position",
    "C17_position_kept_partial",
    "C17_args_hash_refuted",
    "C17_target_refuted",
    "C71_args_hash_refuted"
   ],
   "note": "The kept position is the true one modulo 256; refuted by a well-formed call (wrong args hash shown) and by a transfer with a long chain name (wrong target shown); with a wrong section length the Args hash covers no argument at all (C71_args_hash_refuted)."
  },
  {
   "property": "C18",
   "status": "partial",
   "theorems": [
    "C18_item_count_partial",
    "C18_item_count_modulo",
    "C18_item_count_refuted"
   ],
   "note": "The count is exact modulo 256; refuted: 250 further arguments leave no item to review."
  },
  {
   "property": "C19",
   "status": "partial",
   "theorems": [
    "C19_custom_call_shown_partial",
    "C19_custom_call_shown_refuted"
   ],
   "note": "Proved when arguments start before byte 256 and expert mode has a version to show; refuted: versioned contract without version, expert mode, no argument hash."
  },
  {
   "property": "C20",
   "status": "partial",
   "theorems": [
    "C20_hex_addresses_differ_partial",
    "C20_addresses_refuted"
   ],
   "note": "Refuted for TransactionV1 by-hash targets (decimal rendering without separators); proved for the hexadecimal rendering."
  },
  {
   "property": "C21",
   "status": "proved",
   "theorems": [
    "C21_amount_exact",
    "C21_amounts_differ"
   ],
   "note": ""
  },
  {
   "property": "C22",
   "status": "proved",
   "theorems": [
    "C22_ttl_exact",
    "C22_ttls_differ"
   ],
   "note": ""
  },
  {
   "property": "C23",
   "status": "proved",
   "theorems": [
    "C23_hex_exact",
    "C23_hex_decodes",
    "C23_hex_differ"
   ],
   "note": ""
  },
  {
   "property": "C24",
   "status": "partial",
   "theorems": [
    "C24_paging_partial",
    "C24_paging_refuted"
   ],
   "note": "Proved up to 255 pages; refuted beyond (8-bit page count of the zxlib contract)."
  },
  {
   "property": "C25",
   "status": "partial",
   "theorems": [
    "C25_message_partial",
    "C25_message_refuted"
   ],
   "note": "Proved when no TransactionV1 was submitted before. Refuted: tx_content is not reset by message signing, so after any TransactionV1 (even a refused one) a message review signs 32 bytes of the message instead of the message."
  },
  {
   "property": "C26",
   "status": "partial",
   "theorems": [
    "C26_review_prefix_partial",
    "C26_signature_refuted"
   ],
   "note": "The prefix is proved for every message review. Refuted for the signature: for every 32-byte h there is a history whose only review is a message and whose approval signs h, e.g. the hash of a transaction never shown."
  },
  {
   "property": "C27",
   "status": "partial",
   "theorems": [
    "C27_wasm_partial",
    "C27_wasm_refuted",
    "C27_shown_hash_refuted"
   ],
   "note": "Proved for histories whose signing commands are all raw-WASM with accepted initial chunks. Refuted: a stale tx_bufferFull lets the review show the old deploy while any 32 bytes of new data are signed."
  },
  {
   "property": "C28",
   "status": "proved",
   "theorems": [
    "C28_parse_defined"
   ],
   "note": "For any bytes the device can hold (fewer than 65535)."
  },
  {
   "property": "C29",
   "status": "partial",
   "theorems": [
    "C29_only_modules_partial",
    "C29_approvals_refuted",
    "C29_auction_refuted"
   ],
   "note": "False in general: two witnesses. Proved: undefined behaviour while parsing a deploy needs a module-bytes session and a word above 100 (or above the rest of the data) that is the length of the value of an argument \"auction\" or stands where the arguments end."
  },
  {
   "property": "C30",
   "status": "partial",
   "theorems": [
    "C30_accepted_deploy",
    "C30_accepted_v1",
    "C30_v1_cause_partial",
    "C30_deploy_cause_partial",
    "C30_v1_refuted",
    "C30_key_refuted",
    "C30_code_refuted",
    "C30_header_refuted"
   ],
   "note": "Proved for accepted transactions; refuted for parsed ones, whose items are displayed once to decide acceptance."
  },
  {
   "property": "C31",
   "status": "proved",
   "theorems": [
    "C31_same_fields",
    "C31_validation_refuted"
   ],
   "note": "Parsing (parser_parse) is the same in both modes, whatever the bytes. The display check that follows it is not: C31_validation_refuted."
  },
  {
   "property": "C32",
   "status": "proved",
   "theorems": [
    "C32_signed_after_review",
    "C32_one_signature"
   ],
   "note": ""
  },
  {
   "property": "C33",
   "status": "partial",
   "theorems": [
    "C33_reviewed_partial",
    "C33_fits_partial",
    "C33_reviewed_refuted"
   ],
   "note": "Proved for histories without raw-WASM chunks. Refuted: raw-WASM chunks sent within another session are dropped with status 9000."
  },
  {
   "property": "C34",
   "status": "partial",
   "theorems": [
    "C34_last_path_partial",
    "C34_session_path_partial",
    "C34_casper_path_refuted",
    "C34_session_path_refuted"
   ],
   "note": "Refuted: an initial chunk refused for its path, or an address request between chunks, replaces the path of the open session. Proved without address requests and with accepted initial chunks."
  },
  {
   "property": "C35",
   "status": "partial",
   "theorems": [
    "C35_deploy_hash",
    "C35_signed_hash_partial",
    "C35_v1_hash_partial"
   ],
   "note": "Unconditional for deploys. For TransactionV1 proved whenever the review has an item (a wrapped item count can leave none, C18)."
  },
  {
   "property": "C36",
   "status": "partial",
   "theorems": [
    "C36_restart_partial",
    "C36_restart_refuted"
   ],
   "note": "Refuted for messages (tx_initialized stays set after INS_SIGN_MSG). Proved for transactions and raw-WASM deploys."
  },
  {
   "property": "C37",
   "status": "partial",
   "theorems": [
    "C37_answered_partial",
    "C37_unknown_refused"
   ],
   "note": "Undefined behaviour of the parsers (C28-C30) is excluded, everything else is answered."
  },
  {
   "property": "C38",
   "status": "proved",
   "theorems": [
    "C38_address_answer",
    "C38_address_shown"
   ],
   "note": "For platforms that derive 33-byte public keys."
  },
  {
   "property": "C39",
   "status": "proved",
   "theorems": [
    "C39_deploy_items",
    "C39_v1_items"
   ],
   "note": ""
  },
  {
   "property": "C40",
   "status": "proved",
   "theorems": [
    "C40_v1_parsed",
    "C40_v1_review",
    "C40_deploy",
    "C40_digest"
   ],
   "note": "C40_v1_review asks that the fee screens do not show the placeholder \"?\"."
  },
  {
   "property": "C41",
   "status": "partial",
   "theorems": [
    "C41_backwards_refuted",
    "C41_forward_partial",
    "C68_session_partial"
   ],
   "note": "False in general: length fields near 2^32 lead the cursor back (accepted with more arguments than bytes). Without such numbers in the data: C41_forward_partial (TransactionV1: every section lies behind the previous one, arguments contiguous) and C68_session_partial (deploys: header, hash, payment, session one after the other, arguments contiguous, or an argument that cannot be read)."
  },
  {
   "property": "C42",
   "status": "proved",
   "theorems": [
    "C42_deploy_shown",
    "C42_v1_shown"
   ],
   "note": ""
  },
  {
   "property": "C43",
   "status": "partial",
   "theorems": [
    "C43_same_kind_partial",
    "C43_targets_refuted"
   ],
   "note": "Refuted: the variant of a Key and the access rights of a URef are not shown. Proved for values of the same kind."
  },
  {
   "property": "C44",
   "status": "partial",
   "theorems": [
    "C44_payment_code_refuted",
    "C44_payment_unseen"
   ],
   "note": "Refuted: payment code is skipped; for every deploy the review is that of the same deploy with the standard payment (C44_payment_unseen)."
  },
  {
   "property": "C45",
   "status": "partial",
   "theorems": [
    "C45_version_refuted",
    "C45_versions_partial"
   ],
   "note": "Two given versions are told apart in expert mode. Refuted for \"no version\", which is displayed as version 0."
  },
  {
   "property": "C46",
   "status": "partial",
   "theorems": [
    "C46_transfers_partial",
    "C46_delegations_partial",
    "C46_ttl_refuted"
   ],
   "note": "Native transfers and delegations (contract or module) with the same items agree in everything claimed, the time to live in seconds. C46_ttl_refuted: differences below a second are not shown."
  },
  {
   "property": "C47",
   "status": "partial",
   "theorems": [
    "C47_look_alike_partial",
    "C47_address_refuted"
   ],
   "note": "The time to live is compared in seconds, contract arguments and reservation vectors by hash, addresses by the digits of their bytes; C47_address_refuted: two contracts with the same digits."
  },
  {
   "property": "C48",
   "status": "partial",
   "theorems": [
    "C48_pricing_partial",
    "C48_pricing_unseen",
    "C48_pricing_refuted"
   ],
   "note": "Expert mode: amount, gas price and receipt are visible. C48_pricing_unseen: everything else of the pricing is invisible, and all of it in normal mode."
  },
  {
   "property": "C49",
   "status": "partial",
   "theorems": [
    "C49_shown_native_partial",
    "C49_any_bytes_partial",
    "C49_code_as_native",
    "C49_only_native_refuted"
   ],
   "note": "What is shown as a native operation is native or carries module code. False for module code: C49_code_as_native says its review is that of the native operation, for all code."
  },
  {
   "property": "C50",
   "status": "partial",
   "theorems": [
    "C50_sessions_partial",
    "C50_call_unseen",
    "C50_custom_unseen",
    "C50_code_refuted"
   ],
   "note": "Visible are the header and (except for Call) the arguments or their hash. C50_call_unseen and C50_custom_unseen: code, entry point names and the arguments of Call leave no trace."
  },
  {
   "property": "C51",
   "status": "partial",
   "theorems": [
    "C51_top_items_partial",
    "C51_chain_refuted"
   ],
   "note": "All chain names up to 99 bytes without NUL, for every accepted transaction. C51_chain_refuted: a chain name of 262 bytes."
  },
  {
   "property": "C52",
   "status": "partial",
   "theorems": [
    "C52_deploy_calls_partial",
    "C52_v1_calls_partial",
    "C52_names_refuted"
   ],
   "note": "Names up to 99 bytes without NUL. C52_names_refuted: names that differ after a NUL, both formats."
  },
  {
   "property": "C53",
   "status": "partial",
   "theorems": [
    "C53_display_partial",
    "C53_v1_items_partial",
    "C53_neighbour_refuted"
   ],
   "note": "Values of the size their type demands. C53_neighbour_refuted: a key of one byte is completed by the next argument."
  },
  {
   "property": "C54",
   "status": "partial",
   "theorems": [
    "C54_deploys",
    "C54_v1_partial",
    "C54_refuted",
    "C54_beyond"
   ],
   "note": "Proved for every deploy and for the first 128 items of a TransactionV1. False beyond: the index is an int8_t; an accepted transaction with 137 items is the witness."
  },
  {
   "property": "C55",
   "status": "partial",
   "theorems": [
    "C55_parse_partial",
    "C55_check_partial",
    "C55_items_partial",
    "C55_parse_refuted",
    "C55_check_refuted"
   ],
   "note": "False in general: an argument \"auction\" whose string claims more bytes than there are, and a header length that wraps around 2^16 (witnesses). Proved: the only causes while parsing are such words, the checks leave the buffer exactly when the header length is at least 65504, and below that displaying never does."
  },
  {
   "property": "C56",
   "status": "proved",
   "theorems": [
    "C56_deploys",
    "C56_v1",
    "C56_accepted"
   ],
   "note": "From every reachable idle state and for every splitting into chunks. The bound before_args < 256 of the TransactionV1 review theorem (C16) is inherited; C56_accepted has no such bound."
  },
  {
   "property": "C57",
   "status": "partial",
   "theorems": [
    "C57_sessions_partial",
    "C57_message_refuted",
    "C57_wasm_refuted"
   ],
   "note": "Proved for transactions after any histories, and for messages and raw WASM after histories in which every submitted transaction was a deploy. False otherwise (witnesses): crypto_sign looks at the content kind left by the last transaction."
  },
  {
   "property": "C58",
   "status": "proved",
   "theorems": [
    "C58_answers"
   ],
   "note": "The version answer is a parameter of the model, assumed to be at most 258 bytes; signature bytes are not modelled, an answer with a signature is outside this statement."
  },
  {
   "property": "C59",
   "status": "partial",
   "theorems": [
    "C59_large_code_partial",
    "C59_refuted"
   ],
   "note": "Proved when the code itself does not fit and what precedes it leaves room for one chunk. False when the code and its arguments fit and only the approvals do not: such a deploy is refused (witness)."
  },
  {
   "property": "C60",
   "status": "partial",
   "theorems": [
    "C60_deploys_partial",
    "C60_v1_any_partial",
    "C60_v1_form_partial",
    "C60_v1_partial",
    "C60_modes_refuted",
    "C60_long_refuted"
   ],
   "note": "Proved for arbitrary bytes accepted as a deploy (items that show \"?\" excepted) and for arbitrary bytes accepted as a TransactionV1 with less than 240 arguments and a stated version. False for a versioned contract call without version (expert mode loses the hash of the arguments) and for a transfer with 246 further arguments (expert mode shows three items only)."
  },
  {
   "property": "C61",
   "status": "partial",
   "theorems": [
    "C61_message_partial",
    "C61_signed_refuted"
   ],
   "note": "Review proved from every reachable idle state; signature proved when every submitted transaction was a deploy. After a TransactionV1 was submitted only the 32 bytes at a fixed position are signed (witness)."
  },
  {
   "property": "C62",
   "status": "proved",
   "theorems": [
    "C62_address"
   ],
   "note": ""
  },
  {
   "property": "C63",
   "status": "proved",
   "theorems": [
    "C63_deploys",
    "C63_v1",
    "C63_accepted"
   ],
   "note": "C63_accepted covers any bytes the parser accepts."
  },
  {
   "property": "C64",
   "status": "proved",
   "theorems": [
    "C64_sizes"
   ],
   "note": "Sizes within the assumptions device_ok."
  },
  {
   "property": "C65",
   "status": "proved",
   "theorems": [
    "C65_locked"
   ],
   "note": ""
  },
  {
   "property": "C66",
   "status": "partial",
   "theorems": [
    "C66_words_partial",
    "C66_documented_refuted"
   ],
   "note": "The words of all histories are listed; five of them are not in docs/APDUSPEC.md."
  },
  {
   "property": "C67",
   "status": "partial",
   "theorems": [
    "C67_v1_partial",
    "C67_deploys_partial",
    "C67_deploy_refuted",
    "C67_cut_refuted"
   ],
   "note": "TransactionV1: arbitrary accepted bytes up to the largest buffer of the devices (16384 bytes), except that the last signature may be cut off. Deploys: well-formed ones; false for arbitrary bytes, the approvals are not read."
  },
  {
   "property": "C68",
   "status": "partial",
   "theorems": [
    "C68_session_partial",
    "C68_refuted"
   ],
   "note": "False in general: a failed search can leave the cursor inside an argument. C68_session_partial: true unless an announced argument cannot be read; data without lengths near 2^32."
  },
  {
   "property": "C69",
   "status": "partial",
   "theorems": [
    "C69_encoding_partial",
    "C68_refuted"
   ],
   "note": "False in general (C68_refuted). C69_encoding_partial: true unless the count of dependencies, an argument type or an unreadable argument is one of the named anomalies; data without lengths near 2^32."
  },
  {
   "property": "C70",
   "status": "partial",
   "theorems": [
    "C70_trailing_bytes",
    "C70_accepted_partial",
    "C68_refuted"
   ],
   "note": "False in general (C68_refuted: accepted bytes that encode no deploy). C70_trailing_bytes: a deploy followed by arbitrary bytes is reviewed as specified, the first four of these bytes being shown as number of approvals. C70_accepted_partial: whatever is accepted is, outside the anomalies named in C69, the encoding of a deploy and reviewed as such whenever the specification gives it a review."
  },
  {
   "property": "C71",
   "status": "partial",
   "theorems": [
    "C71_form_partial",
    "C71_encoding",
    "C71_right_numbers",
    "C71_trailing_bytes",
    "C71_numbers_refuted",
    "C71_args_hash_refuted"
   ],
   "note": "False in general: lengths of sections, tables of a stored contract, a flag and algorithm bytes are not checked (C71_numbers_refuted), and since the unchecked length of the arguments decides what is hashed two calls with different arguments can have the same review (C71_args_hash_refuted). C71_form_partial: exact form of everything accepted (up to 64 missing bytes of the last signature), and with right numbers the encoding and review of a transaction, whatever bytes follow; data without lengths near 2^32."
  },
  {
   "property": "C72",
   "status": "partial",
   "theorems": [
    "C72_review_partial",
    "C72_form_partial",
    "C72_one_form",
    "C72_parts_partial",
    "C72_mandatory_partial",
    "C72_digest_right",
    "C72_digest_signed",
    "C72_unsigned_refuted"
   ],
   "note": "False in general: a section length that leads behind the payload puts unsigned bytes under the line Args hash (C72_unsigned_refuted). Proved on arbitrary accepted bytes with the arguments before byte 256 (C17), no length near 2^32 and at most 65471 bytes: one form, its review, mandatory arguments; which bytes Args hash covers. No review is specified for native operations with odd argument types and, in expert mode, versioned calls without version."
  },
  {
   "property": "C73",
   "status": "partial",
   "theorems": [
    "C73_accepted_partial",
    "C73_rejected_partial",
    "C73_hash_partial",
    "C73_outside_partial",
    "C73_outside_seen_partial",
    "C73_verdict_refuted",
    "C73_outside_count_partial"
   ],
   "note": "Exact verdict on every byte string that begins with a form (C72: everything accepted does). Missing: arguments from byte 256 on (C17), the last 64 sizes, parts without a specified review; the same review for the same payload needs the hashed arguments to lie in the payload (C72_unsigned_refuted). False in one point: the number of entries of the outermost table does matter when it moves the arguments across byte 256 (C73_verdict_refuted); C73_outside_seen_partial covers arguments in the same block of 256 bytes anywhere. C73_outside_count_partial: nothing else of the table matters."
  },
  {
   "property": "C74",
   "status": "partial",
   "theorems": [
    "C74_signed_partial",
    "C74_same_v1_partial",
    "C74_same_deploy_partial",
    "C74_same_seen_partial",
    "C74_screen_refuted",
    "C74_same_count_partial",
    "C74_calls_refuted"
   ],
   "note": "All histories, all devices. Missing: TransactionV1 arguments from byte 256 on (C17) or with a hashed range outside the payload (C72_unsigned_refuted), payloads without a specified review; deploys must be well-formed, and behind module code the bytes that follow matter (SR.trailing, C70). C74_same_seen_partial: arguments anywhere, provided both start in the same block of 256 bytes and what is shown lies in the hash and the payload. C74_screen_refuted: without such a condition false; extra entries in the unsigned top table make the screens show a hash of bytes the host chooses for the same signed payload. C74_same_count_partial: tables of the same number of entries suffice for the former. C74_calls_refuted: this is so for every contract call with its arguments close enough before byte 256 (from byte 218 under a table of three entries), whatever the added entries say."
  },
  {
   "property": "C75",
   "status": "partial",
   "theorems": [
    "C75_v1_partial",
    "C75_deploys_partial",
    "C75_screens"
   ],
   "note": "Arbitrary accepted bytes in both formats, and histories. Not covered: parts without a specified review, TransactionV1 arguments from byte 256 on (C17), the last 64 sizes, and what C46, C47 leave out (lifetimes within a second, digits of addresses, arguments by hash), which is false in general (C46_ttl_refuted, C47_address_refuted)."
  },
  {
   "property": "C76",
   "status": "partial",
   "theorems": [
    "C76_v1_partial",
    "C76_v1_many_partial",
    "C76_v1_there",
    "C76_deploy_partial",
    "C76_deploy_heading",
    "C76_signed_v1",
    "C76_signed_deploy",
    "C76_signed_heading",
    "C76_fee_refuted",
    "C76_chain_refuted",
    "C79_heading",
    "C79_price"
   ],
   "note": "Any accepted bytes, whatever the body, the value of the fee and the chain name; dates and lifetimes need no condition, since acceptance implies that they can be shown. Missing: the price of TransactionV1s whose chain name has 256 bytes or more, and TransactionV1s with 240 arguments or more. False of the fee: amounts of more than 106 bytes, which are no U512, are accepted and shown modulo 10^256 (C76_fee_refuted). False of the chain name: it is shown up to its first NUL only (C76_chain_refuted)."
  },
  {
   "property": "C77",
   "status": "partial",
   "theorems": [
    "C77_named_partial",
    "C77_bare_review",
    "C77_deed_review",
    "C77_code_refuted",
    "C77_call_refuted",
    "C77_deed_refuted"
   ],
   "note": "Holds of deploys with a specified review. False otherwise: with an amount, delegator or validator of another type any code is accepted with no line about code or arguments in either mode (C77_code_refuted), in normal mode even under the type Delegate if its argument auction says so (C77_deed_refuted), and any contract call shows nothing of its own in normal mode, under the type Delegate if so called (C77_call_refuted). C77_bare_review and C77_deed_review give the exact review of all these deploys."
  },
  {
   "property": "C78",
   "status": "partial",
   "theorems": [
    "C78_payment_kind",
    "C78_session_kind",
    "C78_payment",
    "C78_session",
    "C78_hash",
    "C78_accepted_partial",
    "C78_scattered",
    "C78_overflow",
    "C78_exact_partial"
   ],
   "note": "The reasons of refusal are exact for all deploys (an argument auction said to be a string has to be one, otherwise see C29). The rest is accepted, except delegations with an argument behind the first three or four and code whose argument auction names no operation or one without its arguments, which are refused, and code above 32 bytes whose hash is shown, which is written past the end of an array (C11). Missing are values that are not of their types, and the error for misread code whose first argument has a name of less than three ASCII characters."
  },
  {
   "property": "C79",
   "status": "partial",
   "theorems": [
    "C79_call_refuted",
    "C79_accepted_partial",
    "C79_rejected_partial",
    "C79_reviewed_partial",
    "C79_there_partial",
    "C79_below",
    "C79_heading",
    "C79_price",
    "C79_signed_partial",
    "C17_target_refuted"
   ],
   "note": "False: a well-formed call with its arguments behind byte 255 is shown with the hash of other bytes (C79_call_refuted), a transfer with another target (C17_target_refuted). Proved for every header length and text length: review and verdict are exactly those of the transaction whose arguments stand at the position modulo 256, also in every signing history (C79_signed_partial); the first lines of any accepted bytes whatever the chain name (C79_heading), the price too if it is below 256 bytes (C79_price). Missing: parts without a specified review, the last 64 sizes, native operations whose bytes at that position are not a well-formed list of arguments."
  }
 ]
}