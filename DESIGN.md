# Formal model of the Casper Ledger app (Zondax/ledger-casper)

Source studied: `/repo/app/src` (C). Prover: Coq 8.16.1, standard library only.

## 1. What is modelled, and how

The model is an executable Gallina program, function by function, in `rocq/theories`.
Each definition cites the C file and lines it follows.

| Model file | C source |
|---|---|
| `Base.v` | machine integers, bounds-checked memory, the parser monad, loops |
| `Zxlib.v` | the parts of ledger-zxlib / BOLOS that the app calls (not in /repo; contracts, see section 4) |
| `Crypto.v` | `crypto.c` (hex / checksum encoding, address, digest selection) |
| `Utils.v` | `parser_utils.c/.h`, `parser_primitives.c` |
| `RuntimeArg.v` | `runtime_arg.c`, argument lookup and argument rendering of `parser.c` |
| `Deploy.v`, `DeployUI.v` | `parser_impl_deploy.c`, `parser_special.c` |
| `TxV1.v`, `TxV1UI.v` | `parser_impl_transactionV1.c` |
| `Parser.v` | `parser.c`, `parser_message.c`, `parser_wasm.c` |
| `Screen.v` | `tx_getItem` of `common/tx.c` as the screens call it (int8_t index, error codes of zxlib) |
| `App.v` | `apdu_handler.c`, `common/tx.c`, `common/actions.h`, `addr.c`, `crypto_sign` |

### Outcomes
A parser function maps an environment (buffer, length, expert flag) and a cursor to
`Ret a`, `Fail code` or `Undef why`, together with the new cursor (also on failure,
because some C callers continue after an error).
`Undef` is C undefined behaviour made explicit: reading outside the supplied bytes,
writing past a local array, `strlen` on an unterminated array.
Error codes are the numeric enum values, because the C code ORs them together.

### Machine arithmetic
All C integers are `Z` with explicit wrap (`u8`, `u16`, `u32`) wherever the C type wraps.
`ctx->offset`, `bufferLen` are 16 bits, display indices 8 bits, lengths 32 bits.

### Loops
C loops bounded by an attacker-chosen 32-bit count are recursion on the binary
representation of the count with early exit, so the model runs, and no count is bounded.

## 2. Specification side

`Spec*.v` define, independently of the model: little-endian encodings, the CLType grammar,
named arguments, deploys, TransactionV1s, their byte encodings, and the list of
(key, value) pairs the review must show. Theorems relate the model run on `encode x`
to the specification of `x`, for every `x`.
Where the property ranges over arbitrary bytes (memory safety, hash binding, acceptance
rules, histories) the theorem quantifies over arbitrary byte lists / APDU histories.

## 3. Plan per property

| Id | Model and proof plan |
|---|---|
| C01 | reader functions against `le_decode` of a slice; case analysis on the remaining length |
| C02 | CLType grammar with its encoder; induction on the type; counterexamples for inline byte arrays in pairs; exact set of descriptors read on arbitrary bytes (shared with C68) |
| C03 | induction on the argument list, loop unfolding lemma |
| C04 | expected refuted: names are compared as C strings; witness with an embedded zero; positive theorem for names without zero bytes |
| C05 | offset arithmetic on the encoder; 16-bit wrap hypotheses discharged from the buffer bound |
| C06 | inversion of validation on arbitrary bytes; collision-extraction corollary |
| C07 | inversion of the payment parser on arbitrary bytes |
| C08, C09 | refinement: parse and display of `encode d` equal the specified item list |
| C10 | positive theorem where all arguments are hashed, refutations where only a prefix is and where the first argument of module code has no name |
| C11 | expected refuted for delegations with extra arguments; positive theorem for transfers |
| C12 | inversion of the metadata reader |
| C13 | as C06 |
| C14, C15 | inversion of the sanity check |
| C16 | refinement as C08 |
| C17 | positive when the position is below 256, refuted otherwise (8-bit field) |
| C18 | expected refuted (8-bit counter) with positive theorem below the wrap |
| C19 | expected refuted in expert mode without version, positive otherwise |
| C20 | expected refuted for the decimal rendering, positive for the hex rendering |
| C21 | digit/grouping lemmas by induction; injectivity by inverting the rendering |
| C22 | arithmetic on quotients and remainders, injectivity |
| C23 | induction on nibbles |
| C24 | chunking lemma on lists (contract of the zxlib pager) |
| C25, C27, C35 | app state machine, invariants over histories; refutations for stale content tags |
| C26 | inversion |
| C28-C30 | Hoare-style "never Undef" proofs on arbitrary bytes; witnesses where false |
| C31 | relational run with both flags |
| C32-C37 | invariants over event histories of the APDU state machine |
| C38 | direct |
| C39, C42 | inversion of validation, on arbitrary bytes |
| C40 | prefix-stability proof of every reader |
| C41 | witness of a backward move; positive theorem for data without numbers that wrap a 16-bit cursor back, for TransactionV1 and deploys |
| C43 | injectivity of the target texts per kind; witness across kinds |
| C44 | witness: two deploys that differ only in payment code show the same review; for all deploys from the review theorem, which does not mention the code |
| C45 | witness: no version and version 0 show the same review; positive for two given versions, from C52 |
| C46 | the review theorems of C08/C09 give both lists of lines; rendering is injective on values of one kind, so equal items give equal fields; induction over the lines |
| C47 | the same from the review theorem of C16/C19, with the initiator determined by the length of its text |
| C48 | partial: in expert mode equal items give equal amount, gas price or receipt; witnesses: normal mode shows no pricing, expert mode neither the standard-payment flag nor the computation factor |
| C49 | partial: shown as native operation and not a session, hence native (from C15 for arbitrary bytes); refuted by the review theorem of module-code transactions, which is the one of native operations |
| C50 | refuted for all module codes and arguments: the review theorem of module-code transactions does not mention them |
| C51 | partial: chain names up to 99 bytes (C16, C19); witness with 262 bytes |
| C52 | partial: different names without NUL and of at most 99 bytes give different items; witnesses with a NUL byte, for both formats |
| C53 | partial: when the value has the size its type demands, two environments with the same value bytes display the same text; witness where they do not |
| C54 | `tx_getItem` of common/tx.c modelled with its int8_t index; deploys from C39 (at most 19 items), TransactionV1 partial (128 items); witness with more |
| C55 | safety calculus of C28/C29 on the raw-WASM readers; causes of undefined behaviour; witnesses |
| C56 | induction over the chunks from an arbitrary reachable state, then the signing theorems of C35 |
| C57 | transactions: corollary of C56; messages and raw WASM: witnesses that a TransactionV1 submitted before changes what is signed, and the positive statement for histories without one |
| C58 | invariant: the kept address answer has 101 bytes; cases of the handlers |
| C59 | parse of a truncated encoding (the module length exceeds what is left), induction over the chunks before and after the buffer is full |
| C60 | relational run of parser and display in both modes on arbitrary bytes, for deploys and for TransactionV1 (there with less than 240 arguments and a stated version); a search that finds three names has at least three arguments to look at; TransactionV1 also from the review theorems; witnesses: a versioned call without version loses its last item in expert mode, a transfer with 246 further arguments its amount |
| C61 | as C56 for messages; the signature only if the last transaction parsed was not a TransactionV1 (C57 has the witness) |
| C62 | cases of handleGetAddr from an arbitrary idle state |
| C63 | C56 after a rejection |
| C64 | bisimulation of two devices with equal collected data |
| C65 | cases of handleApdu |
| C66 | all replies of all handlers listed; expected refuted for the documented list, positive for the list in the code |
| C67 | TransactionV1: inversion of the approvals loop on arbitrary bytes (an approval takes at least 66 bytes, so the 8-bit count cannot wrap in a buffer of 16384 bytes); deploys: from the review theorem; witnesses: a deploy with a count and no approvals, a TransactionV1 whose last signature is cut off |
| C68 | exact set of the type descriptors the device reads (inversion and execution), calculus of searches that keep the cursor or meet an unreadable argument, inversion of the five kinds of session on arbitrary bytes; witness: a session that announces two arguments and is read from the middle of the second |
| C69 | from C06 (header), C07 (payment) and C68 (session): the pieces are encodings; case analysis of the descriptors the device reads into encodings of supported types and odd ones |
| C70 | the review proof of C16 done for a deploy followed by bytes that need not be approvals (`signed_review` in ReviewFacts; C16's `deploy_review` is now the special case), composed with C69 |
| C71 | inversion of every reader of a TransactionV1 with all the bytes it consumed (`lies e o bs o'`), giving a decomposition of arbitrary accepted bytes into the parts and the redundant numbers of `SpecForm`; right numbers make it `enc_transaction`; reviews from C16/C19 with trailing bytes by the extension lemmas of C40 |
| C72 | the readers run forward on the form of C71 and the screens run over it with wrong numbers, odd types and a cut signature left in place (`form_review`), the form being unique (`form_unique`: the encodings are prefix codes); mandatory arguments from the searches of C14 run over the form; witness for unsigned bytes under "Args hash" |
| C73 | the readers run forward over any form with any numbers that are not checked (`form_run`), the sanity searches (C14) and the hash comparison decide (`verdict_yes`, `verdict_no`); two byte strings with the same hash and payload differ only in the outermost table, the approvals and what follows, none of which the verdict reads (`outside`). Partial: limits of C72. That the outermost table does not matter is refuted: a transfer accepted with its three entries is rejected with ten, which move its arguments past byte 255 (`pad_verdict`); it holds with the arguments of both in the same block of 256 bytes, wherever that is (`outside_seen`), in particular under tables with the same number of entries (`outside_count`) |
| C74 | the invariant of histories (the review on screen is the parse of the buffer, C33, C35) with the verdict on forms (C73) and the hash checks of deploys (C06): the signed 32 bytes are the hash of the payload that was reviewed (`signed_v1`); equal signed bytes give equal payloads, hence equal screens by C73 `outside` and C70 `shown_sealed`, or a collision (`same_signed`, `same_deploys`). `same_signed_seen` replaces the limits on positions and numbers by: the arguments of both start in the same block of 256 bytes, and the bytes looked at lie in the hash and the payload; tables with the same number of entries ensure the first (`same_signed_count`). Refuted in full: the top table is outside the payload and up to ten entries are accepted; seven entries more push the arguments past byte 255, and the hash of arguments on screen is of bytes chosen by the host, in both modes, for the same signed 32 bytes (`pad_signed`); so for every contract call whose arguments stand before byte 256, by at most the length of the entries added (`pad_any`, C74_calls_refuted). Partial: limits of C70 and C73, or those of `same_signed_seen` |
| C75 | C46, C47, C50 and C52 carried from encodings to arbitrary accepted bytes: the lines shown are those of the parts (C70, C72, C73), and equal lines give equal parts by the inversion of the renderings (`reviews_alike`, `bares_alike`; the parts are bytes because the buffer is, `form_displayed`); a deploy followed by other bytes shows the lines of the deploy without approvals, up to their number (`sealed_alike`). In histories equal screens are equal reviews of the buffers (`screens_alike`). Partial: limits of C46, C47, C70, C72 |
| C76 | The lines of the heading depend on the position of the header alone: for a TransactionV1 `head_lines_f` of C72 restated without the arguments (`tops`), on the object every accepted form has (`parsed_form`, C74); for a deploy the header counts and the payment are read forwards from the bytes (`header_obj`), the rest of the object by inversion of the reader (`accepted_deploy`, C01), and the items up to the fee use nothing else (`deploy_heading`). That dates exist and lifetimes stay below 29 days in expert mode, and that the amount has a byte, follows from acceptance, because every item was displayed (`v1_clear`, `deploy_clear`). The fee of any length is its value mod 10^256 (`motes_any`, by the carry loop of C05). Deploys with any chain name: `HeadDeploy` repeats this with `seen_header`, the name up to its first NUL, and shows that acceptance bounds its length (`name_accepted`); TransactionV1s: C79 (`C79_heading`, `C79_price`; a Classic payment from 10^19, whose text the buffer does not hold, is not accepted in expert mode without unspecified behaviour, `v1_price_fits`). Partial: prices behind chain names of 256 bytes or more, 240 arguments or more. `C76_chain_refuted`: a chain name with a NUL is signed and shown as casper. `C76_fee_refuted`: 10^256 + 2500000000 shown as 2500000000 |
| C77 | Sessions with arguments other than the expected ones are parsed and displayed forwards (`call_session`, `code_session`, `odd_session`, `more_session`), for all targets, entry points, code, arguments and trailing bytes; the frame of the review (`any_review`) is that of C08/C70 with the session left open and without bound on the code. Independent specification `SB` (`bare`: the lines there are; `names`: the lines a user needs). The claim itself holds of specified reviews (`C77_named_partial`) and is false of the rest, for all code and all contracts at once (`C77_code_refuted`, `C77_call_refuted`). Code with an argument auction as well (`blind_named`, `C77_deed_review`): any code, under the type Delegate, with no line of its own in normal mode (`C77_deed_refuted`). |
| C78 | For every header, 32 bytes in place of its hash, payment, session and trailing bytes the run of `tx_parse` is followed to its end: `payment_type_refused`, `payment_refused`, `stored_refused`, `module_verdict` (with `module_auction` for code that names an operation), `transfer_verdict` give the error, `session_verdict` that everything else is read with its exact length, `hash_verdict` that a wrong hash is then the reason. Acceptance by `coverage`: a session that is not refused has a review of C08/C70 or of C77; `lost_verdict`: except delegations with an argument behind the first three or four, where showing the first missing one is the error (`parser_no_data`), and code whose argument auction names no operation or one without its arguments, which are then looked for at the wrong offset, among the bytes of the deploy (`misread_named`, `parser_unexpected_buffer_end`; the name of the first argument is taken to have three ASCII characters at least); and `long_verdict`: code of more than 32 bytes whose hash is shown (expert mode, or code that names no operation) is copied past the end of an array (C11); `C78_exact_partial` is the trichotomy. Independent specification `SY` (reasons as functions of the argument lists). Partial: see the theorem for the sessions left out. |
| C79 | `appears` (SpecWrap) is the transaction one sees: arguments at `args_pos mod 256`, texts cut off, approvals modulo 256. The readers run over any form (C73, `form_run`); the kept position is `seen_pos` (`seen_u8`), so the displays and searches of C72/C73 are repeated there (`body_seen`, `sane_seen`), names without a bound on their length (`vtext_seen`, `part_seen`). Refuted in full by a well-formed call (`far_refuted`). The first lines need no condition on chain name, date or lifetime (`heading_any`), the price only a chain name below 256 bytes (`price_shown`); `signed_seen` says both of every history that signs. Partial: native operations with malformed bytes at that position, parts without a specified review, the last 64 sizes |

## 4. Trusted base

* Coq's kernel (and `coqchk`), and the reading of the C code recorded in the comments.
* `Print Assumptions` output for each theorem: see section 6.
* External functions, not in /repo: BLAKE2b, SHA-256, ECDSA and key derivation are
  parameters of the theorems (nothing is assumed about them except what a theorem states).
  zxlib string/number/paging helpers are modelled by the definitions in `Zxlib.v`, which
  state their assumed behaviour. The UI toolkit is modelled as "shows the items, then the
  user approves or rejects".

## 5. Not modelled
Timing, flash wear, BOLOS memory isolation, USB framing, the Rust/JS host libraries,
the swap feature, fuzzing harness, UI layout. `parser.c` 339-456 is not called by any
other code of the app. `main.c` and the stubs of `secret.c` have no counterpart. The bytes of
a signature are not modelled: a history records path and pre-image instead.

## 6. Assumptions printed

Every theorem named in `MANIFEST.json` is followed by `Print Assumptions`; each prints
`Closed under the global context`. No axiom, of the project or of the standard library,
is used. (`coqchk` lists `Coq.ssr.ssrunder.Under_rel.*`: they are opaque members of a
standard-library module that is loaded by `lia`'s dependencies; no theorem uses them.)

Beyond the kernel, the statements rest on the reading of the code. The choices that matter:

* **Contracts of external functions** (`Zxlib.v`, `App.v`): decimal text of little-endian
  numbers modulo 10^256 (`bignumLittleEndian_to_bcd`, `bcdprint`); `uint64_to_str`; `snprintf`;
  paging (pages of `outValLen - 1` characters, 8-bit page count); the buffering of APDU
  chunks (RAM first, then everything moves to flash, an append that does not fit adds
  nothing). The text of a time stamp is an arbitrary function.
* **Cryptography**: hash, key derivation and signing are arbitrary functions. "Signed p pre"
  in a history says which path and which pre-image were handed to the signing function.
* **Memory layout**: reading `*(uint32_t *)&ctx->offset` (parser_utils.c) also reads the two
  bytes behind the offset; they are the parameter `hi16` of an environment.
* **Stale globals**: what a failed parse leaves in the global parse objects is an arbitrary
  function (`junk_*` of `device`).
* **User interface**: a review shows items `0 .. n-1` and ends with approval or rejection;
  while a review is on screen commands are not dispatched and the
  menu cannot be reached (assumption on the platform).

## 7. Layers of the development

| Files | Content |
|---|---|
| `Spec`, `SpecText`, `SpecDeploy`, `SpecTx`, `SpecLayout`, `SpecApp` | specifications, no reference to the model |
| `BaseFacts`, `Exec`, `ArgsFacts`, `ReaderFacts`, `TextFacts`, `Shows` | running readers on encoded data, texts |
| `DeployArgs`, `SessionFacts`, `DelegationFacts`, `StoredFacts`, `ModuleFacts`, `ReviewFacts`, `DeployCases` | deploys: encode, parse, review |
| `TxFacts`, `TxBody`, `TxShow`, `TxReview`, `TxClaims` | the same for TransactionV1 |
| `RangeFacts`, `BindFacts`, `OklFacts`, `BindCases`, `FwdFacts`, `TxInv`, `TxAccept` | arbitrary accepted bytes taken apart |
| `SafeFacts`, `DeploySafe` | absence and causes of undefined behaviour |
| `ExtFacts`, `ExtUI`, `ExtTx`, `ModeFacts`, `MoreSign` | two runs compared: longer data, other mode |
| `SpecLook`, `LookFacts`, `LookTx` | two transactions with the same screens |
| `AppFacts`, `AppHist`, `AppClaims`, `AppSign`, `TxSign` | invariants of histories |
| `SpecSess`, `SessFacts`, `SessTx`, `SessWasm`, `SessReply`, `WasmSafe` | whole sessions from any reachable state; raw WASM |
| `SessMore`, `SizeFacts`, `SpecAppv`, `AppvFacts` | messages, addresses, locked device, status words, liveness; devices of different sizes; approvals |
| `SpecRaw`, `RawFacts`, `RawShow`, `WitRaw`, `PropsRaw` | deploys in arbitrary bytes (C02, C68 to C70) |
| `SpecForm`, `FormFacts`, `FormShow`, `WitForm`, `PropsForm` | TransactionV1s in arbitrary bytes (C71) |
| `SpecShow`, `FormUnique`, `FormReview`, `FormArgs`, `WitShow`, `PropsSeen` | what is shown of TransactionV1s in arbitrary bytes (C72) |
| `FormRun`, `FormAccept`, `WitExact`, `PropsExact` | which bytes are accepted as TransactionV1s (C73) |
| `FormSign`, `DeploySign`, `WitSign`, `PropsSign` | what a signature stands for, in any history (C74) |
| `LookForm`, `WitAlike`, `PropsAlike` | accepted bytes and screens that look alike (C75) |
| `SpecHead`, `HeadFacts`, `HeadClear`, `WitHead`, `PropsHead` | the heading of anything accepted (C76) |
| `SpecBlind`, `BlindReview`, `BlindFacts`, `WitBlind`, `PropsBlind` | deploys whose arguments are not the expected ones (C77) |
| `SpecVerdict`, `VerdictFacts`, `VerdictLost`, `VerdictCode`, `VerdictAuction`, `WitVerdict`, `PropsVerdict` | which deploys are refused, with which error (C78) |
| `SpecWrap`, `FormSeen`, `HeadSeen`, `HeadDeploy`, `HeadPrice`, `WitWrap`, `PropsWrap` | TransactionV1s with arguments behind byte 255 and texts of any length (C79); headings with any chain name (C76, C79) |
| `SeenSign`, `PadAny`, `WitPad`, `PropsPad` | TransactionV1s with arguments anywhere: same payload, same block, same verdict and screens (C73, C74); the padded top table |
| `ModeV1`, `ModeForm`, `WitMode`, `PropsMode` | both modes on any bytes accepted as a TransactionV1 (C60) |
| `LookMore`, `ModeItems`, `ModeTx` | payment code and versions; reviews in both modes |
| `Demo`, `Wit*` | concrete data: hypotheses met, refutations |
| `Props*` | the property theorems, nothing else |
| `Vectors` | reviews of the repository's own test transactions, computed by the model (tests of the model) |

## 8. Findings

Statements that are false of the faithful model are proved false with a witness
(`..._refuted`); the notes in `MANIFEST.json` say what goes wrong. The ones with the most
weight for a user:

* C14, C17: the position of the arguments of a TransactionV1 is kept in 8 bits. A long chain
  name makes the device check and show another part of the transaction as its arguments.
* C25, C26: after a TransactionV1 was submitted, approving a message signs 32 bytes of the
  message, not the hash of the message shown.
* C27: a stale `tx_bufferFull` lets a raw-WASM review show a hash that was not checked.
* C18: 250 arguments more leave a TransactionV1 with no item to review.
* C34: an address request between chunks changes the key that signs.
* C29, C30: module-bytes deploys copy a length read from the wrong place into a stack buffer.
* C41: an accepted transaction can have more arguments than bytes; its parsing takes any
  number of steps the sender likes.
* C49, C50: a TransactionV1 that carries module code and names the entry point of a native
  operation shows exactly the review of that operation, whatever the code; with the entry
  point Call nothing of code and arguments is shown, in either mode.
* C48: normal mode never shows what a TransactionV1 pays; expert mode shows neither the
  standard-payment flag nor the computation factor.
* C47: the address of a contract called by a TransactionV1 is shown as the decimal values of
  its bytes without separators; different contracts have the same text.
* C51: with a chain name of 262 bytes the device shows "casper" and another payment.
* C52: text shown ends at a NUL byte; entry points that differ after one look alike.
* C53: a value shorter than its type demands is completed on screen by the bytes behind it.
* C54: the screens ask for items with an 8-bit signed index; items from the 129th on of an
  accepted transaction cannot be displayed.
* C57: the same message or raw-WASM session signs different bytes depending on which
  transaction was submitted before.
* C59: a module deploy whose code fits but whose approvals do not is refused.
* C60: a versioned contract call without version shows the hash of its arguments in normal
  mode and does not in expert mode.  A transfer with 246 further arguments shows its amount
  in normal mode and has three items (no account, target or amount) in expert mode.
* C66: five of the status words the device returns are not documented.
* C67: the approvals of a deploy are not read, the number shown is whatever is written there.
* C68: when a search for an argument ends inside a type it does not know, the cursor stays
  there (COUNT_RUNTIME_ARGTYPE ignores the error) and the arguments are read from there: a
  deploy is accepted whose body is no payment and session.
* C71: the lengths of the sections of a TransactionV1 are read but not checked. The bytes
  hashed for "Args hash" are as many as the sender writes there; two calls with different
  arguments can look alike, and a length 0 makes the device hash 2^32 - 1 bytes.
* C72: that length may lead behind the signed payload: the same signed transaction is shown
  with another "Args hash" when other bytes follow it.
* C73, C74: the outermost table of a TransactionV1 is not signed and may have up to ten
  entries. Seven entries more move the arguments of some transactions past byte 255: the same
  signed payload is then shown with an "Args hash" of bytes the host chooses, or is rejected.
* C77: when amount, delegator or validator of a deploy has another type than expected (an
  amount of type U64, say), `COUNT_RUNTIME_ARGTYPE` returns parser_ok and no items are
  counted. Code of any length is then signed with neither its hash nor that of its arguments
  on screen, in both modes; a contract call shows in normal mode nothing but hash, type,
  chain, account and fee, and the type is Delegate when the entry point is so called.
