# Formal model of krypto431 - design

Subject: `/repo` (sa6mwa/krypto431, Go), read as text. Tool: Coq 8.16.1.
Property list: `properties.jsonl`. Status per property: `MANIFEST.json`.
Log of tests against wrong programs: `seeded/LOG.jsonl`.

## 1. How the model is built

* **Values.** A `rune` is a `Z`; a rune slice is a `list Z`; Go strings are the
  rune lists they decode to. A Go `int` is a `Z` (or a `nat` where the code
  guarantees it is a length or an index). `string(runes)` replaces invalid
  runes by U+FFFD (`go_string`). Overflow of `int` is not modelled except where
  it can be reached from the command line (`--valid`, C45).
* **Outcomes.** Every function that can fail returns `Ok v`, `Err e`, `Panic`
  or `Diverge`. A run-time panic (index out of range, slice-to-array conversion,
  division by zero, explicit `panic`) is a value, never hidden by a default.
  `Diverge` is a loop that does not end (key generation when no ID is left and
  similar). Nil pointers are `option`.
* **Pointers into `Krypto431.Keys`** (`*Key`) are indices into the key list;
  this is exact as long as `Keys` is not appended to or shortened while the
  pointer lives, which holds inside every modelled function.
* **Randomness** is a tape of 64-bit words. Running out of tape is failure of
  `crypto/rand` (`panic(err)` in `Uint64`, error return in `ReadRunes`).
  Theorems quantify over all tapes. Encipher, Decipher and TryDecipherPlainText
  also overwrite working copies (chunks, key IDs, filtered texts) with random
  data; `Model_Cipher` does not read tape for that, `Model_Wipes` does, and
  C148 says what the difference is.
* **Unicode** beyond Latin-1 is an oracle `U : Uni` (record of functions); its
  Latin-1 part and U+0131, U+017F (the only two runes outside Latin-1 whose
  upper case is in Latin-1) are concrete. Assumptions on the oracle are
  hypotheses of the theorems that need them: `uni_ok` (other runes are not
  mapped into Latin-1), `uni_upper_idem` (upper case of upper case),
  `uni_space_upper` (white space has no case), `uni_kelvin` (U+212A is its own upper case
  and no space).
  `uni_id` satisfies all of them.
* **Memory, four layers.** (1) Value layer: slices are values. (2) Shared
  memory (`Model_Heap`): every rune array has an address, because
  `m.KeyId = designatedKey.Id`, `ExportKeys` and `ImportKeys` share arrays and
  `Wipe` overwrites them. (3) PFK and salt are cells of a memory, because
  `WithPFK`/`WithSalt` store the caller's pointer. (4) Slices with offset,
  length and capacity (`Model_Slices`), for `append` into spare capacity: lists
  of call-signs and cells of tables (C152, C153). The capacity of a new array is
  any function. `Model_Pointers` has the array of Keys as such a slice, for the
  pointers GetKey and FindKey return (C154, C155). `Model_Handles` adds to (2) that Decipher overwrites the array
  the text was in (C151).
* **A net of stations** (`Model_Net`) is a list of stores, the key files
  exported so far, the messages sent so far and, per station, which of them it
  has sent or read since it last imported keys. Its steps use the functions of
  the value layer (C156-C158).
* **Files** are byte lists; `Save` returns the list of its effects (truncate,
  append a piece), so that a crash is a prefix of that list and a failing disk
  is a shorter list. The contents come from a library record `lib`: gob+gzip
  (`encode`, `decode`), the XSalsa20Poly1305 stream (`seal`, `unseal`), PBKDF2
  (`kdf`), `filepath.Join`. Assumption `lib_ok`: decoding inverts encoding,
  unsealing with the same key inverts sealing, unsealing with another key fails,
  derived keys have 32 bytes. (Unsealing with another key succeeds with
  negligible probability; the model says never.) `ex_lib` (Examples_Persist.v)
  satisfies it. Gob leaves fields that are zero in the file unchanged; this is
  modelled (`merge_inst`).
* **The program** (`Model_Cli`) is a function from options, environment (per
  step: errors of the file system, answers of the user) and file system to
  result, file system, messages printed and lines listed.
* **Goroutines** (`Model_Concurrent`) are sequences of accesses to Used fields;
  a schedule says whose turn it is. One call of FindKey is one access; for a
  refutation this is harmless, for C97 it is part of the hypothesis.
* **Library functions left as parameters**: `dtg.Parse`, `DTG.String` (12
  characters where layout matters), blox `WrapString`, `ReplaceLineBreaks`,
  `LineCount`, `CutLineShort`; `Key.String()` and the head of
  `Message.String()` where only their number of lines matters.

## 2. Files

`Model_*.v` definitions only (each citing file and lines); `Spec.v` and
`Spec_*.v` the specification vocabulary used in theorem statements;
`Proofs_*.v` lemmas; `Examples*.v` concrete stores, files and calls;
`Props_*.v` the property theorems, each followed by `Print Assumptions` and,
nearby, an `Example` with a non-trivial instance of its hypotheses.
A theorem `..._refuted` exhibits a concrete case in which the property fails of
the modelled code; `..._partial` proves part of a property.

## 3. Properties: what is modelled, how it is proved

| id | status | modelled code and method | theorems in |
|----|--------|--------------------------|-------------|
| C01 | proved | diana.go; arithmetic mod 26 for all runes and bytes | Diana |
| C02 | proved | diana.go; arithmetic mod 26 for all runes and bytes | Diana |
| C03 | proved | diana.go; arithmetic mod 26 for all runes and bytes | Diana |
| C04 | proved | diana.go; arithmetic mod 26 for all runes and bytes | Diana |
| C05 | partial | AppendTrigraphByteByKey; case analysis, witness for the panic | Diana |
| C06 | proved | reciprocal-table.txt as data; all 676 cells by computation (the domain is finite) | Diana |
| C07 | proved | codec, Encipher, Decipher; simulation of encoder by decoder, induction on text and parts | Cipher |
| C08 | proved | Encipher; loop invariant, ciphertext related to the manual coding scheme of Spec.v | Cipher |
| C09 | proved | Encipher; loop invariant, ciphertext related to the manual coding scheme of Spec.v | Cipher |
| C10 | partial | EnrichWithKey, Encipher; witness, and the same invariant with a preset key | Cipher |
| C100 | proved | Model_Ask, file keys and salts of Model_Station; function composition | Ask |
| C101 | proved | Model_Output; effects on a file system, relation to the call without --output, witnesses | Output |
| C102 | partial | Model_Output; effects on a file system, relation to the call without --output, witnesses | Output |
| C103 | partial | Model_Output; effects on a file system, relation to the call without --output, witnesses | Output |
| C104 | proved | Model_Initialize; induction over the lines typed in, decimal notation, splitting of texts; composition with C92; witnesses | Initialize |
| C105 | partial | Model_Initialize; induction over the lines typed in, decimal notation, splitting of texts; composition with C92; witnesses | Initialize |
| C106 | partial | Model_Initialize; induction over the lines typed in, decimal notation, splitting of texts; composition with C92; witnesses | Initialize |
| C107 | proved | composition of the lemmas of C60, C80, C83 and C85 over Model_Cli; the keys of a fresh message are eligible keys, IDs are unique | EndToEnd |
| C108 | proved | composition of the lemmas of C60, C80, C83 and C85 over Model_Cli; the keys of a fresh message are eligible keys, IDs are unique | EndToEnd |
| C109 | proved | induction on the list of options from the end (last_of), with the invariant that memory grows and PFK and salt lie in it | Options |
| C11 | partial | EnrichWithKey, Encipher; witness, and the same invariant with a preset key | Cipher |
| C110 | proved | case analysis of wipe_station; two updates at different addresses | Options |
| C111 | proved | induction on the history from the end, with the lemmas of C22 for one call | Recipients |
| C112 | proved | from C91, with the lines printed and the dialogue of C99 put in; the key printed is the hexadecimal form of the bytes drawn | Pfk |
| C113 | partial | refuted for --random with --new-pfk; otherwise case analysis after opening the file | Pfk |
| C114 | proved | case analysis of the command; GenerateSalt by c40_generated_fresh | Pfk |
| C115 | partial | refuted for --new; for typed passwords from C112 and C99 | Ask, Pfk |
| C116 | proved | first-choice semantics of the matcher composed part by part; that the earlier expressions and all longer first groups fail follows from the absence of == and of a second DE before the first = | Forms |
| C117 | proved | instance of C116 without =: no second DE anywhere | Forms |
| C118 | partial | refuted by three radiograms; C116 and C117 give the conditions under which it holds | Forms |
| C119 | proved | locality of Intn (one accepted draw after rejected ones), lifted through the loops | Draws |
| C12 | partial | Encipher with its deferred release; value layer and shared memory | Cipher, Heap |
| C120 | partial | counterexample, computed | Dates |
| C121 | proved | two-run simulation through every loop of the cipher, stores related key by key | Dates |
| C122 | partial | counterexample, computed | ImportOptions, Keys |
| C123 | proved | New and Load preserve equality up to the two settings; ImportKeys looks at neither | ImportOptions, Keys |
| C124 | proved | Model_Cipher; simulation between stores with differently filled keys, induction on the series of messages, explicit enumeration of the fillings behind given ciphertexts; C125 by a counterexample for all fillings | Secrecy |
| C125 | partial | Model_Cipher; simulation between stores with differently filled keys, induction on the series of messages, explicit enumeration of the fillings behind given ciphertexts; C125 by a counterexample for all fillings | Cipher, Secrecy |
| C126 | proved | Model_Keys and Model_Cipher; the draws behind one filling are changed into those behind another without loss (C19), joined with the count of C124 | Keys, Secrecy |
| C127 | proved | Model_Crand2 on Model_Crand; a word that leads to one result is changed into one that leads to another without loss, series of draws by composition; Perm and Shuffle by bijections between choices and permutations, induction on n | Crand2 |
| C128 | proved | Model_Crand2 on Model_Crand; a word that leads to one result is changed into one that leads to another without loss, series of draws by composition; Perm and Shuffle by bijections between choices and permutations, induction on n | Crand2 |
| C129 | proved | Model_Cipher, Model_Keys, Model_Station; as C127, with a lemma for drawing until a result is free and the pigeonhole principle for the existence of a free ID | Fair |
| C13 | partial | Encipher; witness with default sizes, length bounds by induction | Cipher, Enough |
| C130 | proved | Encipher against a count of code letters (Spec_Enough), simulation by induction over the text | Enough |
| C131 | proved | the matcher run in lockstep on two texts whose characters no class of the expressions tells apart; trimming and vetting of call-signs likewise | Alike |
| C132 | proved | maps between the sources of two results: one permutation of the IDs, fixing those of the store, renames every ID drawn for all keys at once, so that the same draws are rejected; other draws one after the other | Joint |
| C133 | proved | the loop of Decipher as steps between configurations without the text; two letters that each give a character lead to the same configuration | Garble |
| C134 | partial | refuted; the counterpart from the configurations of C133 and the algebra of the DIANA table | Garble |
| C135 | proved | Decipher is a function of the IDs and letters of the keys; the marks it sets commute and are idempotent | Order |
| C136 | proved | simulation between the loops of Decipher over two stores in which keys are found alike | Order |
| C137 | partial | permissions beside the effects of Save and of the output (Model_Modes); PDF refuted | Modes |
| C138 | proved | the body of Message.String (Model_Body); the form of the groups and the traffic example as for C60, reading as for C17 | Body, Lookup |
| C139 | proved | Model_Float: round_bits is rounding to nearest even in units of 2^-63. Spec_Float says what nearest means without it; round_nearest is proved for every number of bits and every integer. | Float |
| C14 | partial | encodeCharacter; witness, invariant | Cipher |
| C140 | proved | composition: a function of the source is good if it reads a prefix that decides its outcome unless the source is exhausted; drawing, retrying, wiping, then every operation of Model_Heap, induction on the history | Fresh |
| C141 | proved | induction on the query; the decomposition by TrimSpace, and which characters have a given letter as upper case (Latin-1 by cases, the rest by uni_ok) | Lookup |
| C142 | proved | the invariant of the encoding loop (as for C07) needs no assumption on key text; enciphering with any key by induction; the release of keys transferred from the store with mended key text, which nothing else distinguishes | Damaged |
| C143 | proved | the search for a free ID by induction on the tape; the four functions by unfolding up to the point where the ID is looked at | Again |
| C144 | partial | counterexamples by computation; c144_stuck from the exact outcomes of EnrichWithKey (C145) | Again |
| C145 | proved | case analysis along the function, with the search for a key characterised as for C140 | Again |
| C146 | partial | the message names a key which Encipher marked used (C09), which the check of a named key rejects | Again |
| C147 | partial | counterexamples by computation; c147_later_partial from the invariant of the encoding loop (C07, C12) | Again |
| C148 | proved | a second model of the three functions with every overwriting of a working copy (Model_Wipes.v) is compared with the one all other theorems are about: induction over the chunks and over the letters of the ciphertext | Wipes |
| C149 | partial | counterexamples by computation; the exact outcomes by moving the old text out of the decoding loop, by induction | Wipes |
| C15 | proved | Decipher, TryDecipherPlainText; induction on the ciphertext, parser specification | Cipher |
| C150 | proved | the fold that predicts the column sizes is computed exactly by induction on the selected entries; no hypothesis on the lengths of cells | Tables |
| C151 | partial | a second memory model of Decipher and TryDecipherPlainText that represents the overwriting of the old array (`Model_Handles`); the invariant of C69 shows which fields it can reach | Handles |
| C152 | partial | slices with offset, length and capacity (`Model_Slices`); every history refines the histories of the single lists | Slices |
| C153 | partial | induction on rows and cells with the invariant that the padding of one cell touches only spare capacity | Slices |
| C154 | partial | pointers as array and index over the slices of `Model_Slices` (`Model_Pointers`); concrete histories | Pointers |
| C155 | proved | induction on histories with the invariant that array, offset and the IDs of all elements stay; exact computation of the array for one deletion and for growth | Pointers |
| C156 | partial | net of stations, key files and messages on the air (`Model_Net`); concrete histories | Net |
| C157 | proved | induction on histories; invariant: copies of a key in stores and files have the same ID, length and runes, and a key of a message on the air is used at every station that has heard it | Net |
| C158 | proved | induction on histories; the keys of the message at the sender and the copies at the receiver decipher alike; round trip of C01 | Net |
| C159 | partial | two stations with the same keys send the same text: the ciphertexts are the same for all fillings of the keys | NetSecret |
| C16 | proved | Decipher, TryDecipherPlainText; induction on the ciphertext, parser specification | Cipher |
| C160 | proved | simulation between the net and the net with other letters, for each operation; messages are chunks enciphered with keys of the net, no two chunks with the same key (C157); counting as in C124 | NetSecret |
| C161 | proved | cells of the canvas: the last stroke covering a cell is what is seen; groups, table and legend cover different cells inside the canvas; C27 for the groups | Canvas |
| C162 | proved | C160 for the fillings of the keys; each filling of the keys with given IDs comes from equally many random sources (bijection between sources, C126) | NetSource |
| C163 | proved | refinement of Decipher to the grammar of messages (C15), transferred between the two stores; a message read from a key is read in one way only | Deleted |
| C164 | partial | counterexample; what DeleteKey does to the list, for any store | DeleteOrder |
| C17 | proved | Decipher, TryDecipherPlainText; induction on the ciphertext, parser specification | Cipher |
| C18 | proved | crand, NewKey, GenerateKeys; induction on the tape, bijections between tapes | Keys |
| C19 | proved | crand, NewKey, GenerateKeys; induction on the tape, bijections between tapes | Keys |
| C20 | proved | keys.go; list and multiset reasoning over all operation sequences | Keys |
| C21 | proved | keys.go; list and multiset reasoning over all operation sequences | Keys |
| C22 | partial | keys.go; list and multiset reasoning over all operation sequences | Keys |
| C23 | partial | NewKey; witness, list reasoning | Keys |
| C24 | proved | FindKey, GetKey, MarkKeyUsed; refinement to set-theoretic specification | Cipher |
| C25 | proved | FindKey, GetKey, MarkKeyUsed; refinement to set-theoretic specification | Cipher |
| C26 | proved | message IDs; invariant over operation sequences | Messages |
| C27 | proved | functions.go; loop invariants, refinement to sets | Functions |
| C28 | proved | functions.go; loop invariants, refinement to sets | Functions |
| C29 | proved | functions.go; loop invariants, refinement to sets | Functions |
| C30 | proved | functions.go; loop invariants, refinement to sets | Functions |
| C31 | partial | Save, Load, file as bytes with a list of effects; case analysis over all errors and all crash points | Persist |
| C32 | partial | Save, Load, file as bytes with a list of effects; case analysis over all errors and all crash points | Persist |
| C33 | partial | Save, Load, file as bytes with a list of effects; case analysis over all errors and all crash points | Persist |
| C34 | partial | Save, Load, file as bytes with a list of effects; case analysis over all errors and all crash points | Persist |
| C35 | partial | Save, Load, file as bytes with a list of effects; case analysis over all errors and all crash points | Persist |
| C36 | partial | ImportKeys, ExportKeys; list reasoning; PFK and salt as memory cells; witness | Keys |
| C37 | partial | ImportKeys, ExportKeys; list reasoning; PFK and salt as memory cells; witness | Persist |
| C38 | partial | ImportKeys, ExportKeys; list reasoning; PFK and salt as memory cells; witness | Heap, Persist |
| C39 | partial | DeleteMessage, DeleteKey on shared memory; witnesses, invariant over histories | Heap |
| C40 | proved | hex setters; induction on digits | Ask, Persist |
| C41 | partial | NewTextMessage, ParseRadiogram, Message.String; backtracking matcher for the regular expressions | Messages |
| C42 | proved | NewTextMessage, ParseRadiogram, Message.String; backtracking matcher for the regular expressions | Messages |
| C43 | partial | NewTextMessage, ParseRadiogram, Message.String; backtracking matcher for the regular expressions | Messages |
| C44 | partial | NewTextMessage, ParseRadiogram, Message.String; backtracking matcher for the regular expressions | Print |
| C45 | partial | filter of the keys command; decision tables, overflow of time.Duration | Cli |
| C46 | proved | IsValid; arithmetic | Keys |
| C47 | partial | Wipe family on shared memory; noninterference | Heap |
| C48 | partial | Model_Concurrent; witness schedule | Concurrent |
| C49 | partial | Assert, NewKey, Encipher; witness, invariant | Settings |
| C50 | proved | summary, pagination, helpers; list reasoning | Keys |
| C51 | partial | summary, pagination, helpers; list reasoning | Print |
| C52 | proved | summary, pagination, helpers; list reasoning | Functions |
| C53 | partial | summary, pagination, helpers; list reasoning | Functions |
| C54 | proved | codec; parts of a message read independently | Cipher |
| C55 | proved | ParseRadiogram, DeleteMessage; matcher reasoning, list reasoning | Messages |
| C56 | proved | ParseRadiogram, DeleteMessage; matcher reasoning, list reasoning | Messages |
| C57 | proved | ParseRadiogram, DeleteMessage; matcher reasoning, list reasoning | Messages |
| C58 | proved | ParseRadiogram, DeleteMessage; matcher reasoning, list reasoning | Print |
| C59 | proved | printed coding legend against the codec; finite check, then for all characters | Print |
| C60 | proved | Message.String, KeysAsText, MessagesAsText, pages; induction on items | Print |
| C61 | proved | Message.String, KeysAsText, MessagesAsText, pages; induction on items | Print |
| C62 | proved | Save, Load, ImportKeys, ExportKeys as in C31-C38 | Persist |
| C63 | proved | Save, Load, ImportKeys, ExportKeys as in C31-C38 | Persist |
| C64 | partial | Save, Load, ImportKeys, ExportKeys as in C31-C38 | Persist |
| C65 | proved | Save, Load, ImportKeys, ExportKeys as in C31-C38 | Persist |
| C66 | partial | Save, Load, ImportKeys, ExportKeys as in C31-C38 | Persist |
| C67 | proved | Save, Load, ImportKeys, ExportKeys as in C31-C38 | Persist |
| C68 | proved | Save, Load, ImportKeys, ExportKeys as in C31-C38 | Persist |
| C69 | proved | shared-memory layer; separation invariant over all histories | Heap |
| C70 | proved | shared-memory layer; separation invariant over all histories | Heap |
| C71 | proved | shared-memory layer; separation invariant over all histories | Heap |
| C72 | proved | Assert, Encipher; for all settings | Settings |
| C73 | proved | keys and messages --list; picked lists, columns | Cli |
| C74 | proved | keys and messages --list; picked lists, columns | CliMore |
| C75 | partial | keys command over a file system; step invariant, frame | Cli |
| C76 | proved | keys command over a file system; step invariant, frame | Cli |
| C77 | partial | keys command over a file system; step invariant, frame | Cli |
| C78 | proved | keys command over a file system; step invariant, frame | Cli |
| C79 | proved | keys command over a file system; step invariant, frame | Cli |
| C80 | proved | keys command over a file system; step invariant, frame | Cli |
| C81 | partial | keys command over a file system; step invariant, frame | Cli |
| C82 | partial | keys --import and --export; handover between two users | Cli |
| C83 | proved | keys --import and --export; handover between two users | Cli |
| C84 | proved | messages command; step invariant, frame | CliMore |
| C85 | proved | messages command; step invariant, frame | CliMore |
| C86 | proved | messages command; step invariant, frame | CliMore |
| C87 | proved | keys --import | Cli |
| C88 | partial | SummaryOfMessages; columns, witness | CliMore |
| C89 | partial | histories of calls of the program; invariant over histories, witnesses | CliMore |
| C90 | proved | histories of calls of the program; invariant over histories, witnesses | CliMore |
| C91 | proved | pfk --change, initialize | CliMore |
| C92 | proved | pfk --change, initialize | CliMore |
| C93 | partial | pfk --change, initialize | CliMore |
| C94 | partial | keys command with several operations; relation between memories with different addresses | Cli |
| C95 | proved | all commands with a wrong key | CliMore |
| C96 | proved | keys command with several operations; relation between memories with different addresses | Cli |
| C97 | proved | Model_Concurrent; invariant over all schedules and numbers of goroutines, replay of one goroutine on a store of the keys it took | Concurrent |
| C98 | partial | Model_Concurrent; invariant over all schedules and numbers of goroutines, replay of one goroutine on a store of the keys it took | Concurrent |
| C99 | proved | Model_Ask; induction on the lines typed in | Ask |

## 4. Findings

Properties that are false of the code, or proved in part only:

* **C05 AppendTrigraphByteByKey is total.** The claim is false of the code: the key index is compared with the length of the output instead of the key, so the call panics when len(key) <= index <= len(output). Proved: the exact panic condition; otherwise all-or-nothing.
* **C10 An explicitly chosen key is one-time too.** False of the code: EnrichWithKey does not mark a preset key used; later messages and even a later part of the same message are enciphered with it. Proved: the key was unused and not compromised; all further keys are distinct, were unused and become used.
* **C102 --output never destroys a store.** False of the code: the output file is truncated without asking, even if it is the file of the store. c101: every other file is left alone.
* **C103 Success of --output means that the file was written.** False of the code: without a selected key, a PDF is not written and the call succeeds (text: an error); with --list it succeeds for both types. c101: with a selected key, success means that the file holds the selection.
* **C105 Answers that are accepted make a station.** False of the code: a group size above the width of keys (--key-columns, 30) is accepted and refused after the last question; the expiry date is not checked. c105_partial: otherwise the station is written (or the random source fails).
* **C106 --expire of initialize sets the expiry date of the initial keys.** False of the code: with --expire alone the questions are asked and the answer, even an empty one, replaces the option. True if --call is given.
* **C11 Compromised keys are never used for sending.** False of the code for automatically chosen keys (FindKey does not look at Compromised). Proved for the preset key.
* **C113 Conflicting ways to give the new key are refused.** False of the code: with --random and --new-pfk together the given key is silently ignored and a random one used. c113_refused: --new with either of the others is refused.
* **C115 No file gets a weak password.** False of the code: passwords given with --new are not checked (nor those given with --password to initialize). c115_typed: a password that is typed in is strong; c100_weak: pfk --gen-pfk checks --password.
* **C118 The text of a radiogram does not change who sent it.** False of the code: 'AB DE ZY MEET DE KARL AT NOON' is read as sent by KARL; 'DE VJ STOP = K' has the text 'K'; a radiogram quoted in the text of another replaces it. True under the conditions of C116 and C117.
* **C12 A failed Encipher releases its keys.** Proved for every failure incl. panic: the store is exactly as before (value level); in shared memory, after any history, everything but the IDs of keys is as before. False: ciphertext of the first parts is left in the message; the ID of the chosen key is overwritten (KeyId shares its array).
* **C120 Expired keys are not used for sending.** False of the code: no function of the cipher looks at expiry dates; c120_refuted enciphers with the only key, which has expired. The true counterpart is C121.
* **C122 WithOverwriteExistingKeysOnImport replaces keys without asking.** False of the code: the option acts on the temporary instance that loads the file, ImportKeys looks at the setting of the receiver (c122_refuted, both cases side by side). c36_import says what the setting of the receiver does, c123_options that the option does nothing.
* **C125 Ciphertexts under keys named by the user tell nothing but their lengths.** False of the code: Encipher does not mark a key named by the user as used (C10), so that two messages can be enciphered under it; c124_explicit_key_refuted sends the same text twice, and different ciphertexts do not occur. It holds for keys chosen by Encipher (C124).
* **C13 Enough keys means Encipher succeeds.** False of the code with default sizes: a table change just before a key is full overruns it and Encipher fails. Proved: short texts, texts of any length that change neither table nor case (keys of any lengths), classification of the failures; out of keys is reported only when all eligible keys are used up. C130 tells the exact outcome for every text.
* **C134 An altered message is noticed.** False: ciphertexts are not authenticated. c134_noticed_refuted: HELLO altered in one letter is read HELKO without an error. c134_alter: who knows that a letter of the ciphertext stands for a capital letter (but Q, Z) can change the ciphertext, without the key, so that any other such letter or a space is read there and nothing else changes.
* **C137 Files with keys or messages are for their owner only.** False of PDF files: gofpdf creates them with os.Create (0666 less the umask), so with umask 022 everybody can read the keys (c137_pdf_refuted). c137_save, c137_text: true of the store, of exports (written by Save) and of text output. c137_kept: no output changes the permissions of a file that is there; a file made readable for others before stays so.
* **C14 Unsupported characters are reported, not fatal.** False of the code: Encipher panics. Proved: it never succeeds and all keys are as before.
* **C144 A message prepared with EnrichWithKey can be enciphered, an enciphered one is left alone.** false: EnrichWithKey marks the key used and Encipher then rejects it as used, for every message and every text put into it (c144_stuck); EnrichWithKey of a message just enciphered returns an error for the same reason
* **C146 An enciphered message cannot be enciphered again.** proved for messages whose key Encipher chose itself (c146_once); false if the user named the key, because it is not marked used: the second text is enciphered with the same key text (c146_named_refuted)
* **C147 A message whose enciphering failed can be enciphered later.** false: the first parts of the ciphertext may be left in the message and then every later attempt fails with any store (c147_later_refuted, c147_stray_cipher); the named key is wiped from the message, a later attempt chooses another (c147_named_refuted). True if no key was named and no ciphertext is left: store and message are then as before the call (c147_later_partial)
* **C149 Old text is replaced, also if the random source fails.** false: if the random source fails the old text cannot be overwritten, is left in place, and the new text is appended to it; the call reports success. The exact outcome is c149_decipher_exact and c149_encipher_exact; with enough random data the old text makes no difference (c149_replaced_partial)
* **C151 Returned keys and messages are those of the store.** refuted: the returned message is a copy that shares its arrays with the one in the store. TryDecipherPlainText on it succeeds, and the text in the store is overwritten with random data; the cipher text is lost. The exact effect is proved after any history. A key marked compromised through the returned pointer is still used for enciphering.
* **C152 Changing the keepers of one key changes no other.** refuted for the key NewKey returns and the one in the store (likewise an exported key), which have the same slice: removing a keeper of one leaves a duplicate in the other, and two additions overwrite each other. Proved for slices without common memory, which new keys have.
* **C153 Listing keys and messages changes nothing.** refuted: with two comments cut from one buffer, listing overwrites the second with spaces. Proved if no slice has elements in the spare capacity of a slice that is listed.
* **C154 A key found stays the key in the store.** refuted: DeleteKey moves the last key to the place of the deleted one, so the pointer of the last key then points outside the store (marking it compromised has no effect) and the pointer of the deleted key points to another key (which is marked instead); a key added to a full array moves all keys. What holds is C155.
* **C156 A key handed over serves one message only, whichever station sends.** refuted: Encipher marks the key used in the sender's store only, and import makes the exporter a keeper of the copies, so both stations choose the same key for a message to the other; a message of which one key is missing marks none of its keys used when it is read; and keys imported again with overwrite come back unused. What holds is C157.
* **C159 What is sent in a net of stations tells nothing about the texts.** refuted: two stations that share keys and do not read each other's messages first encipher with the same key; that their texts are the same can be seen. What holds is C160.
* **C164 Deleting a key keeps the order in which keys are used.** False: the last key takes the place of the deleted one (keys.go:92-93), and after a used key was deleted the next message gets the newest key instead of the next. Proved: the exact order after deleting one key.
* **C22 Keepers behave like a set of call-signs.** RemoveKeeper removes only the first occurrence, so the claim is false for keeper lists with a repeated call-sign; proved without repetitions.
* **C23 Own call-sign is not a keeper of a new key.** False if the own call-sign is given twice (only one occurrence is removed); proved if no vetted call-sign is repeated.
* **C31 Save never touches a file it may not overwrite.** Proved except for a PFK that has been wiped: then the existing file is truncated and Save panics (c31_wiped_key_refuted).
* **C32 Save then Load restores the store.** Proved if all writes succeed and no setting is zero; a zero setting is not stored and comes back as the default. That a wrong key cannot open the file is an assumption on the encryption library.
* **C33 Save is crash-safe.** False of the code: the file is truncated first. Proved: at every crash point the file is the old one or a beginning of the new one, other files are untouched.
* **C34 Save reports failure to store.** False of the code: errors of the deferred Close calls, where most data is written, are ignored. Proved if no such error occurs.
* **C35 A wiped or keyless instance cannot destroy the file.** False of the code after Wipe and for the export of an instance without PFK: the file is truncated, then Save panics. Proved for an instance whose PFK was never set.
* **C36 ImportKeys imports exactly what it should.** Proved for files and stores with unique key IDs. False part: if the file carries our own call-sign, our call-sign becomes a keeper.
* **C37 Importing with the current PFK leaves the instance usable.** False of the code: wiping the incoming instance wipes the shared PFK and salt; the next Save destroys the file. True if the options do not share pointers: C67.
* **C38 Exported instances are independent.** False of the code: the exported keys share memory with the source, wiping the export destroys the source's keys. Proved: contents and settings of the export for all stores and filters; exporting alone changes nothing.
* **C39 Deleting or wiping a message leaves keys alone.** False of the code: three ways of damaging other items. Proved: after any history only IDs of keys, key IDs of messages and keepers can be damaged; exactness when nothing is shared.
* **C41 NewTextMessage accepts an optional key ID.** False of the code: with exactly two arguments an outgoing message always panics (msg[2]); with three the third is the key ID, and then the claim is proved.
* **C43 Parsed radiograms are well-formed.** False of the code for recipients separated by a tab and for the Kelvin sign; proved without these characters, and the text part for all strings.
* **C44 The printed traffic example is understood by the receiver.** False for a sender named DE (its traffic example is read with the DTG as sender). True for every other sender: C60.
* **C45 keys command filters select what they say.** False of the code: --invalid selects the valid keys, --valid overflows beyond 106751 days. Proved for the other options and up to 106751 days.
* **C47 Wiping leaves nothing.** Proved (noninterference): memory and result after wiping do not depend on what the wiped slices held, also with a failing random source. False: Message.Wipe leaves the radiogram with the plaintext; Wipe(b) and the PFK survive a failing random source.
* **C48 Concurrent enciphering never shares a key.** False of the code: FindKey and the assignment of Used are separate and no lock is taken, so two goroutines can find the same key. c97_different_keys: true if goroutines are not interrupted between the two nor while giving keys back.
* **C49 Asserted settings are usable.** False of the code: Assert accepts a group size equal to the key length, with which nothing can be enciphered. Proved for a group size below the key length.
* **C51 PDF and text output contain every selected item once, in order.** False if an item does not fit a page: it is printed before items preceding it, and the row count of the page being filled is lost. Every item is printed exactly once; order and row limit hold if all items fit (C61).
* **C53 ColumnSizes works without headers.** False of the code: it panics when a row has more columns than there are headers (bound check off by one); proved otherwise.
* **C64 A mistyped password can be corrected.** False of the code: the key derived from the wrong password stays set, Load does not ask again.
* **C66 Load replaces what was there.** False of the code: gob decodes into the existing array and leaves fields that are zero in the file. True for a fresh instance (C32).
* **C75 The keys command touches only keys, only in its file.** Proved except for an export to the own file, which replaces it (refuted).
* **C77 keys --delete --yes deletes the selected keys.** False of the code: with --yes filter options other than --id are ignored and nothing is deleted. Proved for --id.
* **C81 Success means done.** False of the code: if the user declines to overwrite, success is reported. Proved otherwise.
* **C82 keys --import works with the key the global options give.** False of the code: --import uses the default salt and a typed-in password. c82_import says exactly when it succeeds.
* **C88 The columns of the message summary are separated.** False of the code for a message without sender; proved otherwise.
* **C89 No two printed messages share a key.** False of the code: the message is printed before the file is written; files are not locked; a deleted used key can be imported again. c90_history is the case without these.
* **C93 A station has the call-sign given.** False of the code: a call-sign of one character is dropped without an error. Proved for two and more.
* **C94 Operations given together are all done.** False of the code: --delete ends the call if there is no key (or none selected), --new is then not done. c96_in_turn: otherwise every operation is done as if called alone.
* **C98 It is enough to find and mark keys without interruption.** False of the code: after a failure Encipher marks the key of the message unused twice; in between another goroutine can take it.

## 5. What is modelled and what is not

| file | modelled | not modelled |
|------|----------|--------------|
| diana/diana.go, reciprocal-table.txt | all | |
| crand/crand.go | Int63, Uint64, ReadRunes, and of math/rand (Go 1.19) on this source: Uint32, Int31, Int31n, Int63n, Intn, Perm, Shuffle, Float64, Float32 | Seed (no effect), Read (only through salt and PFK generation), Int (is Int63 on 64-bit machines), NormFloat64, ExpFloat64 |
| cipher.go | all live code: codec, FindKey, GetKey, MarkKeyUsed, EnrichWithKey, Encipher, Decipher, TryDecipherPlainText | functions in comments (reset of a Message, Encode, Decode); texts of errors; warnings on stderr |
| functions.go | TrimRightRuneFunc, RandomAlnumRunes, groups, needle tests, vetting, EqualRunes(Fold), column sizes, padding, HighestInt, LowestInt, RuneCopy, ByteCopy | IsTerminal (a flag of the environment), SetMinimumPasswordEntropyBits, RunePtr, BytePtr |
| keys.go | everything that reads or changes keys, summaries | GoString, GetInstance, SetInstance (back pointers), one-line accessors |
| krypto431.go | types, Wipe family, New, options, Assert, SetCallSign, Wipe and Close of an instance | WithMutex (the mutex is never locked), ZeroWipe variants (`useCrandWipe` is true) |
| messages.go | NewTextMessage, ParseRadiogram with its regular expressions, IDs, recipients, DeleteMessage, summaries, Groups | PromptNewTextMessage and NewTextMessageFromReader (they pass what is entered to NewTextMessage), GoString |
| persistence.go | setters, key derivation as a function, Save, Load, ExportKeys, ImportKeys, GenerateSalt, GeneratePFK | entropy check (any function); the password dialogues are modelled in Model_Ask.v, elsewhere their result is an answer of the environment |
| print.go | coding legend, body of Message.String with the traffic example, KeysAsText, MessagesAsText, distribution over pages, writing of the files and their permissions (Model_Modes), layout of Key.String (Model_Canvas) | head of Message.String, PDF drawing |
| cmd/krypto431 | keys and messages with --output, the whole pfk command (Model_Pfk), initialize with its questions, salt and PFK options | urfave/cli parsing, an operation given explicitly as off (`--list=false`, `--new 0`: the code opens the file and does nothing where the model only shows help; no file changes either way), the library survey (assumed as stated in Model_Initialize), output on the screen other than listed lines, the new message and printed keys and salts |
| platform files, fonts | | all |

Simplifications are stated at the definitions. The main ones: times are
integers and one command sees one moment; back pointers (`instance`) are not
represented; the command line layer works on values (C69-C71 say what sharing
of memory can do within one process); loading into a store that already holds
keys is modelled on the value layer only; a persistence file that fails to
decode partway is taken to leave the instance unchanged, where gob may have
filled in some fields already; option constructors check their arguments when
they are applied.

## 6. Trusted base

* Coq 8.16.1 kernel, including `vm_compute` (used for refutation witnesses,
  examples and finite tables).
* The statements in `Props_*.v` with `Spec*.v`, and the correspondence of
  `Model_*.v` to the Go text, which was written by reading the code.
* Axioms: none. `Print Assumptions` is run under each of the 398 theorems in
  `Props_*.v` during the build and prints "Closed under the global context" for
  every one. No axiom, section-less variable or admitted proof is used; the
  standard library modules imported bring no axiom into any theorem.
