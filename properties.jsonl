{"id": "C01", "title": "DIANA is reciprocal and symmetric", "statement": "For letters x (text) and k (key) in A..Z, TrigraphRune/TrigraphByte succeed, the output is a letter A..Z equal to 'A'+((25-x-k) mod 26), swapping x and k gives the same output, and applying the same key letter to the output gives x back.", "quantifier": "all pairs of letters, for the rune and the byte version, and letterwise for texts of any length", "why_tests_cant": "Tests sample eleven trigraphs; the text version ranges over every length.", "anchors": ["diana/diana.go:TrigraphByte", "diana/diana.go:TrigraphRune"]}
{"id": "C02", "title": "Perfect secrecy of the cipher step", "statement": "For a given plain letter, distinct key letters give distinct cipher letters and every cipher letter is reachable; hence for any encoded text and any equally long letter string there is exactly one key prefix that maps the one to the other.", "quantifier": "all texts and all candidate ciphertexts of every length", "why_tests_cant": "A statement about all 26^n ciphertexts.", "anchors": ["diana/diana.go:TrigraphRune", "cipher.go:Message.Encipher"]}
{"id": "C03", "title": "Trigraph rejects bad input without writing", "statement": "If any pointer is nil or x or y is not in A..Z, TrigraphRune/TrigraphByte return an error and leave the destination untouched; otherwise they return nil.", "quantifier": "all int32 runes, all bytes, all nil/non-nil combinations", "why_tests_cant": "2^64 input pairs.", "anchors": ["diana/diana.go:TrigraphByte", "diana/diana.go:TrigraphRune"]}
{"id": "C04", "title": "Zero key", "statement": "ZeroKeyRune/ZeroKeyByte of a letter c is the unique key letter that enciphers c to c.", "quantifier": "all letters; uniqueness over all key letters", "why_tests_cant": "Uniqueness is a universally quantified claim.", "anchors": ["diana/diana.go:ZeroKeyRune", "diana/diana.go:ZeroKeyByte"]}
{"id": "C05", "title": "AppendTrigraphByteByKey is total", "statement": "For any destination, character, key and index it either appends exactly the trigraph of the character and key[index] and increments the index by one, or returns an error and changes nothing; it never panics.", "quantifier": "all argument combinations including nil pointers and any index", "why_tests_cant": "The out-of-bounds region (index between len(key) and len(writeTo)) is not in the test table.", "anchors": ["diana/diana.go:AppendTrigraphByteByKey"]}
{"id": "C06", "title": "The printed reciprocal table is the cipher", "statement": "The pen-and-paper table embedded in printed keys (reciprocal-table.txt) lists, in row r and column c, the letter TrigraphByte computes for r and c, for all 676 entries, so manual and computed ciphering agree.", "quantifier": "all rows and columns of the embedded table", "why_tests_cant": "No test compares the embedded file with the function.", "anchors": ["diana/reciprocal-table.txt", "diana/diana.go:ReciprocalTable", "print.go:Key.String"]}
{"id": "C07", "title": "Encipher/Decipher round-trip", "statement": "If Encipher succeeds on a message whose text consists of characters of the two printed character tables (upper or lower case), then a station holding the same keys that is given the KeyId and CipherText gets, from Decipher, success and exactly the original text (case, digits, punctuation included), however many key changes the message needed (a message that held an earlier ciphertext is enciphered with a working random source).", "quantifier": "all plaintexts over the alphabet, all group sizes >= 1, all key lengths, all key stores with distinct letter IDs, all recipients, any number of chunks", "why_tests_cant": "Needs every text length, case pattern and key-change position; no encipher test exists in the repo.", "anchors": ["cipher.go:Message.Encipher", "cipher.go:Message.Decipher", "cipher.go:codecState.encodeCharacter", "cipher.go:codecState.decodeCharacter"]}
{"id": "C08", "title": "Ciphertext shape", "statement": "After a successful Encipher (of a message without earlier ciphertext, or with a working random source) the CipherText is non-empty, consists of letters A..Z only and its length is a multiple of GroupSize.", "quantifier": "all messages and stores on which Encipher succeeds", "why_tests_cant": "All lengths and chunkings.", "anchors": ["cipher.go:Message.Encipher", "cipher.go:codecState.pad"]}
{"id": "C09", "title": "Automatic keys are one-time", "statement": "If Encipher of a message without KeyId succeeds, every part of its ciphertext is enciphered with a key that was unused before, whose keepers include all recipients (or that has no keepers if there are none), no two parts share a key, all keys used are marked used afterwards and no other key is changed.", "quantifier": "all messages, recipients, key stores, any number of chunks", "why_tests_cant": "Ranges over all stores and all chunkings.", "anchors": ["cipher.go:Message.EnrichWithKey", "cipher.go:Krypto431.FindKey", "cipher.go:Message.Encipher"]}
{"id": "C10", "title": "An explicitly chosen key is one-time too", "statement": "If Encipher of a message with a preset KeyId succeeds, that key is marked used afterwards, so no later message can be enciphered with it, and it enciphers only one part of the message.", "quantifier": "all messages with a preset KeyId and all stores", "why_tests_cant": "A reuse needs a second message or a multi-part message; no test enciphers.", "anchors": ["cipher.go:Message.EnrichWithKey", "cipher.go:Message.Encipher"]}
{"id": "C11", "title": "Compromised keys are never used for sending", "statement": "Encipher never enciphers with a key marked compromised.", "quantifier": "all messages and stores", "why_tests_cant": "Ranges over all stores.", "anchors": ["cipher.go:Krypto431.FindKey", "cipher.go:Message.EnrichWithKey", "messages.go:Krypto431.NewTextMessage"]}
{"id": "C12", "title": "A failed Encipher releases its keys", "statement": "If Encipher fails or panics, every key that was unused before is unused again, every key that was used before is still used, nothing else about the keys changes and no partial ciphertext is left in the message.", "quantifier": "all messages, stores and failure points (out of keys, too short key, unsupported character, bad key letter)", "why_tests_cant": "Every failure point of every message.", "anchors": ["cipher.go:Message.Encipher"]}
{"id": "C13", "title": "Enough keys means Encipher succeeds", "statement": "If the text is over the alphabet and there are enough eligible keys (of the generated length), Encipher succeeds.", "quantifier": "all texts and all sufficient stores", "why_tests_cant": "Failure depends on which characters straddle the key-change position.", "anchors": ["cipher.go:Message.Encipher", "cipher.go:ControlCharactersNeededToChangeKey"]}
{"id": "C14", "title": "Unsupported characters are reported, not fatal", "statement": "Encipher of a text containing a character outside the character tables returns an error (it does not panic) and leaves the message and the keys as they were.", "quantifier": "all texts with at least one character outside the tables", "why_tests_cant": "All of Unicode.", "anchors": ["cipher.go:codecState.encodeCharacter", "cipher.go:Message.Encipher"]}
{"id": "C15", "title": "Decipher is total and all-or-nothing on key flags", "statement": "For any ciphertext, any KeyId and any store Decipher terminates without panic; on error no key's used flag changes; on success exactly the keys the message was deciphered with become used.", "quantifier": "all rune sequences as ciphertext, all stores", "why_tests_cant": "Arbitrary received traffic.", "anchors": ["cipher.go:Message.Decipher", "cipher.go:codecState.decodeCharacter"]}
{"id": "C16", "title": "TryDecipherPlainText is transactional", "statement": "With a working random source: if TryDecipherPlainText returns an error, PlainText, CipherText, KeyId and all keys are as before; with dryrun it never changes them; if it succeeds, the message has the KeyId, the ciphertext and the text Decipher yields for the letters of the old PlainText.", "quantifier": "all messages (any text), all stores, dryrun or not", "why_tests_cant": "Every possible received text and failure point of Decipher.", "anchors": ["cipher.go:Message.TryDecipherPlainText"]}
{"id": "C17", "title": "Received groups decipher whatever the layout", "statement": "If the letters of a received text, ignoring white space, '=' and letter case, are the key ID followed by the ciphertext of an enciphered message, TryDecipherPlainText recovers the sender's plaintext.", "quantifier": "all enciphered messages and all layouts (grouping, line breaks, case)", "why_tests_cant": "All layouts of all messages.", "anchors": ["cipher.go:Message.TryDecipherPlainText", "functions.go:groups"]}
{"id": "C18", "title": "Generated keys are well-formed", "statement": "NewKey/GenerateKeys add keys whose ID is GroupSize letters A..Z distinct from every other key ID, whose length is KeyLength rounded up to a multiple of GroupSize, all letters A..Z, unused, not compromised, with the vetted keepers; existing keys are unchanged.", "quantifier": "all random sources, stores, group sizes, key lengths, keepers", "why_tests_cant": "All random outcomes.", "anchors": ["keys.go:Krypto431.NewKey", "keys.go:Krypto431.GenerateKeys", "crand/crand.go:Intn"]}
{"id": "C19", "title": "Key letters are unbiased", "statement": "crand.Int63 and crand.Intn(n) map uniformly distributed 64-bit source words to uniformly distributed results: every result in range is produced by the same number of (accepted) source words, and results are always in range.", "quantifier": "all 2^64 source words and all 0 < n < 2^31", "why_tests_cant": "Exact equidistribution cannot be established by sampling.", "anchors": ["crand/crand.go:cryptoRandSource.Int63", "crand/crand.go:Intn", "functions.go:RandomAlnumRunes"]}
{"id": "C20", "title": "Key IDs stay unique", "statement": "In every state reachable by generating, importing and deleting keys from an empty store, no two keys have equal IDs up to letter case.", "quantifier": "all operation sequences, random sources, imported files and overwrite settings", "why_tests_cant": "All histories.", "anchors": ["keys.go:Krypto431.NewKey", "keys.go:Krypto431.DeleteKey", "persistence.go:Krypto431.ImportKeys", "keys.go:Krypto431.ContainsKeyId"]}
{"id": "C21", "title": "DeleteKey deletes exactly the named keys", "statement": "With unique IDs, DeleteKey(ids) removes exactly the keys whose ID equals one of ids up to case, returns their number and keeps all other keys unchanged (in some order).", "quantifier": "all stores and ID lists, including repeated and unknown IDs", "why_tests_cant": "All stores and argument lists.", "anchors": ["keys.go:Krypto431.DeleteKey"]}
{"id": "C22", "title": "Keepers behave like a set of call-signs", "statement": "AddKeeper makes the call-sign a keeper without duplicating it or losing others; RemoveKeeper makes it no longer a keeper and keeps the others; a key without case-insensitive duplicates never acquires one.", "quantifier": "all keeper lists and argument lists", "why_tests_cant": "All sequences of operations.", "anchors": ["keys.go:Key.AddKeeper", "keys.go:Key.RemoveKeeper", "keys.go:Key.ContainsKeeper"]}
{"id": "C23", "title": "Own call-sign is not a keeper of a new key", "statement": "After NewKey the instance's own call-sign is not among the keepers of the key.", "quantifier": "all call-signs and keeper arguments", "why_tests_cant": "All keeper argument lists.", "anchors": ["keys.go:Krypto431.NewKey"]}
{"id": "C24", "title": "FindKey returns the first eligible key", "statement": "FindKey(recipients) returns the first key that is unused, has an ID of GroupSize letters and is kept by all recipients (has no keepers if there are no recipients), returns nil exactly if there is none, and changes nothing.", "quantifier": "all stores and recipient lists", "why_tests_cant": "All stores.", "anchors": ["cipher.go:Krypto431.FindKey", "functions.go:AllNeedlesInHaystack"]}
{"id": "C25", "title": "GetKey and MarkKeyUsed address keys by ID", "statement": "With unique upper-case IDs, GetKey finds a key by its ID regardless of case and surrounding space of the query and fails exactly if there is none; MarkKeyUsed changes only the used flag of that key.", "quantifier": "all stores and queries", "why_tests_cant": "All stores and queries.", "anchors": ["cipher.go:Krypto431.GetKey", "cipher.go:Krypto431.MarkKeyUsed"]}
{"id": "C26", "title": "Message IDs stay unique", "statement": "Every generated message ID is four ASCII letters or digits and differs from every stored message's ID; in every state reachable by creating and deleting messages, IDs are pairwise distinct.", "quantifier": "all histories and random sources", "why_tests_cant": "All histories.", "anchors": ["messages.go:Krypto431.NewUniqueMessageId", "messages.go:Krypto431.NewTextMessage", "messages.go:Krypto431.DeleteMessage", "functions.go:RandomAlnumRunes"]}
{"id": "C27", "title": "Grouping preserves the text and respects the column width", "statement": "Groups/GroupsBlock output, with separators removed, is the input; groups are exactly GroupSize long except possibly the last; no line is longer than the column width (if that is at least GroupSize); there is no trailing separator.", "quantifier": "all texts, group sizes >= 1, column widths, both line-break conventions", "why_tests_cant": "All lengths and widths.", "anchors": ["functions.go:groups", "keys.go:Key.Groups", "messages.go:Message.GroupsBlock"]}
{"id": "C28", "title": "Call-sign vetting normalises", "statement": "VettedKeepers returns non-empty, upper-case call-signs without comma, space or surrounding white space, in order; vetting the comma-joined result gives the same result.", "quantifier": "all argument strings", "why_tests_cant": "All strings.", "anchors": ["functions.go:VettedKeepers", "functions.go:JoinRunesToString"]}
{"id": "C29", "title": "Needle/haystack tests are set tests", "statement": "AllNeedlesInHaystack is true exactly if both lists are non-empty and every needle equals (or equals up to case) an element of the haystack; AnyNeedleInHaystack and AnyOfThem likewise for some element.", "quantifier": "all lists", "why_tests_cant": "All lists.", "anchors": ["functions.go:AllNeedlesInHaystack", "functions.go:AnyNeedleInHaystack", "functions.go:AnyOfThem"]}
{"id": "C30", "title": "EqualRunes/EqualRunesFold are equivalences", "statement": "EqualRunes is true exactly for equal texts (or both nil); EqualRunesFold is an equivalence relation that contains EqualRunes and identifies texts that differ in letter case only.", "quantifier": "all rune slices", "why_tests_cant": "All texts.", "anchors": ["functions.go:EqualRunes", "functions.go:EqualRunesFold"]}
{"id": "C31", "title": "Save never touches a file it may not overwrite", "statement": "Save leaves the file system unchanged whenever the file exists and overwriting was neither enabled nor confirmed, when no file name is set, or when there is no usable file key.", "quantifier": "all instances, file-system states, user answers", "why_tests_cant": "All combinations of settings and environment.", "anchors": ["persistence.go:Krypto431.Save"]}
{"id": "C32", "title": "Save then Load restores the store", "statement": "If Save succeeds, Load by a fresh instance with the same file name and PFK yields the same keys, messages, call-sign and settings; with another PFK Load fails and does not change the instance.", "quantifier": "all instances and PFKs", "why_tests_cant": "All stores.", "anchors": ["persistence.go:Krypto431.Save", "persistence.go:Krypto431.Load"]}
{"id": "C33", "title": "Save is crash-safe", "statement": "If the program is interrupted at any point during Save, the persistence file afterwards holds either the complete old or the complete new store.", "quantifier": "all crash points", "why_tests_cant": "Crash points.", "anchors": ["persistence.go:Krypto431.Save"]}
{"id": "C34", "title": "Save reports failure to store", "statement": "If Save returns nil (and the user did not decline), the complete new store is in the file.", "quantifier": "all patterns of write errors", "why_tests_cant": "Write errors at every point, including while flushing.", "anchors": ["persistence.go:Krypto431.Save"]}
{"id": "C35", "title": "A wiped or keyless instance cannot destroy the file", "statement": "Save on an instance whose PFK has been wiped or was never set returns an error and leaves the file as it was.", "quantifier": "all instances after Wipe/Close, exports from instances without PFK", "why_tests_cant": "History-dependent.", "anchors": ["persistence.go:Krypto431.Save", "krypto431.go:Krypto431.Wipe", "persistence.go:Krypto431.ExportKeys"]}
{"id": "C36", "title": "ImportKeys imports exactly what it should", "statement": "ImportKeys adds exactly the keys of the file that have our group size, pass the filter and either are new or may overwrite; each gets the sender's call-sign as keeper and loses ours; the count returned is the number added; without permission an existing key is never changed.", "quantifier": "all stores, files, filters, answers and settings", "why_tests_cant": "All files and stores.", "anchors": ["persistence.go:Krypto431.ImportKeys"]}
{"id": "C37", "title": "Importing with the current PFK leaves the instance usable", "statement": "After the documented call ImportKeys(f, WithPersistence(file), WithPFK(k.GetPFK()), WithSalt(k.GetSalt())) the instance still has its PFK and salt, so a following Save stores the imported keys.", "quantifier": "all instances and files", "why_tests_cant": "Pointer aliasing between two instances over time.", "anchors": ["persistence.go:Krypto431.ImportKeys", "krypto431.go:WithPFK", "krypto431.go:WipeBytes"]}
{"id": "C38", "title": "Exported instances are independent", "statement": "ExportKeys returns an instance with exactly the keys that pass the filter and the current settings; wiping or editing the exported instance does not change the source instance.", "quantifier": "all stores and filters, all later operations on the export", "why_tests_cant": "Aliasing over histories.", "anchors": ["persistence.go:Krypto431.ExportKeys", "krypto431.go:Krypto431.Wipe"]}
{"id": "C39", "title": "Deleting or wiping a message leaves keys alone", "statement": "DeleteMessage and Message.Wipe change no key in the store; DeleteKey changes no message and no other key.", "quantifier": "all histories of enciphering, importing, deleting", "why_tests_cant": "Slices shared between keys and messages depend on the history.", "anchors": ["messages.go:Krypto431.DeleteMessage", "krypto431.go:Message.Wipe", "cipher.go:Message.EnrichWithKey", "keys.go:Krypto431.DeleteKey"]}
{"id": "C40", "title": "PFK and salt setters validate", "statement": "SetPFKFromString succeeds exactly on 64 hex digits, SetSaltFromString exactly on an even number >= 64 of hex digits; on success GetPFKString/GetSaltString return the (lower-cased) argument; on failure the previous value is kept; GeneratePFK/GenerateSalt output is accepted.", "quantifier": "all strings and random sources", "why_tests_cant": "All strings.", "anchors": ["persistence.go:Krypto431.SetPFKFromString", "persistence.go:Krypto431.SetSaltFromString", "persistence.go:GeneratePFK", "persistence.go:GenerateSalt"]}
{"id": "C41", "title": "NewTextMessage accepts an optional key ID", "statement": "NewTextMessage(radiogram, keyID) does not panic and, for an outgoing message and a valid unused key, enciphers with that key.", "quantifier": "all radiograms, key IDs and stores", "why_tests_cant": "Argument-count dependent panic not covered by tests.", "anchors": ["messages.go:Krypto431.NewTextMessage"]}
{"id": "C42", "title": "NewTextMessage stores exactly one message or none", "statement": "If NewTextMessage returns a message, exactly that message is appended to Messages and earlier messages are unchanged; if it returns an error, Messages is unchanged; an incoming message is stored even if it cannot be deciphered, with its text intact.", "quantifier": "all radiograms and stores", "why_tests_cant": "All inputs and failure points.", "anchors": ["messages.go:Krypto431.NewTextMessage"]}
{"id": "C43", "title": "Parsed radiograms are well-formed", "statement": "If ParseRadiogram succeeds, From is non-empty and consists of upper-case letters, digits and '/', every recipient is non-empty and of the same alphabet, and the text neither starts with white space nor ends in white space, '+' or '='.", "quantifier": "all strings", "why_tests_cant": "All strings.", "anchors": ["messages.go:Krypto431.ParseRadiogram", "messages.go:MessageRegexpShort"]}
{"id": "C44", "title": "The printed traffic example is understood by the receiver", "statement": "The traffic line printed for an enciphered message ('TO DE FROM DTG count = KEY GROUPS = K'), when entered at the receiving station, is parsed to the same recipients, sender and DTG and deciphers to the original text; the group count equals the number of groups including the key group.", "quantifier": "all enciphered messages (up to 9999 groups), recipients and senders", "why_tests_cant": "All messages; interaction of four regular expressions.", "anchors": ["print.go:Message.String", "messages.go:Krypto431.ParseRadiogram", "messages.go:Krypto431.NewTextMessage"]}
{"id": "C45", "title": "keys command filters select what they say", "statement": "The key filter of the CLI selects a key exactly if it matches the documented meaning of the given options (--all, --id, --keepers/--or, --used, --unused, --compromised, --expired, --valid, --invalid).", "quantifier": "all option combinations and keys", "why_tests_cant": "2^8 option combinations times all keys.", "anchors": ["cmd/krypto431/keys.go:keys"]}
{"id": "C46", "title": "Key validity is monotone", "statement": "A key valid for a longer duration is valid for every shorter one, valid keys are not expired and an expired key is not valid for any non-negative duration.", "quantifier": "all times and durations", "why_tests_cant": "All times.", "anchors": ["keys.go:Key.IsValid", "keys.go:Key.IsExpired"]}
{"id": "C47", "title": "Wiping leaves nothing", "statement": "After Key.Wipe, Message.Wipe, Krypto431.Wipe or Wipe(b) no memory reachable from before holds the key material or plaintext, even if the random source fails.", "quantifier": "all keys, messages, instances, random sources including failing ones", "why_tests_cant": "Memory contents via earlier references; RNG failure.", "anchors": ["krypto431.go:Wipe", "krypto431.go:Key.RandomWipe", "krypto431.go:Message.RandomWipe", "krypto431.go:Krypto431.Wipe"]}
{"id": "C48", "title": "Concurrent enciphering never shares a key", "statement": "Two goroutines enciphering different messages on one instance never use the same key.", "quantifier": "all interleavings", "why_tests_cant": "Schedules.", "anchors": ["cipher.go:Message.EnrichWithKey", "cipher.go:Krypto431.FindKey", "krypto431.go:Krypto431"]}
{"id": "C49", "title": "Asserted settings are usable", "statement": "An instance whose settings pass Assert can encipher a one-letter message with a freshly generated key.", "quantifier": "all settings accepted by Assert", "why_tests_cant": "All settings.", "anchors": ["krypto431.go:Krypto431.Assert", "cipher.go:Message.Encipher", "keys.go:Krypto431.NewKey"]}
{"id": "C50", "title": "Summary lines identify keys", "statement": "Every summary line starts with the key's ID in aligned columns, and DeleteKeysBySummaryString of a set of summary lines deletes exactly the keys of those lines.", "quantifier": "all stores with unique letter IDs", "why_tests_cant": "All stores and selections.", "anchors": ["keys.go:Krypto431.SummaryOfKeys", "keys.go:Krypto431.DeleteKeysBySummaryString", "functions.go:predictColumnSizesOfKeys"]}
{"id": "C51", "title": "PDF and text output contain every selected item once, in order", "statement": "KeysPDF/MessagesPDF print every selected key or message exactly once, in store order, and no page gets more rows than fit.", "quantifier": "all selections and item heights", "why_tests_cant": "All sequences of heights.", "anchors": ["print.go:Krypto431.KeysPDF", "print.go:Krypto431.MessagesPDF"]}
{"id": "C52", "title": "Small helpers are exact", "statement": "HighestInt/LowestInt return the extremum, TrimRightRuneFunc removes exactly the maximal matching suffix, RuneCopy/ByteCopy return an equal copy, padding fills to the field length.", "quantifier": "all arguments", "why_tests_cant": "All arguments.", "anchors": ["functions.go:HighestInt", "functions.go:LowestInt", "functions.go:TrimRightRuneFunc", "functions.go:padding"]}
{"id": "C53", "title": "ColumnSizes works without headers", "statement": "ColumnSizes returns the maximum width per column over items and (if given) headers and never panics.", "quantifier": "all tables and header lists", "why_tests_cant": "All tables.", "anchors": ["functions.go:ColumnSizes"]}
{"id": "C54", "title": "A decoded key change cannot corrupt the following text", "statement": "Deciphering a concatenation: after a key-change sequence the decoder is in its initial state, so the text of every part is independent of table and case state of the previous part; padding at the end adds no characters.", "quantifier": "all texts and states", "why_tests_cant": "All states.", "anchors": ["cipher.go:codecState.reset", "cipher.go:codecState.changeKey", "cipher.go:codecState.pad"]}
{"id": "C55", "title": "A parsed radiogram contains only what was entered", "statement": "If ParseRadiogram succeeds, sender and text are contiguous parts of the radiogram (line breaks replaced), in this order after the word DE; recipients come from the part before DE; the sender is non-empty; the text neither starts with white space nor ends in white space, '+' or '='.", "quantifier": "all strings", "why_tests_cant": "All strings against four alternative expressions.", "anchors": ["messages.go:Krypto431.ParseRadiogram", "messages.go:MessageRegexpFull", "messages.go:MessageRegexpMini"]}
{"id": "C56", "title": "Deleting messages removes exactly the named ones", "statement": "DeleteMessage(ids) removes exactly the messages with those IDs and returns how many it removed; all others stay; IDs stay pairwise distinct.", "quantifier": "all stores with distinct IDs and ID lists", "why_tests_cant": "All stores; swap removal while iterating.", "anchors": ["messages.go:Krypto431.DeleteMessage"]}
{"id": "C57", "title": "Call-signs of a plain radiogram are clean", "statement": "If a radiogram without tabs, control line breaks and the Kelvin sign parses, sender and all recipients are non-empty strings of upper-case letters, digits and '/'.", "quantifier": "all strings without those characters", "why_tests_cant": "All strings.", "anchors": ["messages.go:Krypto431.ParseRadiogram", "functions.go:VettedKeepers"]}
{"id": "C58", "title": "Radiograms in the short form are split into their parts", "statement": "A radiogram 'TO TO ... DE FROM DTG COUNT = TEXT = K' is parsed to exactly these recipients, sender, DTG and text, whatever the call-signs (except a sender named DE), for any text of one line that has no '==' and does not begin or end in white space or end in '+' or '='.", "quantifier": "all recipients, senders, date-time groups, counts of up to four digits, texts", "why_tests_cant": "Backtracking of four expressions over all texts.", "anchors": ["messages.go:Krypto431.ParseRadiogram", "messages.go:MessageRegexpShort", "messages.go:MessageTrailRegexp"]}
{"id": "C59", "title": "The printed coding legend is the coding used", "statement": "Under every letter the legend on key pages shows in lines CT1 and CT2 the character this letter stands for in the two tables when deciphering, or the sign of the control function it has.", "quantifier": "all letters, tables, case states", "why_tests_cant": "Agreement of a printed text with the decoder, in all states.", "anchors": ["print.go:KeyFooter", "cipher.go:CharacterTables"]}
{"id": "C60", "title": "The traffic example works for every sender but DE", "statement": "For every enciphered message whose sender is a call-sign other than DE the traffic example has the form 'TO DE FROM DTG count = KEY GROUPS = K' with count the number of groups including the key group, and (up to 9999 groups) NewTextMessage with it at a station holding the keys gives the original text, sender, DTG and recipients.", "quantifier": "all enciphered messages, stores, recipients, senders other than DE", "why_tests_cant": "Composition of enciphering, printing, parsing and deciphering for all messages.", "anchors": ["print.go:Message.String", "messages.go:Krypto431.NewTextMessage"]}
{"id": "C61", "title": "Pages of items that fit", "statement": "If every selected key (message) fits a page, the PDF has them in store order, each once, no page is empty or has more than 87 (65) rows; text output is the items in store order.", "quantifier": "all selections and item heights up to a page", "why_tests_cant": "All sequences of heights.", "anchors": ["print.go:Krypto431.KeysPDF", "print.go:Krypto431.MessagesPDF", "print.go:Krypto431.KeysAsText"]}
{"id": "C62", "title": "Save writes its own file only, exactly when allowed", "statement": "Save writes if and only if a file name resolves, the file can be examined and opened, it is new or overwriting was enabled or confirmed, and a key is set or derived from a typed password; it never changes another file or the keys, messages and settings of the instance.", "quantifier": "all instances, file systems, environments", "why_tests_cant": "All combinations of settings, answers and failures.", "anchors": ["persistence.go:Krypto431.Save"]}
{"id": "C63", "title": "A failed Load changes no keys, messages or settings", "statement": "If Load does not return nil, keys, messages, call-sign and settings are as before.", "quantifier": "all instances, files, keys, failures", "why_tests_cant": "All failures.", "anchors": ["persistence.go:Krypto431.Load"]}
{"id": "C64", "title": "A mistyped password can be corrected", "statement": "After an interactive Load that failed because of a wrong password, Load with the right password succeeds.", "quantifier": "all passwords and files", "why_tests_cant": "Needs a terminal; all histories.", "anchors": ["persistence.go:Krypto431.Load", "persistence.go:Krypto431.DerivePFKFromPassword"]}
{"id": "C65", "title": "Saving and loading in the same instance changes nothing", "statement": "If Save succeeds and all writes succeed, a following Load by the same instance succeeds and leaves keys, messages, call-sign and settings as they are, also settings that are zero and whatever deleted items are still in memory.", "quantifier": "all instances, environments, array contents", "why_tests_cant": "All stores and leftovers of deletions.", "anchors": ["persistence.go:Krypto431.Save", "persistence.go:Krypto431.Load"]}
{"id": "C66", "title": "Load replaces what was there", "statement": "After a successful Load into an instance that already had keys, the keys are exactly those of the file.", "quantifier": "all instances and files", "why_tests_cant": "All pairs of stores.", "anchors": ["persistence.go:Krypto431.Load"]}
{"id": "C67", "title": "Importing with a key of its own leaves PFK and salt alone", "statement": "ImportKeys whose options do not contain the instance's own PFK or salt pointers leaves PFK, salt, file name, messages and call-sign of the receiving instance as they were, whatever the outcome.", "quantifier": "all instances, files, filters, options, random sources", "why_tests_cant": "All option lists and outcomes.", "anchors": ["persistence.go:Krypto431.ImportKeys"]}
{"id": "C68", "title": "Keys are handed over through a file", "statement": "ExportKeys gives an instance with exactly the keys that pass the filter, no messages, and without options the same settings, call-sign, PFK and salt and no file name; saving it and importing the file elsewhere imports exactly from those keys, under that call-sign.", "quantifier": "all stores, filters, options, receivers", "why_tests_cant": "Composition of export, save, load and import for all stores.", "anchors": ["persistence.go:Krypto431.ExportKeys", "persistence.go:Krypto431.ImportKeys", "persistence.go:Krypto431.Save"]}
{"id": "C69", "title": "Shared memory limits what deleting and importing can damage", "statement": "After any history of creating keys, creating text messages, deleting, marking and importing on a store read from a file: DeleteKey removes the same keys as on values and changes of the other keys at most the keepers, of the messages at most the key ID; DeleteMessage removes the same messages and changes of the other messages at most the key ID, of the keys at most the ID; ImportKeys changes of existing keys at most the keepers and of the messages at most the key ID.", "quantifier": "all histories, stores, arguments, random sources", "why_tests_cant": "Which arrays are shared depends on the whole history.", "anchors": ["keys.go:Krypto431.DeleteKey", "messages.go:Krypto431.DeleteMessage", "persistence.go:Krypto431.ImportKeys", "krypto431.go:Key.RandomWipe"]}
{"id": "C70", "title": "Sharing does not affect creating, marking and importing", "statement": "After any history, a successful NewTextMessage, NewKey, MarkKeyUsed and ImportKeys (without overwriting) leave the instance with exactly the contents they would leave if no two slices shared memory, and NewTextMessage returns the same outcome.", "quantifier": "all histories, stores, arguments, random sources", "why_tests_cant": "Which arrays are shared depends on the whole history.", "anchors": ["messages.go:Krypto431.NewTextMessage", "keys.go:Krypto431.NewKey", "cipher.go:Krypto431.MarkKeyUsed", "persistence.go:Krypto431.ImportKeys"]}
{"id": "C71", "title": "Deleting is exact when nothing was imported or enciphered", "statement": "As long as no keys were imported since the file was read, DeleteKey leaves all other keys exactly as they were; directly after the file was read, DeleteKey and DeleteMessage change nothing but the list they delete from.", "quantifier": "all histories without import, stores, arguments, random sources", "why_tests_cant": "Which arrays are shared depends on the whole history.", "anchors": ["keys.go:Krypto431.DeleteKey", "messages.go:Krypto431.DeleteMessage", "persistence.go:Krypto431.Load"]}
{"id": "C72", "title": "Settings are usable exactly if the group size is smaller than the key length", "statement": "Assert accepts an instance exactly if a file name is set, the group size is at least 1, the key length at least 20, the columns at least 85 and the key columns at least the group size. With accepted settings and a group size below the key length, a one-character message is enciphered with a freshly generated key; with a key length not above the group size, Encipher succeeds for no message, however many keys were generated.", "quantifier": "all settings, messages, numbers of generated keys, random sources", "why_tests_cant": "All settings and messages; the failing ones are between two limits checked separately.", "anchors": ["krypto431.go:Krypto431.Assert", "cipher.go:Message.Encipher", "keys.go:Krypto431.NewKey"]}
{"id": "C73", "title": "keys --list shows exactly the selected keys", "statement": "With the right password, key or typed-in password, keys --list prints one line per selected key, in order, in aligned columns (ID, keepers, creation and expiry, used, compromised, comment), and changes no file; with a wrong one it prints nothing. A key is selected by --all, by one of the --id given, or by all other options together, where --invalid selects keys neither compromised nor expired and --valid n compares with n days in nanoseconds as a 64-bit integer.", "quantifier": "all files, options, passwords, keys", "why_tests_cant": "All option combinations, stores and times; what is selected depends on integer overflow far out of test range.", "anchors": ["cmd/krypto431/keys.go:keys", "krypto431.go:Krypto431.SummaryOfKeys"]}
{"id": "C74", "title": "messages --list shows exactly the selected messages", "statement": "messages --list prints one line per selected message, in order, in aligned columns followed by a digest of its text; it changes no file. A message is selected by --all, by one of the --id given, or by --to and --from together.", "quantifier": "all files, options, messages with a sender", "why_tests_cant": "All option combinations and stores.", "anchors": ["cmd/krypto431/messages.go:messages", "messages.go:Krypto431.SummaryOfMessages"]}
{"id": "C75", "title": "The keys command touches only keys, only in its file", "statement": "Whatever the options, answers, passwords and errors, after the keys command the file is a complete file under the same key with the same settings, messages and call-sign, and key IDs are still distinct; no other file but the export file changes.", "quantifier": "all options, inputs, files; export file other than the own file; no write cut short", "why_tests_cant": "All combinations of operations and failures.", "anchors": ["cmd/krypto431/keys.go:keys"]}
{"id": "C76", "title": "keys --new adds the keys asked for", "statement": "keys --new n appends n keys to the file: letters only, ID length the group size, length as configured, unused, uncompromised, with the given or default expiry, IDs distinct from all others; on any error no file changes.", "quantifier": "all files, options, random sources", "why_tests_cant": "Randomness and all store contents.", "anchors": ["cmd/krypto431/keys.go:keys", "keys.go:Krypto431.GenerateKeys"]}
{"id": "C77", "title": "keys --delete --yes deletes the selected keys", "statement": "keys --delete --yes removes exactly the keys the options select.", "quantifier": "all files and options", "why_tests_cant": "All option combinations.", "anchors": ["cmd/krypto431/keys.go:keys"]}
{"id": "C78", "title": "keys --delete removes exactly the picked keys", "statement": "keys --delete offers one line per selected key, and exactly the keys whose lines were picked are removed from the file; on an error or if nothing is selected no file changes.", "quantifier": "all files, options, picks", "why_tests_cant": "The picked lines are parsed back into IDs, for all IDs.", "anchors": ["cmd/krypto431/keys.go:keys", "keys.go:Krypto431.DeleteKeysFromSummaryString"]}
{"id": "C79", "title": "keys --delete --yes with --id removes exactly those keys", "statement": "keys --delete --yes removes exactly the keys whose ID is given with --id, ignoring case, and no key if none is given, whatever the other filter options; on an error no file changes.", "quantifier": "all files and options", "why_tests_cant": "All stores and ID lists.", "anchors": ["cmd/krypto431/keys.go:keys", "keys.go:Krypto431.DeleteKey"]}
{"id": "C80", "title": "keys --export writes exactly the selected keys", "statement": "keys --export writes a file under the same key with exactly the selected keys in order, the settings and call-sign, and no messages; no other file changes. An existing file is overwritten only with --yes or after a yes; on an error it is unchanged.", "quantifier": "all files, options, answers", "why_tests_cant": "All stores, options and file states.", "anchors": ["cmd/krypto431/keys.go:keys", "persistence.go:Krypto431.ExportKeys"]}
{"id": "C81", "title": "Success means done", "statement": "If keys --export ends without an error, the export file holds the selected keys.", "quantifier": "all files, options, answers", "why_tests_cant": "All answers and file states.", "anchors": ["cmd/krypto431/keys.go:keys", "persistence.go:Krypto431.Save"]}
{"id": "C82", "title": "keys --import works with the key the global options give", "statement": "A file whose key the global options give (--pfk, or --salt and --password) can be imported with keys --import.", "quantifier": "all files, options", "why_tests_cant": "Needs a file made with a different salt.", "anchors": ["cmd/krypto431/keys.go:keys", "persistence.go:Krypto431.ImportKeys"]}
{"id": "C83", "title": "Keys are handed over from user to user", "statement": "If one user exports keys with the keys command and another imports a copy of the file, typing in the password, then the receiver has exactly the old keys plus a copy of each key that both users' options select and whose ID length fits; in the copy the sender is a keeper and the receiver is not; everything else of the key is the same.", "quantifier": "all stations, options, passwords; no ID taken at the receiver", "why_tests_cant": "Composition of two runs of the program over all stores.", "anchors": ["cmd/krypto431/keys.go:keys", "persistence.go:Krypto431.ExportKeys", "persistence.go:Krypto431.ImportKeys"]}
{"id": "C84", "title": "The messages command touches only messages and used flags", "statement": "Whatever the options, answers, passwords and errors, after the messages command the file is a complete file under the same key with the same settings and keys, except that keys may have become used and messages were added or deleted; no other file changes. At most one message is printed; if the command succeeds that message is stored and the keys it is enciphered with are marked used.", "quantifier": "all options, inputs, files; no write cut short", "why_tests_cant": "All combinations of operations and failures.", "anchors": ["cmd/krypto431/messages.go:messages"]}
{"id": "C85", "title": "messages --new stores what it prints", "statement": "messages --new with a radiogram of the own station prints one message, enciphered with keys that were unused and not compromised for its recipients; the file then holds it and exactly its keys are newly used. On any error no file changes.", "quantifier": "all files, radiograms, random sources", "why_tests_cant": "All stores and radiograms.", "anchors": ["cmd/krypto431/messages.go:messages", "messages.go:Krypto431.PromptNewTextMessage", "messages.go:Krypto431.NewTextMessage"]}
{"id": "C86", "title": "messages --delete removes exactly the messages named or picked", "statement": "With --yes exactly the messages whose ID is given are removed, otherwise exactly those picked from the list of selected messages; on an error no file changes.", "quantifier": "all files, options, picks", "why_tests_cant": "The picked lines are parsed back into IDs, for all IDs.", "anchors": ["cmd/krypto431/messages.go:messages", "messages.go:Krypto431.DeleteMessage"]}
{"id": "C87", "title": "keys --import adds exactly the selected keys it may", "statement": "keys --import succeeds only if the file was made with the typed-in password and the default salt; then every selected key of fitting ID length is added, except those whose ID is taken and the user does not agree to replace; other keys stay. On an error the file is unchanged.", "quantifier": "all files, options, answers", "why_tests_cant": "All stores and answer sequences.", "anchors": ["cmd/krypto431/keys.go:keys", "persistence.go:Krypto431.ImportKeys"]}
{"id": "C88", "title": "The columns of the message summary are separated", "statement": "SummaryOfMessages gives one line per selected message; ID, DTG, TO and DE are each followed by at least one space and aligned with the header.", "quantifier": "all stores and filters", "why_tests_cant": "All field lengths.", "anchors": ["messages.go:Krypto431.SummaryOfMessages"]}
{"id": "C89", "title": "No two printed messages share a key", "statement": "No two messages printed by calls of the program on one file are enciphered with the same key.", "quantifier": "all sequences and overlaps of calls, all failures", "why_tests_cant": "Failures, overlaps and histories cannot be enumerated.", "anchors": ["cmd/krypto431/messages.go:messages", "cmd/krypto431/keys.go:keys"]}
{"id": "C90", "title": "Over undisturbed histories no key is used twice", "statement": "Over any sequence of keys, messages and pfk calls on one file, one after the other and without import, in which every call that printed a message succeeded, no key serves two messages, no message uses a key that was used before, and every key still in the file that was used is marked used.", "quantifier": "all sequences of calls with all options, answers, failures", "why_tests_cant": "Unbounded histories.", "anchors": ["cmd/krypto431/messages.go:messages", "cmd/krypto431/keys.go:keys", "cmd/krypto431/pfk.go:pfk"]}
{"id": "C91", "title": "pfk --change changes the file key and nothing else", "statement": "pfk --change needs the old key; afterwards the file holds the same store under the new key, made as asked (random, password, hexadecimal or typed in, with the new salt if given); it does nothing if the user declines; on an error no file changes.", "quantifier": "all files, options, answers", "why_tests_cant": "All options, stores, keys.", "anchors": ["cmd/krypto431/pfk.go:pfk", "persistence.go:Krypto431.Save"]}
{"id": "C92", "title": "initialize makes the store asked for", "statement": "initialize writes a new file with the given settings, the number of keys asked for (well formed, distinct IDs) and no messages, under the given key; an existing file is overwritten only with --yes or after a yes; on an error no file changes.", "quantifier": "all options, answers, random sources", "why_tests_cant": "All options and random sources.", "anchors": ["cmd/krypto431/initialize.go:initialize"]}
{"id": "C93", "title": "A station has the call-sign given", "statement": "After a successful initialize the file's call-sign is the one given, in upper case and without surrounding white space.", "quantifier": "all call-signs", "why_tests_cant": "All call-signs.", "anchors": ["cmd/krypto431/initialize.go:initialize", "krypto431.go:WithCallSign"]}
{"id": "C94", "title": "Operations given together are all done", "statement": "If several operations of the keys command are given together and it succeeds, all of them were done.", "quantifier": "all option combinations and files", "why_tests_cant": "All option combinations and stores.", "anchors": ["cmd/krypto431/keys.go:keys"]}
{"id": "C95", "title": "A wrong key changes nothing", "statement": "A keys, messages or pfk call whose options do not give the key of the file ends with an error, changes no file and prints nothing.", "quantifier": "all files, options, keys", "why_tests_cant": "All keys and options.", "anchors": ["cmd/krypto431/keys.go:keys", "cmd/krypto431/messages.go:messages", "cmd/krypto431/pfk.go:pfk"]}
{"id": "C96", "title": "Operations given together do what they do one after the other", "statement": "If there is a key to delete, a keys call with several operations has the result, leaves the files and lists the lines that single calls with one operation each would: --delete, --new, --import, --export, --list, up to the first error.", "quantifier": "all option combinations, files and random sources", "why_tests_cant": "All combinations of operations, and the error of any of them.", "anchors": ["cmd/krypto431/keys.go:keys"]}
{"id": "C97", "title": "Undisturbed goroutines take different keys", "statement": "If no goroutine runs while another one is between finding and marking a key, or between giving back its first and its last key, messages enciphered by different goroutines use different keys, all marked used, and are correct.", "quantifier": "all schedules, numbers of goroutines, messages, stores", "why_tests_cant": "Schedules.", "anchors": ["cipher.go:Message.Encipher", "cipher.go:Message.EnrichWithKey", "cipher.go:Krypto431.FindKey"]}
{"id": "C98", "title": "It is enough to find and mark keys without interruption", "statement": "If no goroutine runs while another one is between finding and marking a key, messages enciphered by different goroutines use different keys.", "quantifier": "all schedules", "why_tests_cant": "Schedules of three goroutines, one of which fails.", "anchors": ["cipher.go:Message.Encipher"]}
{"id": "C99", "title": "A new password is typed in twice", "statement": "The dialogue for a new password returns a password exactly if it is accepted (strong enough, or long enough in the older dialogue) and was repeated at once, after attempts that were refused or mistyped; it reads nothing after that, and otherwise ends with an error.", "quantifier": "all sequences of lines typed in, all checks of strength", "why_tests_cant": "Sequences of refused and mistyped attempts of any length.", "anchors": ["persistence.go:AskAndConfirmPassword", "persistence.go:OldAskAndConfirmPassword", "persistence.go:AskForPassword"]}
{"id": "C100", "title": "The key printed by pfk --generate is the key of the password", "statement": "If pfk --generate prints a key, giving that key with --pfk is the same as giving the password with --password and the salt in force; with --random it is 32 bytes of the random source; a weak password is refused, an accepted one gives a key.", "quantifier": "all passwords, salts, options, random sources", "why_tests_cant": "All passwords and salts, in every way of giving them.", "anchors": ["cmd/krypto431/pfk.go:generatePFK", "persistence.go:DerivePFKFromPassword", "persistence.go:GeneratePFK"]}
{"id": "C101", "title": "--output writes what is selected, and nothing elsewhere", "statement": "keys --output and messages --output write the texts of the selected keys or messages, in the store's order and each once, to the given file (text or PDF by --type or the name's ending), touch no other file, and do otherwise exactly what the same call does without --output; a failure to write is reported.", "quantifier": "all options, stores, file systems, output environments, texts of keys and messages", "why_tests_cant": "All selections and combinations of operations, every failure to open or write.", "anchors": ["cmd/krypto431/keys.go:keys", "cmd/krypto431/messages.go:messages", "print.go:KeysTextFile", "print.go:MessagesTextFile", "print.go:KeysPDF", "print.go:MessagesPDF"]}
{"id": "C102", "title": "--output never destroys a store", "statement": "keys --output leaves a file that holds a store alone.", "quantifier": "all options and file systems", "why_tests_cant": "All file names.", "anchors": ["cmd/krypto431/keys.go:keys", "print.go:KeysTextFile", "print.go:MessagesTextFile", "print.go:KeysPDF", "print.go:MessagesPDF"]}
{"id": "C103", "title": "Success of --output means that the file was written", "statement": "If a keys call with --output succeeds, the output file exists afterwards.", "quantifier": "all options and stores", "why_tests_cant": "Empty selections of every kind.", "anchors": ["cmd/krypto431/keys.go:keys", "print.go:KeysTextFile", "print.go:MessagesTextFile", "print.go:KeysPDF", "print.go:MessagesPDF"]}
{"id": "C104", "title": "The questions of initialize", "statement": "Called without options, initialize does exactly what it does with the answers given as options: every question is asked until an acceptable line is typed in, an empty line stands for the default, keepers may be separated by commas or spaces; if the questions are not all answered nothing is changed and it ends with an error. With one of the options given only a missing call-sign is asked for.", "quantifier": "all sequences of lines typed in, all options", "why_tests_cant": "Sequences of refused answers of any length, all texts.", "anchors": ["cmd/krypto431/initialize.go:initialize"]}
{"id": "C105", "title": "Answers that are accepted make a station", "statement": "If every answer to the questions of initialize has been accepted, a key for the file is given and the file can be written, a station with these settings is written.", "quantifier": "all answers", "why_tests_cant": "All numbers and texts.", "anchors": ["cmd/krypto431/initialize.go:initialize", "krypto431.go:Assert"]}
{"id": "C106", "title": "--expire of initialize sets the expiry date of the initial keys", "statement": "The initial keys made by initialize expire on the date given with --expire.", "quantifier": "all options and answers", "why_tests_cant": "All combinations of options and answers.", "anchors": ["cmd/krypto431/initialize.go:initialize"]}
{"id": "C107", "title": "What one station sends, the other reads", "statement": "If messages --new at one station shows a message of its own, then messages --new at another station that is given the traffic text of this message and holds the unused keys for its recipients succeeds, shows and stores a message with the same plain text, sender, date, recipients, key ID and cipher text; everything else in its store is as before, but for used flags of keys.", "quantifier": "all stores, messages, options and executions", "why_tests_cant": "All texts, all keys, all file contents.", "anchors": ["cmd/krypto431/messages.go:messages", "messages.go:Krypto431.NewTextMessage", "cipher.go:Message.Encipher", "cipher.go:Message.TryDecipherPlainText", "print.go:Krypto431.MessagesAsText"]}
{"id": "C108", "title": "Handing over keys makes traffic readable", "statement": "After keys --export at one station and keys --import of that file at another, with a selection that includes the unused keys for the recipients, the other station reads every message the first one sends: the same text is shown and stored.", "quantifier": "all stores without a common key ID, messages, options and executions", "why_tests_cant": "All texts, all keys, all file contents.", "anchors": ["cmd/krypto431/keys.go:keys", "cmd/krypto431/messages.go:messages", "persistence.go:Krypto431.ExportKeys", "persistence.go:Krypto431.ImportKeys", "messages.go:Krypto431.NewTextMessage"]}
{"id": "C109", "title": "The last option of each kind decides", "statement": "New(opts...) gives each setting the value of the last option for it, or its default; an invalid call sign is passed over; a PFK or salt option with invalid bytes removes an earlier one, also the default salt; bytes given by address are the caller's own, and New changes no memory of the caller.", "quantifier": "all lists of options, all memories", "why_tests_cant": "All sequences of options of any length.", "anchors": ["krypto431.go:New", "krypto431.go:WithPFK", "krypto431.go:WithSalt", "krypto431.go:WithSaltString", "krypto431.go:WithCallSign"]}
{"id": "C110", "title": "Wipe and Close leave neither PFK nor salt", "statement": "With a working random source, after Wipe or Close the bytes of PFK and salt are gone, also for a caller who passed them with WithPFK or WithSalt; no key or message is left and no other memory of the caller is changed.", "quantifier": "all instances, all random sources with enough bytes", "why_tests_cant": "All memories and instances; what is reachable by other references.", "anchors": ["krypto431.go:Krypto431.Wipe", "krypto431.go:Krypto431.Close", "krypto431.go:RandomWipeBytes"]}
{"id": "C111", "title": "Histories of keepers and recipients", "statement": "After any sequence of AddKeeper/RemoveKeeper calls (AddRecipient/RemoveRecipient for a message) on a list without repeated call-signs, exactly those call-signs are in the list whose last mention was an addition, or that were there and were never mentioned, in whatever case; none is repeated; ContainsKeeper/ContainsRecipient say so.", "quantifier": "all lists and sequences of calls", "why_tests_cant": "Sequences of calls of any length.", "anchors": ["keys.go:Key.AddKeeper", "keys.go:Key.RemoveKeeper", "messages.go:Message.AddRecipient", "messages.go:Message.RemoveRecipient", "messages.go:Message.ContainsRecipient"]}
{"id": "C112", "title": "pfk --change does what its options ask for", "statement": "pfk --change with a file that is a complete store: if it succeeds, either the user declined (nothing is changed or printed) or the file holds the same store under the key asked for - 32 fresh random bytes that are printed in hexadecimal, the password of --new, the key of --new-pfk, or a strong password typed in twice, with the new salt - and no other file is changed. It fails, changing nothing, only if the old key, the file, the new key or the answer is missing.", "quantifier": "all stores, options, answers, lines typed in and executions without write errors", "why_tests_cant": "Ranges over all file contents and keys; the command asks questions and encrypts files.", "anchors": ["cmd/krypto431/pfk.go:managePFK", "persistence.go:AskAndConfirmPassword", "krypto431.go:GeneratePFK", "persistence.go:Krypto431.Save"]}
{"id": "C113", "title": "Conflicting ways to give the new key are refused", "statement": "pfk --change refuses any two of --random, --new and --new-pfk with an error; no file is changed and nothing is printed.", "quantifier": "all stores, options and executions", "why_tests_cant": "All combinations of options with all file contents.", "anchors": ["cmd/krypto431/pfk.go:managePFK"]}
{"id": "C114", "title": "pfk without --change writes nothing", "statement": "pfk --gen-pfk, pfk --gen-salt and pfk without options change no file, even if --change is given too; --gen-salt prints one line, 32 fresh random bytes that --salt accepts and means; --gen-pfk prints one line, its key, or nothing and fails; both together fail.", "quantifier": "all options, random sources and files", "why_tests_cant": "All random sources and options.", "anchors": ["cmd/krypto431/pfk.go:managePFK", "cmd/krypto431/pfk.go:generateSalt", "cmd/krypto431/pfk.go:generatePFK", "krypto431.go:GenerateSalt"]}
{"id": "C115", "title": "No file gets a weak password", "statement": "A password the check of strength refuses never becomes the password of a file by pfk --change.", "quantifier": "all passwords, checks of strength, options and lines typed in", "why_tests_cant": "All passwords and dialogues.", "anchors": ["cmd/krypto431/pfk.go:managePFK", "persistence.go:AskAndConfirmPassword", "krypto431.go:Krypto431.SetPFKFromPassword"]}
{"id": "C116", "title": "The documented forms of radiograms are split into their parts", "statement": "A radiogram in a form of the help text - recipients (or none), DE, sender, optionally a Date-Time Group (abbreviated or full), then '== ADDRESSES == INSTRUCTIONS COUNT =', '== ADDRESSES =', 'INSTRUCTIONS COUNT =' (either part may be missing) or nothing, then a text and a sign of ending ('= K', 'K', '= +', '+', '[AR]', '= AR' or none) - is parsed to exactly these recipients, this sender, the time of the group (now, if there is none; an error if the group is no time) and this text, under the stated conditions on the text.", "quantifier": "all recipients, senders, groups, addresses, instructions, counts, texts and endings", "why_tests_cant": "Backtracking of four expressions, tried in order, over all texts.", "anchors": ["messages.go:Krypto431.ParseRadiogram", "messages.go:MessageRegexpFull", "messages.go:MessageRegexpSemi", "messages.go:MessageRegexpShort", "messages.go:MessageRegexpMini", "messages.go:MessageTrailRegexp", "messages.go:HelpTextRadiogram"]}
{"id": "C117", "title": "The shortest form keeps its text", "statement": "'TO DE FROM TEXT' with any of the endings without '=' is parsed to this sender, these recipients, the time now and this text, if the text has no '=', does not begin with six digits, and no word DE (in any case) stands in it between white space.", "quantifier": "all recipients, senders, texts and endings", "why_tests_cant": "Backtracking over all texts.", "anchors": ["messages.go:Krypto431.ParseRadiogram", "messages.go:MessageRegexpMini", "messages.go:MessageTrailRegexp"]}
{"id": "C118", "title": "The text of a radiogram does not change who sent it", "statement": "Whatever the text of a radiogram in a documented form, ParseRadiogram takes sender and text from the places the form gives them.", "quantifier": "all texts, senders and recipients", "why_tests_cant": "Greedy backtracking over all texts.", "anchors": ["messages.go:Krypto431.ParseRadiogram", "messages.go:MessageRegexpMini", "messages.go:MessageRegexpFull"]}
{"id": "C119", "title": "Random draws are used once", "statement": "Keys made one after another, their IDs and the IDs of messages never share a random draw: NewKey, GenerateKeys, NewUniqueMessageId, Encipher and Decipher use consecutive draws, at least one for each character of an ID or key and one for each character they overwrite, and hand on the others; what is made depends on the draws used and on no later one.", "quantifier": "all random sources, stores and messages", "why_tests_cant": "Ranges over all outcomes of the random source.", "anchors": ["keys.go:Krypto431.NewKey", "keys.go:Krypto431.GenerateKeys", "messages.go:Krypto431.NewUniqueMessageId", "cipher.go:Message.Encipher", "cipher.go:Message.Decipher", "crand/crand.go:Intn"]}
{"id": "C120", "title": "Expired keys are not used for sending", "statement": "Encipher never chooses a key whose expiry date has passed.", "quantifier": "all stores, messages and points in time", "why_tests_cant": "All combinations of dates and keys.", "anchors": ["cipher.go:Krypto431.FindKey", "cipher.go:Message.EnrichWithKey", "cipher.go:Message.Encipher", "keys.go:Key.IsExpired"]}
{"id": "C121", "title": "Dates and comments of keys do not matter to the cipher", "statement": "Two stores whose keys differ only in creation date, expiry date and comment treat every message alike: Encipher, Decipher, TryDecipherPlainText and NewTextMessage give the same message, the same outcome, use the same draws and mark the same keys.", "quantifier": "all pairs of such stores, messages, radiograms and random sources", "why_tests_cant": "A statement about pairs of executions over all stores.", "anchors": ["cipher.go:Message.Encipher", "cipher.go:Message.Decipher", "cipher.go:Message.TryDecipherPlainText", "messages.go:Krypto431.NewTextMessage"]}
{"id": "C122", "title": "WithOverwriteExistingKeysOnImport replaces keys without asking", "statement": "ImportKeys called with WithOverwriteExistingKeysOnImport(true) among its options, as its comment recommends, replaces keys whose ID exists already.", "quantifier": "all stores, files and filters", "why_tests_cant": "All combinations of stores, files and options.", "anchors": ["persistence.go:Krypto431.ImportKeys", "krypto431.go:WithOverwriteExistingKeysOnImport"]}
{"id": "C123", "title": "Options about overwriting do not matter to ImportKeys", "statement": "ImportKeys gives the same result, count, error and store with and without any options WithOverwriteExistingKeysOnImport and WithOverwritePersistenceIfExists among its options; whether existing keys are replaced is decided by the setting of the receiving instance.", "quantifier": "all stores, files, filters, option lists, answers and environments", "why_tests_cant": "A statement about pairs of executions over all option lists.", "anchors": ["persistence.go:Krypto431.ImportKeys", "persistence.go:Krypto431.Load", "krypto431.go:New"]}
{"id": "C124", "title": "Ciphertexts tell nothing about the texts but their lengths", "statement": "For messages enciphered one after the other with keys left to Encipher: the letters in the keys decide nothing but the letters in the ciphertexts, and any ciphertexts of the right lengths come from equally many fillings of the keys, whatever the texts are. Two series of messages whose ciphertexts have the same lengths cannot be told apart by whoever does not know the keys.", "quantifier": "all stores, series of messages, ciphertexts and fillings of the keys", "why_tests_cant": "Counts the key stores behind every possible ciphertext.", "anchors": ["cipher.go:Message.Encipher", "cipher.go:Message.EnrichWithKey", "cipher.go:Krypto431.FindKey", "diana/diana.go:TrigraphRune"]}
{"id": "C125", "title": "Ciphertexts under keys named by the user tell nothing but their lengths", "statement": "The same for messages whose key ID is set before Encipher is called.", "quantifier": "all stores, series of messages, ciphertexts and fillings of the keys", "why_tests_cant": "Counts the key stores behind every possible ciphertext.", "anchors": ["cipher.go:Message.Encipher", "cipher.go:Message.EnrichWithKey"]}
{"id": "C126", "title": "New keys make ciphertexts independent of the texts", "statement": "Keys are made by GenerateKeys while all keys before are used up, then messages are enciphered with keys left to Encipher. Of the random sources of any length, those that lead to given key IDs and given ciphertexts are equally many for any two series of messages whose ciphertexts have these lengths.", "quantifier": "all stores, numbers of keys, random sources, series of messages and ciphertexts", "why_tests_cant": "Counts the random sources behind every possible ciphertext.", "anchors": ["keys.go:Krypto431.GenerateKeys", "keys.go:Krypto431.NewKey", "crand/crand.go:Intn", "cipher.go:Message.Encipher", "diana/diana.go:TrigraphRune"]}
{"id": "C127", "title": "Random numbers are in range and fair", "statement": "Intn, Int63n and Int31n return a number from 0 to n-1 for every n that fits their type, Uint32 any 32-bit number. Of the random sources of any length, equally many lead to each of the possible results, and each is possible. They panic for n <= 0 and otherwise only if the source fails.", "quantifier": "all n and all random sources", "why_tests_cant": "Counts random sources; a test of the distribution cannot tell a small bias.", "anchors": ["crand/crand.go:Intn", "crand/crand.go:Int63n", "crand/crand.go:Int31n", "crand/crand.go:Uint32"]}
{"id": "C128", "title": "Random rearrangements are rearrangements, and fair", "statement": "Perm(n) returns the numbers from 0 to n-1 in some order, Shuffle calls its function with indices within the list only, and thereby rearranges the list. Of the random sources of any length, equally many lead to each order, and each is possible.", "quantifier": "all n, lists and random sources", "why_tests_cant": "Counts random sources behind each of n! orders.", "anchors": ["crand/crand.go:Perm", "crand/crand.go:Shuffle"]}
{"id": "C129", "title": "IDs, keys, PFKs and salts are drawn fairly", "statement": "A new message ID is any of the free IDs of four letters and digits, a new key has any free ID and any letters of its length, a generated PFK or salt is any text of 64 hexadecimal digits. Of the random sources of any length, equally many lead to each of these, and each is possible as long as an ID is free.", "quantifier": "all stores, settings and random sources", "why_tests_cant": "Counts random sources; a test of the distribution cannot tell a small bias.", "anchors": ["messages.go:Krypto431.NewUniqueMessageId", "functions.go:RandomAlnumRunes", "keys.go:Krypto431.NewKey", "persistence.go:GeneratePFK", "persistence.go:GenerateSalt"]}
{"id": "C130", "title": "The outcome of Encipher is told by the text and the lengths of the keys", "statement": "What an automatic Encipher (no key named) returns - success, no eligible key, out of keys, key too short for its part, panic - depends on nothing but the text, the group size and the lengths of the unused keys kept by all recipients, in their order; a hand count of code letters (one per character, Z for each change of table, X for each change of case, a key given up when all its letters but a group and two are coded) foretells it. Two stations with keys of the same lengths get the same outcome for the same text, whatever the letters of the keys are.", "quantifier": "all instances, stores, texts (supported or not), random sources, Unicode tables; keys of more than group size + 2 letters", "why_tests_cant": "the outcome turns on where in the text each key happens to end; only a proof relates every text and every list of key lengths to a count made without the program", "anchors": ["cipher.go:548-661", "cipher.go:162-312", "cipher.go:431-456"]}
{"id": "C131", "title": "Radiograms are read without regard to letter case", "statement": "Two radiograms that differ only in the case of letters (long s counting as s) are parsed alike: ParseRadiogram gives both the same recipients, sender, time and message ID and texts that differ at most in case, or fails with the same error for both. If they differ only in case and in the kind of white space within a line (space, tab, form feed, carriage return; the Kelvin sign counting as K), either both or neither is recognised as a radiogram.", "quantifier": "all texts, instances, random sources, Unicode tables, line-break and Date-Time Group libraries", "why_tests_cant": "four expressions and their backtracking, for every text and every choice of case of its letters", "anchors": ["messages.go:48-83", "messages.go:210-249", "functions.go:170-184"]}
{"id": "C132", "title": "What is drawn one after the other is drawn independently", "statement": "The keys made by one call of GenerateKeys are any keys of the right lengths with free and different IDs, each list of (ID, letters) pairs for equally many random sources of every length: the letters of one key say nothing about those of another, and its ID nothing but that no other has it. PFKs and salts generated in any order, and slices filled one after the other by ReadRunes (as when memory is overwritten) or Read, likewise take every list of values equally often.", "quantifier": "all instances with room for the keys, numbers of keys, sequences of calls, results, lengths of the random source", "why_tests_cant": "a statement about every pair of results and every random source, jointly for calls that share the source", "anchors": ["keys.go:46-80", "keys.go:125-141", "crand/crand.go:45-57", "persistence.go:295-321"]}
{"id": "C133", "title": "A message cut short or wrongly received is read as far as it goes", "statement": "If a message is deciphered, every beginning of its ciphertext (of at least one group) is deciphered too, to a beginning of its text. If one letter of a ciphertext is received as another and each of the two stands for a character (not for a change of table, case or key), deciphering has the same outcome and marks the same keys, and the texts differ in that one character only.", "quantifier": "all stores, messages, ciphertexts, positions, letters, texts over any number of keys", "why_tests_cant": "every position of every ciphertext and whatever follows, including changes of key", "anchors": ["cipher.go:316-382", "cipher.go:668-731"]}
{"id": "C134", "title": "An altered message is noticed", "statement": "If a letter of a ciphertext is replaced by another, Decipher fails or gives the text that was sent.", "quantifier": "all stores, messages, positions, letters", "why_tests_cant": "a claim about every alteration of every message", "anchors": ["cipher.go:316-382", "cipher.go:668-731", "diana/diana.go:71-100"]}
{"id": "C135", "title": "Messages can be deciphered again and in any order", "statement": "Deciphering messages one after the other gives for each message, whether it succeeds or fails, the text and outcome that deciphering it first would have given. The keys marked used in the end do not depend on the order. Deciphering a deciphered message again succeeds and changes neither the message nor the store.", "quantifier": "all stores (no condition on them), lists of messages, their permutations and random words", "why_tests_cant": "every sequence of messages that share keys in every way, and every order of it", "anchors": ["cipher.go:460-468", "cipher.go:668-731"]}
{"id": "C136", "title": "Of the store, Decipher sees the IDs and letters of keys only", "statement": "Keepers, used and compromised flags, dates and comments of keys do not change what Decipher gives, in success or failure. Keys added behind the others do not disturb a message that can be deciphered, even if they repeat an ID. The order of the keys does not matter if their IDs are distinct.", "quantifier": "all stores, messages, random words, added keys, orders of the store", "why_tests_cant": "every pair of stores related in these ways", "anchors": ["cipher.go:460-468", "cipher.go:668-731"]}
{"id": "C137", "title": "Files with keys or messages are for their owner only", "statement": "A file that Save, or --output of keys or messages, creates can be read and written by its owner only, whatever the umask. Files that are there keep their permissions.", "quantifier": "all stores, environments, file systems with permissions, umasks, output options and contents, failing writes included", "why_tests_cant": "permissions depend on the umask and on what is there before; tests run with one umask and fresh files", "anchors": ["persistence.go:325-403", "print.go:201-233", "print.go:235-319"]}
{"id": "C138", "title": "What a printed message shows", "statement": "The print of an enciphered message is its head, its text under =TEXT=, the key ID and all groups of the ciphertext under =CIPHER= and the radiogram to send, with the right number of groups, under =TRAFFIC=EXAMPLE=. A message that was not enciphered shows its text only. What stands under =CIPHER=, typed in by a receiver who holds the keys, is read as the text that was enciphered.", "quantifier": "all stores, messages, texts, wrappings that break lines between groups, heads", "why_tests_cant": "every text, number of groups and width; printing on one side and reading on the other", "anchors": ["print.go:90-155", "messages.go:365-368", "cipher.go:741-796"]}
{"id": "C139", "title": "Random floating point numbers lie in [0,1) and are the roundings of fair draws", "statement": "crand.Float64 and crand.Float32 return a number that is at least 0 and less than 1, never 1 itself. Float64 returns the number with 53 significant bits that is nearest to k/2^63, where k is made of 63 fresh bits of the random source, hence within 2^-54 of a fair draw; Float32 returns that number rounded to 24 bits. Every such number can occur. A draw is repeated only if it would be rounded to 1.", "quantifier": "all words of the random source, all results", "why_tests_cant": "Whether rounding can ever give 1, and how far the results are from a uniform draw, is a statement about 2^63 draws; the draws concerned occur once in 2^25 or 2^54 calls, so tests do not meet them.", "anchors": ["crand/crand.go:69-70", "crand/crand.go:32-34"]}
{"id": "C140", "title": "Random data is used once", "statement": "In any series of operations on a store (new keys, new messages, deletions of keys and messages, imports) and when a store is wiped, every operation reads its own piece of the random source, and what it does is decided by that piece and no other random word. In particular the random data with which deleted keys and messages are overwritten says nothing about keys made before or later, as long as the source does not run dry. A key or message is overwritten with as many random words as it has letters.", "quantifier": "all states of memory, all series of operations, all contents of the random source", "why_tests_cant": "Reuse of random data shows neither in the results of a call nor in their distribution one by one; it is a relation between all operations of a history.", "anchors": ["krypto431.go:283-303", "krypto431.go:344-368", "krypto431.go:669-682", "keys.go:46-100", "messages.go:120-164", "messages.go:326-336", "persistence.go:538-612"]}
{"id": "C141", "title": "A key is found by its ID and by nothing else", "statement": "Looking up a key or marking it used by ID succeeds exactly for the texts that spell the ID: letter for letter in either case (dotless i and long s stand for I and S), with any white space before and after. An empty text, a text with a digit, a sign, a control character or an invalid character in it, and a text that is longer or shorter finds no key, so that no other key is used or marked by mistake.", "quantifier": "all key stores, all query texts, all other keys in the store", "why_tests_cant": "Tests look up a few IDs; that no other text finds a key is a statement about all texts, including such with characters whose upper case is a letter.", "anchors": ["cipher.go:458-468", "cipher.go:470-481"]}
{"id": "C142", "title": "Damaged key text is noticed, not used", "statement": "If key text in a store contains something else than the letters A to Z, enciphering with that part of a key returns an error: it does not panic, does not produce a character that is no letter, and leaves the store as before. A ciphertext that was made contains letters only and no other part of a key went into it. A damaged key is not passed over: as long as it is the first key that serves the recipients every attempt fails, also if other keys would do.", "quantifier": "all stores with distinct proper key IDs and any key text, all messages, all random sources", "why_tests_cant": "Tests use generated keys; what happens with any other key text, at any position of a message that spans several keys, and what state is left behind, is a statement about all of them.", "anchors": ["cipher.go:548-661", "cipher.go:624-645", "diana/diana.go:88-100"]}
{"id": "C143", "title": "A message without an ID gets a new one first", "statement": "Enciphering, deciphering, trying to decipher or enriching a message without an ID first gives it a proper message ID that no message of the instance has, using at least four random words, and then does exactly what it does with a message that has that ID. If the random source ends before an ID is found the call panics and has changed neither store nor message.", "quantifier": "all stores, all messages without ID, all random sources, all date functions", "why_tests_cant": "Tests see one ID each; that the new ID never collides and that the rest of the behaviour does not depend on how the ID came about holds for all stores and random sources.", "anchors": ["cipher.go:490-493", "cipher.go:548-553", "cipher.go:668-796", "messages.go:279-289"]}
{"id": "C144", "title": "A message prepared with EnrichWithKey can be enciphered, an enciphered one is left alone", "statement": "After EnrichWithKey succeeded on a message, Encipher of that message succeeds if it would have succeeded without; EnrichWithKey of a message that has ciphertext and a key ID just returns without error, as its comment says.", "quantifier": "all stores, all messages", "why_tests_cant": "The two functions are called in sequence only by users of the library; no test of one of them settles what the other one makes of its result.", "anchors": ["cipher.go:483-542", "cipher.go:548-600"]}
{"id": "C145", "title": "What EnrichWithKey does, exactly", "statement": "EnrichWithKey of a message with an ID uses no random data. It succeeds without changing anything if text is there and the named key has an ID of the configured length and is in the store, neither used nor compromised. It succeeds if no key is named, there is text and no ciphertext, and some key serves all recipients: then the first such key is named in the message and marked used, and nothing else changes. In all other cases it returns an error and changes nothing.", "quantifier": "all stores with distinct key IDs, all messages with an ID, all random sources", "why_tests_cant": "The choice of the first key, the effect on every other key and the unchanged state after each kind of failure are statements about all stores.", "anchors": ["cipher.go:483-542", "cipher.go:431-470"]}
{"id": "C146", "title": "An enciphered message cannot be enciphered again", "statement": "After Encipher succeeded on a message, calling Encipher again on the same message, also after putting another text into it, fails and changes neither store nor message: the same key text never serves two texts this way.", "quantifier": "all stores, all messages, all second texts, all random sources", "why_tests_cant": "A second text is arbitrary, and so is what the first call left in message and store.", "anchors": ["cipher.go:548-661", "cipher.go:490-542"]}
{"id": "C147", "title": "A message whose enciphering failed can be enciphered later", "statement": "If Encipher fails because keys are missing, the message can be enciphered, with the key the user named if one was named, once there are keys.", "quantifier": "all stores, all messages, all random sources", "why_tests_cant": "What a failed call leaves in the message decides about all later calls, with any later store.", "anchors": ["cipher.go:548-661", "cipher.go:510-520"]}
{"id": "C148", "title": "Overwriting working copies does not change results", "statement": "Encipher, Decipher and TryDecipherPlainText overwrite working copies of texts and key IDs with random data before they release them. With enough random data they return the same result, message and store as if they did not. If the random source fails at some point, Encipher still does; Decipher and TryDecipherPlainText then do so or return an error, and a call that returns an error leaves the store as it was.", "quantifier": "all stores, all messages with an ID, all random sources of any length", "why_tests_cant": "The point at which the random source fails is arbitrary, and so are the number of keys and the lengths of the copies; tests run with a source that never fails.", "anchors": ["cipher.go:548-661", "cipher.go:668-740", "cipher.go:741-796"]}
{"id": "C149", "title": "Old text is replaced, also if the random source fails", "statement": "Decipher replaces old plaintext of the message by the deciphered text, as its comment says, and Encipher replaces old ciphertext, whatever the random source does.", "quantifier": "all stores, all messages with an ID, all random sources", "why_tests_cant": "Tests run with a random source that never fails.", "anchors": ["cipher.go:663-670", "cipher.go:548-600", "krypto431.go:173-206"]}
{"id": "C150", "title": "Tables of keys and messages, character by character", "statement": "SummaryOfKeys and SummaryOfMessages return one line per selected key or message, in the order of the store. Every cell is followed by spaces up to the width of its column and one more; the column of keepers or recipients is as wide as its longest entry or its title, the one of comments as the longest comment, the one of senders as the longest sender or its title. The title line has the same columns; only with no key selected the titles are printed without spaces between them.", "quantifier": "all stores, all filters, all date and digest functions", "why_tests_cant": "Widths depend on all selected entries; tests compare a few tables.", "anchors": ["keys.go:278-337", "functions.go:287-371", "messages.go:406-469"]}
{"id": "C151", "title": "Returned keys and messages are those of the store", "statement": "What is done to the message returned by NewTextMessage or the key returned by NewKey (Decipher, TryDecipherPlainText as suggested by the documentation of NewTextMessage, marking as compromised) is done to the one in the store, and Save then saves it.", "quantifier": "all histories, all messages, all random data", "why_tests_cant": "A test looks either at the returned message or at the store; the loss shows only when both are used, and only in shared memory.", "anchors": ["messages.go:120-164", "keys.go:46-78", "cipher.go:668-796"]}
{"id": "C152", "title": "Changing the keepers of one key changes no other", "statement": "AddKeeper and RemoveKeeper on a key (AddRecipient and RemoveRecipient on a message) change the call-signs of that key only, in any order of calls on any number of keys.", "quantifier": "all memories, all capacities chosen by append, all histories", "why_tests_cant": "Depends on spare capacity of slices, which tests cannot see.", "anchors": ["keys.go:144-166", "keys.go:46-78", "messages.go:291-315", "persistence.go:488-517"]}
{"id": "C153", "title": "Listing keys and messages changes nothing", "statement": "SummaryOfKeys and SummaryOfMessages leave all keys and messages, and everything else in memory, as they are, and the lines are those of C150.", "quantifier": "all memories, all capacities chosen by append, all tables", "why_tests_cant": "The cells are padded with append in the memory of the listed items; whether anything is there is not visible to a test.", "anchors": ["functions.go:373-383", "keys.go:310-337", "messages.go:440-469"]}
{"id": "C154", "title": "A key found stays the key in the store", "statement": "The key that GetKey or FindKey returned is the key of the store with that ID for as long as it is there: a change made through the pointer (marking it compromised, for which there is no other function) is made to the key in the store and to no other, also after other keys were added or deleted.", "quantifier": "all stores, all histories", "why_tests_cant": "A test that gets a key, deletes or adds others and then changes it depends on the position of the key and on the capacity of the array, which only a particular number of keys brings up.", "anchors": ["cipher.go:431-468", "keys.go:76", "keys.go:82-100"]}
{"id": "C155", "title": "When pointers to keys can be relied upon", "statement": "The key GetKey or FindKey returns is the key in the store, a change made through it is made to that key and to no other, and this remains so in any history of adding keys within the capacity of the array, marking keys used and changing keys through other pointers. A deletion leaves the pointers to all keys but the deleted and the last one as they are; these two point to the former last key and outside the store.", "quantifier": "all stores, all histories without deletions, all pointers, all changes", "why_tests_cant": "Quantifies over histories and positions; aliasing of array elements is not visible in results of single calls.", "anchors": ["cipher.go:431-481", "keys.go:76", "keys.go:82-100"]}
{"id": "C156", "title": "A key handed over serves one message only, whichever station sends", "statement": "If a station exports keys and another imports them, then whatever messages the two send to each other and decipher, no key serves for two messages: the key a station has used or read a message with is not chosen by the other for a message of its own.", "quantifier": "all histories of exports, imports, messages sent and read between stations", "why_tests_cant": "The stores are in different files and processes; which key each side chooses depends on the whole history of both.", "anchors": ["cipher.go:431-468", "cipher.go:490-663", "cipher.go:668-731", "persistence.go:488-612"]}
{"id": "C157", "title": "When keys are one-time in a net of stations", "statement": "Keys may be generated, exported, imported (again) and deleted at any station in any order. If every station leaves the choice of keys to Encipher and sends only when it has, since it last imported keys, sent or successfully deciphered every message enciphered with a key it has, then no two messages sent in the net share a key (IDs of generated keys being new in the net).", "quantifier": "all nets of stations, all histories, all pairs of messages", "why_tests_cant": "Quantifies over unbounded histories of several stores that are never in one process.", "anchors": ["cipher.go:431-468", "cipher.go:490-663", "cipher.go:668-731", "keys.go:46-140", "persistence.go:488-612"]}
{"id": "C158", "title": "Who can read a message sent in a net of stations", "statement": "At any time, whatever was generated, handed over, deleted or sent before: a station that has keys with the IDs a message was enciphered with deciphers it to the text that was sent (in the representable characters), which marks exactly these keys used; a station that lacks one of them gets an error and its store does not change.", "quantifier": "all nets of stations, all histories, all messages on the air, all stations", "why_tests_cant": "Quantifies over histories in which keys are copied between stores any number of times.", "anchors": ["cipher.go:490-663", "cipher.go:668-731", "cipher.go:470-481", "persistence.go:488-612"]}
{"id": "C159", "title": "What is sent in a net of stations tells nothing about the texts", "statement": "Somebody who hears all messages sent between the stations of a net and knows everything but the letters of the keys learns nothing about the texts but the lengths of the ciphertexts: whatever is sent, for each sequence of ciphertexts of these lengths there are equally many fillings of the keys with which it would have been sent.", "quantifier": "all nets of stations, all histories, all sequences of ciphertexts", "why_tests_cant": "Counts the fillings of all keys of the net for every possible sequence of ciphertexts; no run shows what other keys would have given.", "anchors": ["cipher.go:431-468", "cipher.go:490-663", "diana/diana.go:TrigraphRune", "persistence.go:488-612"]}
{"id": "C160", "title": "What is sent in a net whose stations read before they send tells nothing about the texts", "statement": "If every station leaves the choice of keys to Encipher and sends only when it has, since it last imported keys, sent or deciphered every message enciphered with a key it has, then, keys being exported, imported and deleted at any station in any order without regard to their letters: had the keys had other letters, the same messages would have been sent with the same keys; each sequence of ciphertexts of these lengths would have been sent for equally many fillings of the keys, namely 26 to the power of the key letters left over. So two conversations with ciphertexts of the same lengths cannot be told apart by what is heard.", "quantifier": "all nets of stations, all such histories, all sequences of ciphertexts, all fillings of the keys", "why_tests_cant": "Counts the fillings of all keys of the net for every possible sequence of ciphertexts over unbounded histories of several stores.", "anchors": ["cipher.go:431-468", "cipher.go:490-663", "cipher.go:668-731", "diana/diana.go:TrigraphRune", "keys.go:82-100", "persistence.go:488-612"]}
{"id": "C161", "title": "A printed key shows the whole key, beside the table and above the legend", "statement": "The text of a key (Key.String) shows below its head all letters of the key, in order and in groups, at the left of the rows; nothing else stands there, and at least three blanks separate them from the reciprocal table. The reciprocal table and the coding legend are shown completely and nothing is put over them, whatever the length of the key, the group size and the two column settings are; for the legend it is enough that it is not wider than the table, the gap and one group together, as is the case for keys and group sizes from three letters on.", "quantifier": "all keys, group sizes, column settings, texts of table and legend, heads of the page", "why_tests_cant": "A test prints a few keys; overlapping depends on the lengths of key, table and legend and on two settings.", "anchors": ["print.go:42-85", "functions.go:57-89", "keys.go:194-200"]}
{"id": "C162", "title": "What is heard in a net tells nothing about the texts, whatever the random source gave", "statement": "One station of a net generates all keys (GenerateKeys); then keys are exported, imported and deleted without regard to their letters and messages are sent and read in any order, every station leaving the choice of keys to Encipher and sending only when it has, since it last imported keys, sent or deciphered every message enciphered with a key it has. Then any ciphertexts are heard for equally many outcomes of the random source (with the same key IDs) for two conversations whose ciphertexts have the same lengths: who hears everything and knows the key IDs cannot tell which was held.", "quantifier": "all nets without keys, generating stations, settings, random sources, conversations, sequences of ciphertexts", "why_tests_cant": "A statement about the number of random sources, and about all conversations between all stations of a net.", "anchors": ["keys.go:46-140", "cipher.go:431-468", "cipher.go:490-663", "cipher.go:668-731", "keys.go:82-100", "persistence.go:488-612", "crand/crand.go"]}
{"id": "C163", "title": "Deleting keys affects just the messages that need them", "statement": "A message that a station can read needs certain keys of the store, those that reading it marks used and no others. After DeleteKey with any IDs: if none of the needed keys was named, Decipher gives the same text and marks the same keys used; if one was named, in either letter case, Decipher returns an error and changes nothing in the store.", "quantifier": "all stores as key generation makes them, messages that can be read, lists of IDs to delete", "why_tests_cant": "Every set of deleted keys against every message, however many keys it runs over; which keys a message needs is known only from reading it.", "anchors": ["keys.go:82-100", "cipher.go:668-731"]}
{"id": "C164", "title": "Deleting a key keeps the order in which keys are used", "statement": "DeleteKey of one key leaves the others in their order, so that the next message gets the key it would have got before.", "quantifier": "all stores, IDs to delete, messages", "why_tests_cant": "Every store and every place of the deleted key; the effect shows in a later Encipher.", "anchors": ["keys.go:82-100", "cipher.go:431-468"]}
