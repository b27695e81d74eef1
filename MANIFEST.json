{
 "claims": [
  {
   "property": "C01",
   "status": "proved",
   "theorems": [
    "c01_trigraph_rune_value",
    "c01_trigraph_byte_value",
    "c01_symmetric",
    "c01_reciprocal",
    "c01_reciprocal_text"
   ],
   "note": ""
  },
  {
   "property": "C02",
   "status": "proved",
   "theorems": [
    "c02_perfect_secrecy"
   ],
   "note": ""
  },
  {
   "property": "C03",
   "status": "proved",
   "theorems": [
    "c03_rune_rejects",
    "c03_byte_rejects",
    "c03_byte_rune_agree"
   ],
   "note": ""
  },
  {
   "property": "C04",
   "status": "proved",
   "theorems": [
    "c04_zero_key"
   ],
   "note": ""
  },
  {
   "property": "C05",
   "status": "partial",
   "theorems": [
    "c05_total_refuted",
    "c05_append_partial",
    "c05_append_works"
   ],
   "note": "The claim is false of the code: the key index is compared with the length of the output instead of the key, so the call panics when len(key) <= index <= len(output). Proved: the exact panic condition; otherwise all-or-nothing."
  },
  {
   "property": "C06",
   "status": "proved",
   "theorems": [
    "c06_table",
    "c06_table_size"
   ],
   "note": ""
  },
  {
   "property": "C07",
   "status": "proved",
   "theorems": [
    "c07_roundtrip",
    "c07_roundtrip_any"
   ],
   "note": "For a store as key generation makes it (distinct IDs of GroupSize letters, key text of letters). If the message held an earlier ciphertext, the random source used for wiping it must not fail (otherwise the new ciphertext is appended to the old)."
  },
  {
   "property": "C08",
   "status": "proved",
   "theorems": [
    "c08_ciphertext_shape"
   ],
   "note": "Same remark on an earlier ciphertext as C07."
  },
  {
   "property": "C09",
   "status": "proved",
   "theorems": [
    "c09_automatic_keys_one_time"
   ],
   "note": ""
  },
  {
   "property": "C10",
   "status": "partial",
   "theorems": [
    "c10_explicit_key_one_time_refuted",
    "c10_same_message_refuted",
    "c10_explicit_key_partial"
   ],
   "note": "False of the code: EnrichWithKey does not mark a preset key used; later messages and even a later part of the same message are enciphered with it. Proved: the key was unused and not compromised; all further keys are distinct, were unused and become used."
  },
  {
   "property": "C100",
   "status": "proved",
   "theorems": [
    "c100_same_key",
    "c100_random",
    "c100_weak",
    "c100_prints"
   ],
   "note": "kdf_bytes: the derived key is a list of bytes."
  },
  {
   "property": "C101",
   "status": "proved",
   "theorems": [
    "c101_keys_text",
    "c101_keys_pdf",
    "c101_messages_text",
    "c101_messages_pdf",
    "c101_keys_beside",
    "c101_messages_beside",
    "c101_keys_without",
    "c101_messages_without"
   ],
   "note": "Parameters: UTF-8, gofpdf, blox, Key.String, Message.String. PDF: in order if every text fits a page (see C51). The message theorems are without --list, which deciphers first; c101_messages_beside is with any options."
  },
  {
   "property": "C102",
   "status": "partial",
   "theorems": [
    "c102_own_file_refuted",
    "c101_keys_text",
    "c101_keys_pdf"
   ],
   "note": "False of the code: the output file is truncated without asking, even if it is the file of the store. c101: every other file is left alone."
  },
  {
   "property": "C103",
   "status": "partial",
   "theorems": [
    "c103_pdf_refuted",
    "c103_list_refuted",
    "c101_keys_text",
    "c101_keys_pdf"
   ],
   "note": "False of the code: without a selected key, a PDF is not written and the call succeeds (text: an error); with --list it succeeds for both types. c101: with a selected key, success means that the file holds the selection."
  },
  {
   "property": "C104",
   "status": "proved",
   "theorems": [
    "c104_answers",
    "c104_unanswered",
    "c104_call_only",
    "c104_no_call",
    "c104_no_questions"
   ],
   "note": "The behaviour of the library survey is assumed as stated in Model_Initialize. What the command then does: C92."
  },
  {
   "property": "C105",
   "status": "partial",
   "theorems": [
    "c105_groups_refuted",
    "c105_date_refuted",
    "c105_partial"
   ],
   "note": "False of the code: a group size above the width of keys (--key-columns, 30) is accepted and refused after the last question; the expiry date is not checked. c105_partial: otherwise the station is written (or the random source fails)."
  },
  {
   "property": "C106",
   "status": "partial",
   "theorems": [
    "c106_expire_refuted",
    "c106_expire_partial"
   ],
   "note": "False of the code: with --expire alone the questions are asked and the answer, even an empty one, replaces the option. True if --call is given."
  },
  {
   "property": "C107",
   "status": "proved",
   "theorems": [
    "c107_sent_and_read"
   ],
   "note": "Assumes that the wrapping of lines keeps groups together and that the date of the message can be read back as printed; the sender must not be called DE (C44)."
  },
  {
   "property": "C108",
   "status": "proved",
   "theorems": [
    "c108_handed_and_read"
   ],
   "note": "As C107; the exporting station uses a password and the default salt (otherwise the file cannot be imported, C82)."
  },
  {
   "property": "C109",
   "status": "proved",
   "theorems": [
    "c109_options"
   ],
   "note": "WithMutex is not modelled."
  },
  {
   "property": "C11",
   "status": "partial",
   "theorems": [
    "c11_compromised_refuted",
    "c11_compromised_partial"
   ],
   "note": "False of the code for automatically chosen keys (FindKey does not look at Compromised). Proved for the preset key."
  },
  {
   "property": "C110",
   "status": "proved",
   "theorems": [
    "c110_wiped"
   ],
   "note": "PFK and salt must be two different slices. A failing random source: C47. The arrays of keys and messages: C47, C69-C71."
  },
  {
   "property": "C111",
   "status": "proved",
   "theorems": [
    "c111_keepers",
    "c111_recipients",
    "c111_one_by_one",
    "c111_contains",
    "c111_repeated_refuted"
   ],
   "note": "c111_repeated_refuted: why the list must be without repetitions; a removal removes one of them."
  },
  {
   "property": "C112",
   "status": "proved",
   "theorems": [
    "c112_change"
   ],
   "note": "Flags as in Model_Pfk; the question of --random is asked before the key is made, those of --new and --new-pfk after. A password typed in is not followed by a question."
  },
  {
   "property": "C113",
   "status": "partial",
   "theorems": [
    "c113_random_and_key_refuted",
    "c113_refused",
    "c112_change"
   ],
   "note": "False of the code: with --random and --new-pfk together the given key is silently ignored and a random one used. c113_refused: --new with either of the others is refused."
  },
  {
   "property": "C114",
   "status": "proved",
   "theorems": [
    "c114_no_change",
    "c114_salt",
    "c114_key",
    "c114_both",
    "c114_none"
   ],
   "note": "The key --gen-pfk prints: C100. Without random bytes the library panics (c114_salt)."
  },
  {
   "property": "C115",
   "status": "partial",
   "theorems": [
    "c115_new_refuted",
    "c115_typed",
    "c100_weak"
   ],
   "note": "False of the code: passwords given with --new are not checked (nor those given with --password to initialize). c115_typed: a password that is typed in is strong; c100_weak: pfk --gen-pfk checks --password."
  },
  {
   "property": "C116",
   "status": "proved",
   "theorems": [
    "c116_forms"
   ],
   "note": "The conditions on the text (text_ok, ended, fits in Spec_Forms): one line, no white space at its ends, not ending in + or =; without a sign of ending it must not itself end like one (sign_off: = K, K after white space, = AR, [AR]; words such as MARK are fine, c116_like_k); '==' only in the full form; for the shortest form as in C117. All six radiograms of the help text meet them (c116_help1-6)."
  },
  {
   "property": "C117",
   "status": "proved",
   "theorems": [
    "c117_shortest",
    "c116_forms"
   ],
   "note": ""
  },
  {
   "property": "C118",
   "status": "partial",
   "theorems": [
    "c118_sender_refuted",
    "c118_lost_refuted",
    "c118_inner_refuted",
    "c116_forms",
    "c117_shortest"
   ],
   "note": "False of the code: 'AB DE ZY MEET DE KARL AT NOON' is read as sent by KARL; 'DE VJ STOP = K' has the text 'K'; a radiogram quoted in the text of another replaces it. True under the conditions of C116 and C117."
  },
  {
   "property": "C119",
   "status": "proved",
   "theorems": [
    "c119_new_key",
    "c119_generate_keys",
    "c119_message_id",
    "c119_encipher",
    "c119_decipher"
   ],
   "note": "The source is a tape of draws (Model_Crand). For Encipher and Decipher: successful calls."
  },
  {
   "property": "C12",
   "status": "partial",
   "theorems": [
    "c12_failed_encipher_releases_keys_partial",
    "c12_partial_ciphertext_refuted",
    "c12_key_id_refuted",
    "c12_failed_new_text_partial"
   ],
   "note": "Proved for every failure incl. panic: the store is exactly as before (value level); in shared memory, after any history, everything but the IDs of keys is as before. False: ciphertext of the first parts is left in the message; the ID of the chosen key is overwritten (KeyId shares its array)."
  },
  {
   "property": "C120",
   "status": "partial",
   "theorems": [
    "c120_refuted",
    "c121_encipher"
   ],
   "note": "False of the code: no function of the cipher looks at expiry dates; c120_refuted enciphers with the only key, which has expired. The true counterpart is C121."
  },
  {
   "property": "C121",
   "status": "proved",
   "theorems": [
    "c121_encipher",
    "c121_decipher",
    "c121_try_decipher",
    "c121_new_text_message"
   ],
   "note": ""
  },
  {
   "property": "C122",
   "status": "partial",
   "theorems": [
    "c122_refuted",
    "c123_options",
    "c36_import"
   ],
   "note": "False of the code: the option acts on the temporary instance that loads the file, ImportKeys looks at the setting of the receiver (c122_refuted, both cases side by side). c36_import says what the setting of the receiver does, c123_options that the option does nothing."
  },
  {
   "property": "C123",
   "status": "proved",
   "theorems": [
    "c123_options",
    "c36_import"
   ],
   "note": ""
  },
  {
   "property": "C124",
   "status": "proved",
   "theorems": [
    "c124_same_but_cipher",
    "c124_equally_often",
    "c124_no_difference",
    "c124_known_keys"
   ],
   "note": ""
  },
  {
   "property": "C125",
   "status": "partial",
   "theorems": [
    "c124_explicit_key_refuted",
    "c10_explicit_key_partial",
    "c124_equally_often"
   ],
   "note": "False of the code: Encipher does not mark a key named by the user as used (C10), so that two messages can be enciphered under it; c124_explicit_key_refuted sends the same text twice, and different ciphertexts do not occur. It holds for keys chosen by Encipher (C124)."
  },
  {
   "property": "C126",
   "status": "proved",
   "theorems": [
    "c126_from_the_source",
    "c124_no_difference",
    "c19_keys_uniform"
   ],
   "note": ""
  },
  {
   "property": "C127",
   "status": "proved",
   "theorems": [
    "c127_intn",
    "c127_int63n",
    "c127_int31n",
    "c127_uint32",
    "c127_same",
    "c127_panic"
   ],
   "note": ""
  },
  {
   "property": "C128",
   "status": "proved",
   "theorems": [
    "c128_perm",
    "c128_shuffle",
    "c128_calls",
    "c128_permutes",
    "c128_natural",
    "c128_panic"
   ],
   "note": ""
  },
  {
   "property": "C129",
   "status": "proved",
   "theorems": [
    "c129_message_id",
    "c129_new_key",
    "c129_pfk",
    "c129_salt"
   ],
   "note": ""
  },
  {
   "property": "C13",
   "status": "partial",
   "theorems": [
    "c13_enough_keys_refuted",
    "c13_one_key_partial",
    "c13_primary_text_partial",
    "c13_steady_text_partial",
    "c13_failures",
    "c13_out_of_keys"
   ],
   "note": "False of the code with default sizes: a table change just before a key is full overruns it and Encipher fails. Proved: short texts, texts of any length that change neither table nor case (keys of any lengths), classification of the failures; out of keys is reported only when all eligible keys are used up. C130 tells the exact outcome for every text."
  },
  {
   "property": "C130",
   "status": "proved",
   "theorems": [
    "c130_outcome",
    "c130_lengths_only"
   ],
   "note": "Exact: the result equals that of the hand count (Spec_Enough.outcome). For keys of at most group size + 2 letters only the three other failures are characterised."
  },
  {
   "property": "C131",
   "status": "proved",
   "theorems": [
    "c131_case",
    "c131_case_fails",
    "c131_signs"
   ],
   "note": "Texts are compared after line breaks have been replaced. big and plain_sign (Spec_Alike) map each character to the one it is read as."
  },
  {
   "property": "C132",
   "status": "proved",
   "theorems": [
    "c132_keys",
    "c132_secrets",
    "c132_runes",
    "c132_bytes"
   ],
   "note": "fair (Spec_Crand) counts the sources that give a result. in_turn (Spec_Joint) draws with each function of a list in turn. As in C130, one tape word stands for one rune of ReadRunes and one byte of Read."
  },
  {
   "property": "C133",
   "status": "proved",
   "theorems": [
    "c133_cut",
    "c133_garble"
   ],
   "note": "message (Spec) says what a ciphertext reads with which keys; it is used for what stands before the letter."
  },
  {
   "property": "C134",
   "status": "partial",
   "theorems": [
    "c134_noticed_refuted",
    "c134_alter"
   ],
   "note": "False: ciphertexts are not authenticated. c134_noticed_refuted: HELLO altered in one letter is read HELKO without an error. c134_alter: who knows that a letter of the ciphertext stands for a capital letter (but Q, Z) can change the ciphertext, without the key, so that any other such letter or a space is read there and nothing else changes."
  },
  {
   "property": "C135",
   "status": "proved",
   "theorems": [
    "c135_each",
    "c135_any_order",
    "c135_again"
   ],
   "note": "Each message is given its own random words (read_all, Spec_Order). c135_again assumes random words enough to wipe the old text; otherwise the old text stays in front (C15 has the same condition)."
  },
  {
   "property": "C136",
   "status": "proved",
   "theorems": [
    "c136_flags",
    "c136_more",
    "c136_order"
   ],
   "note": ""
  },
  {
   "property": "C137",
   "status": "partial",
   "theorems": [
    "c137_pdf_refuted",
    "c137_save",
    "c137_text",
    "c137_kept"
   ],
   "note": "False of PDF files: gofpdf creates them with os.Create (0666 less the umask), so with umask 022 everybody can read the keys (c137_pdf_refuted). c137_save, c137_text: true of the store, of exports (written by Save) and of text output. c137_kept: no output changes the permissions of a file that is there; a file made readable for others before stays so."
  },
  {
   "property": "C138",
   "status": "proved",
   "theorems": [
    "c138_sent",
    "c138_unsent",
    "c138_text",
    "c138_read"
   ],
   "note": "The head (three lines drawn with blox) is a parameter; of blox.WrapString it is assumed that it breaks lines between groups, not within (wraps_groups)."
  },
  {
   "property": "C139",
   "status": "proved",
   "theorems": [
    "c139_float64",
    "c139_float32",
    "c139_close",
    "c139_possible",
    "c139_one_word"
   ],
   "note": "Rounding of math/rand of Go 1.19 is modelled exactly on integers (results in units of 2^-63)."
  },
  {
   "property": "C14",
   "status": "partial",
   "theorems": [
    "c14_unsupported_refuted",
    "c14_unsupported_partial"
   ],
   "note": "False of the code: Encipher panics. Proved: it never succeeds and all keys are as before."
  },
  {
   "property": "C140",
   "status": "proved",
   "theorems": [
    "c140_history",
    "c140_wipe",
    "c140_never_back",
    "c140_enough",
    "c140_amount"
   ],
   "note": "In the model a call of NewKey or NewTextMessage that fails before it has any effect gives its words back; nothing that is kept was made of them."
  },
  {
   "property": "C141",
   "status": "proved",
   "theorems": [
    "c141_found",
    "c141_mark",
    "c141_nothing"
   ],
   "note": "Assumes of Unicode that no further character has its upper case in Latin-1 (uni_ok) and that U+FFFD is not white space."
  },
  {
   "property": "C142",
   "status": "proved",
   "theorems": [
    "c142_outcome",
    "c142_sound",
    "c142_stuck"
   ],
   "note": ""
  },
  {
   "property": "C143",
   "status": "proved",
   "theorems": [
    "c143_new_id",
    "c143_encipher",
    "c143_decipher",
    "c143_try_decipher",
    "c143_enrich"
   ],
   "note": ""
  },
  {
   "property": "C144",
   "status": "partial",
   "theorems": [
    "c144_prepared_refuted",
    "c144_left_alone_refuted",
    "c144_stuck"
   ],
   "note": "false: EnrichWithKey marks the key used and Encipher then rejects it as used, for every message and every text put into it (c144_stuck); EnrichWithKey of a message just enciphered returns an error for the same reason"
  },
  {
   "property": "C145",
   "status": "proved",
   "theorems": [
    "c145_enrich"
   ],
   "note": ""
  },
  {
   "property": "C146",
   "status": "partial",
   "theorems": [
    "c146_once",
    "c146_named_refuted"
   ],
   "note": "proved for messages whose key Encipher chose itself (c146_once); false if the user named the key, because it is not marked used: the second text is enciphered with the same key text (c146_named_refuted)"
  },
  {
   "property": "C147",
   "status": "partial",
   "theorems": [
    "c147_later_refuted",
    "c147_named_refuted",
    "c147_stray_cipher",
    "c147_later_partial"
   ],
   "note": "false: the first parts of the ciphertext may be left in the message and then every later attempt fails with any store (c147_later_refuted, c147_stray_cipher); the named key is wiped from the message, a later attempt chooses another (c147_named_refuted). True if no key was named and no ciphertext is left: store and message are then as before the call (c147_later_partial)"
  },
  {
   "property": "C148",
   "status": "proved",
   "theorems": [
    "c148_encipher",
    "c148_decipher",
    "c148_try_decipher",
    "c148_decipher_any",
    "c148_try_decipher_any"
   ],
   "note": ""
  },
  {
   "property": "C149",
   "status": "partial",
   "theorems": [
    "c149_decipher_refuted",
    "c149_encipher_refuted",
    "c149_decipher_exact",
    "c149_encipher_exact",
    "c149_replaced_partial"
   ],
   "note": "false: if the random source fails the old text cannot be overwritten, is left in place, and the new text is appended to it; the call reports success. The exact outcome is c149_decipher_exact and c149_encipher_exact; with enough random data the old text makes no difference (c149_replaced_partial)"
  },
  {
   "property": "C15",
   "status": "proved",
   "theorems": [
    "c15_decipher_total",
    "c15_decipher_sound",
    "c15_decipher_complete"
   ],
   "note": "Messages that already have an ID (otherwise an ID is drawn first, which can panic when the random source fails)."
  },
  {
   "property": "C150",
   "status": "proved",
   "theorems": [
    "c150_keys",
    "c150_messages"
   ],
   "note": ""
  },
  {
   "property": "C151",
   "status": "partial",
   "theorems": [
    "c151_returned_message",
    "c151_message_refuted",
    "c151_try_decipher",
    "c151_decipher",
    "c151_key_refuted"
   ],
   "note": "refuted: the returned message is a copy that shares its arrays with the one in the store. TryDecipherPlainText on it succeeds, and the text in the store is overwritten with random data; the cipher text is lost. The exact effect is proved after any history. A key marked compromised through the returned pointer is still used for enciphering."
  },
  {
   "property": "C152",
   "status": "partial",
   "theorems": [
    "c152_alone",
    "c152_histories",
    "c152_new_key",
    "c152_remove_refuted",
    "c152_add_refuted",
    "c152_shared_remove"
   ],
   "note": "refuted for the key NewKey returns and the one in the store (likewise an exported key), which have the same slice: removing a keeper of one leaves a duplicate in the other, and two additions overwrite each other. Proved for slices without common memory, which new keys have."
  },
  {
   "property": "C153",
   "status": "partial",
   "theorems": [
    "c153_listing_refuted",
    "c153_listing_partial"
   ],
   "note": "refuted: with two comments cut from one buffer, listing overwrites the second with spaces. Proved if no slice has elements in the spare capacity of a slice that is listed."
  },
  {
   "property": "C154",
   "status": "partial",
   "theorems": [
    "c154_other_deleted_refuted",
    "c154_deleted_refuted",
    "c154_added_refuted"
   ],
   "note": "refuted: DeleteKey moves the last key to the place of the deleted one, so the pointer of the last key then points outside the store (marking it compromised has no effect) and the pointer of the deleted key points to another key (which is marked instead); a key added to a full array moves all keys. What holds is C155."
  },
  {
   "property": "C155",
   "status": "proved",
   "theorems": [
    "c155_get",
    "c155_find",
    "c155_kept",
    "c155_values",
    "c155_deleted",
    "c155_full"
   ],
   "note": "The contents of the rune slices are values in this model."
  },
  {
   "property": "C156",
   "status": "partial",
   "theorems": [
    "c156_both_send_refuted",
    "c156_listening_refuted",
    "c156_again_refuted"
   ],
   "note": "refuted: Encipher marks the key used in the sender's store only, and import makes the exporter a keeper of the copies, so both stations choose the same key for a message to the other; a message of which one key is missing marks none of its keys used when it is read; and keys imported again with overwrite come back unused. What holds is C157."
  },
  {
   "property": "C157",
   "status": "proved",
   "theorems": [
    "c157_one_time"
   ],
   "note": "reads_first in Spec_Net.v is the discipline; c156_*_refuted show what goes wrong without it."
  },
  {
   "property": "C158",
   "status": "proved",
   "theorems": [
    "c158_read"
   ],
   "note": ""
  },
  {
   "property": "C159",
   "status": "partial",
   "theorems": [
    "c159_both_send_refuted"
   ],
   "note": "refuted: two stations that share keys and do not read each other's messages first encipher with the same key; that their texts are the same can be seen. What holds is C160."
  },
  {
   "property": "C16",
   "status": "proved",
   "theorems": [
    "c16_try_decipher_transactional",
    "c16_try_decipher_restores",
    "c16_random_source_refuted"
   ],
   "note": "The random source used for wiping must not fail; otherwise the KeyId of a failed attempt stays set (c16_random_source_refuted), texts and keys are restored in any case."
  },
  {
   "property": "C160",
   "status": "proved",
   "theorems": [
    "c160_secret",
    "c160_indistinct"
   ],
   "note": "Extends C124 from one store to a net; no keys are generated in the history (keys generated before it are keys of the net). c159_both_send_refuted shows what goes wrong if stations do not read first."
  },
  {
   "property": "C161",
   "status": "proved",
   "theorems": [
    "c161_printed_key"
   ],
   "note": "The canvas library blox is not part of the repository: it is assumed that text put within the canvas stands there unless something is put over it later. The head (separators, ID, line KEEPERS) is any text above the groups."
  },
  {
   "property": "C162",
   "status": "proved",
   "theorems": [
    "c162_from_the_source"
   ],
   "note": "Keys are generated by one station, before anything is sent; the random source is taken as uniformly distributed 64-bit words."
  },
  {
   "property": "C163",
   "status": "proved",
   "theorems": [
    "c163_deleted"
   ],
   "note": "The message has an ID and a key ID of letters; the random source suffices to overwrite its old text."
  },
  {
   "property": "C164",
   "status": "partial",
   "theorems": [
    "c164_order_refuted",
    "c164_place_partial"
   ],
   "note": "False: the last key takes the place of the deleted one (keys.go:92-93), and after a used key was deleted the next message gets the newest key instead of the next. Proved: the exact order after deleting one key."
  },
  {
   "property": "C17",
   "status": "proved",
   "theorems": [
    "c17_any_layout"
   ],
   "note": ""
  },
  {
   "property": "C18",
   "status": "proved",
   "theorems": [
    "c18_new_key",
    "c18_generate_keys",
    "c18_no_error"
   ],
   "note": "Group size at least 1, key length at least 0. The float64 rounding in the key length is modelled exactly (integers)."
  },
  {
   "property": "C19",
   "status": "proved",
   "theorems": [
    "c19_int63",
    "c19_intn",
    "c19_keys_uniform",
    "c19_keys_possible"
   ],
   "note": "Also for whole keys: any two possible (ID, key text) pairs are produced by equally many random tapes."
  },
  {
   "property": "C20",
   "status": "proved",
   "theorems": [
    "c20_ids_unique"
   ],
   "note": "Value level; IDs overwritten through shared memory are treated separately (heap layer)."
  },
  {
   "property": "C21",
   "status": "proved",
   "theorems": [
    "c21_delete_exact",
    "c21_delete_any"
   ],
   "note": ""
  },
  {
   "property": "C22",
   "status": "partial",
   "theorems": [
    "c22_add_keeper",
    "c22_remove_keeper_partial",
    "c22_remove_keeper_only",
    "c22_contains_keeper",
    "c22_remove_keeper_refuted"
   ],
   "note": "RemoveKeeper removes only the first occurrence, so the claim is false for keeper lists with a repeated call-sign; proved without repetitions."
  },
  {
   "property": "C23",
   "status": "partial",
   "theorems": [
    "c23_own_call_sign_refuted",
    "c23_own_call_sign_partial"
   ],
   "note": "False if the own call-sign is given twice (only one occurrence is removed); proved if no vetted call-sign is repeated."
  },
  {
   "property": "C24",
   "status": "proved",
   "theorems": [
    "c24_find_key"
   ],
   "note": ""
  },
  {
   "property": "C25",
   "status": "proved",
   "theorems": [
    "c25_get_key",
    "c25_mark_key_used"
   ],
   "note": ""
  },
  {
   "property": "C26",
   "status": "proved",
   "theorems": [
    "c26_new_id",
    "c26_unique"
   ],
   "note": ""
  },
  {
   "property": "C27",
   "status": "proved",
   "theorems": [
    "c27_groups",
    "c27_groups_total"
   ],
   "note": ""
  },
  {
   "property": "C28",
   "status": "proved",
   "theorems": [
    "c28_laws",
    "c28_wellformed",
    "c28_idempotent"
   ],
   "note": ""
  },
  {
   "property": "C29",
   "status": "proved",
   "theorems": [
    "c29_all_needles",
    "c29_any_needle",
    "c29_any_of_them"
   ],
   "note": ""
  },
  {
   "property": "C30",
   "status": "proved",
   "theorems": [
    "c30_equal_runes",
    "c30_equal_fold"
   ],
   "note": ""
  },
  {
   "property": "C31",
   "status": "partial",
   "theorems": [
    "c31_untouched",
    "c31_wiped_key_refuted"
   ],
   "note": "Proved except for a PFK that has been wiped: then the existing file is truncated and Save panics (c31_wiped_key_refuted)."
  },
  {
   "property": "C32",
   "status": "partial",
   "theorems": [
    "c32_restore_partial",
    "c32_zero_setting_refuted",
    "c34_disk_full_refuted"
   ],
   "note": "Proved if all writes succeed and no setting is zero; a zero setting is not stored and comes back as the default. That a wrong key cannot open the file is an assumption on the encryption library."
  },
  {
   "property": "C33",
   "status": "partial",
   "theorems": [
    "c33_crash_refuted",
    "c33_crash_partial"
   ],
   "note": "False of the code: the file is truncated first. Proved: at every crash point the file is the old one or a beginning of the new one, other files are untouched."
  },
  {
   "property": "C34",
   "status": "partial",
   "theorems": [
    "c34_disk_full_refuted",
    "c34_complete_partial"
   ],
   "note": "False of the code: errors of the deferred Close calls, where most data is written, are ignored. Proved if no such error occurs."
  },
  {
   "property": "C35",
   "status": "partial",
   "theorems": [
    "c35_export_refuted",
    "c31_wiped_key_refuted",
    "c35_no_key_partial"
   ],
   "note": "False of the code after Wipe and for the export of an instance without PFK: the file is truncated, then Save panics. Proved for an instance whose PFK was never set."
  },
  {
   "property": "C36",
   "status": "partial",
   "theorems": [
    "c36_import",
    "c36_imported_key",
    "c36_own_file_refuted"
   ],
   "note": "Proved for files and stores with unique key IDs. False part: if the file carries our own call-sign, our call-sign becomes a keeper."
  },
  {
   "property": "C37",
   "status": "partial",
   "theorems": [
    "c37_documented_call_refuted",
    "c67_import_keeps_pfk"
   ],
   "note": "False of the code: wiping the incoming instance wipes the shared PFK and salt; the next Save destroys the file. True if the options do not share pointers: C67."
  },
  {
   "property": "C38",
   "status": "partial",
   "theorems": [
    "c38_wipe_export_refuted",
    "c38_export_partial",
    "c68_export"
   ],
   "note": "False of the code: the exported keys share memory with the source, wiping the export destroys the source's keys. Proved: contents and settings of the export for all stores and filters; exporting alone changes nothing."
  },
  {
   "property": "C39",
   "status": "partial",
   "theorems": [
    "c39_delete_message_refuted",
    "c39_delete_key_refuted",
    "c39_imported_keys_refuted",
    "c69_delete_key",
    "c69_delete_message",
    "c71_delete_key",
    "c71_after_load"
   ],
   "note": "False of the code: three ways of damaging other items. Proved: after any history only IDs of keys, key IDs of messages and keepers can be damaged; exactness when nothing is shared."
  },
  {
   "property": "C40",
   "status": "proved",
   "theorems": [
    "c40_generated_fresh",
    "c40_pfk_accepted",
    "c40_pfk_rejected",
    "c40_salt_accepted",
    "c40_salt_rejected",
    "c40_generated"
   ],
   "note": ""
  },
  {
   "property": "C41",
   "status": "partial",
   "theorems": [
    "c41_refuted",
    "c41_two_arguments_panic",
    "c41_third_argument_partial"
   ],
   "note": "False of the code: with exactly two arguments an outgoing message always panics (msg[2]); with three the third is the key ID, and then the claim is proved."
  },
  {
   "property": "C42",
   "status": "proved",
   "theorems": [
    "c42_one_or_none",
    "c42_messages",
    "c42_incoming",
    "c42_outgoing"
   ],
   "note": ""
  },
  {
   "property": "C43",
   "status": "partial",
   "theorems": [
    "c43_refuted",
    "c43_call_signs_partial",
    "c55_parsed_parts"
   ],
   "note": "False of the code for recipients separated by a tab and for the Kelvin sign; proved without these characters, and the text part for all strings."
  },
  {
   "property": "C44",
   "status": "partial",
   "theorems": [
    "c44_refuted",
    "c60_traffic_form",
    "c60_traffic_received"
   ],
   "note": "False for a sender named DE (its traffic example is read with the DTG as sender). True for every other sender: C60."
  },
  {
   "property": "C45",
   "status": "partial",
   "theorems": [
    "c45_invalid_refuted",
    "c45_valid_refuted",
    "c45_filter_partial"
   ],
   "note": "False of the code: --invalid selects the valid keys, --valid overflows beyond 106751 days. Proved for the other options and up to 106751 days."
  },
  {
   "property": "C46",
   "status": "proved",
   "theorems": [
    "c46_validity"
   ],
   "note": ""
  },
  {
   "property": "C47",
   "status": "partial",
   "theorems": [
    "c47_key",
    "c47_message",
    "c47_instance",
    "c47_slice_partial",
    "c47_radiogram_refuted",
    "c47_random_source_refuted",
    "c47_pfk_refuted"
   ],
   "note": "Proved (noninterference): memory and result after wiping do not depend on what the wiped slices held, also with a failing random source. False: Message.Wipe leaves the radiogram with the plaintext; Wipe(b) and the PFK survive a failing random source."
  },
  {
   "property": "C48",
   "status": "partial",
   "theorems": [
    "c48_shared_refuted",
    "c97_different_keys"
   ],
   "note": "False of the code: FindKey and the assignment of Used are separate and no lock is taken, so two goroutines can find the same key. c97_different_keys: true if goroutines are not interrupted between the two nor while giving keys back."
  },
  {
   "property": "C49",
   "status": "partial",
   "theorems": [
    "c49_refuted",
    "c49_usable_partial",
    "c72_unusable"
   ],
   "note": "False of the code: Assert accepts a group size equal to the key length, with which nothing can be enciphered. Proved for a group size below the key length."
  },
  {
   "property": "C50",
   "status": "proved",
   "theorems": [
    "c50_columns",
    "c50_delete_lines"
   ],
   "note": "DTG strings are assumed to have 12 characters."
  },
  {
   "property": "C51",
   "status": "partial",
   "theorems": [
    "c51_order_refuted",
    "c51_rows_refuted",
    "c51_keys_once_partial",
    "c51_messages_once_partial",
    "c61_keys_pages",
    "c61_messages_pages"
   ],
   "note": "False if an item does not fit a page: it is printed before items preceding it, and the row count of the page being filled is lost. Every item is printed exactly once; order and row limit hold if all items fit (C61)."
  },
  {
   "property": "C52",
   "status": "proved",
   "theorems": [
    "c52_highest",
    "c52_lowest",
    "c52_trim_right",
    "c52_padding"
   ],
   "note": ""
  },
  {
   "property": "C53",
   "status": "partial",
   "theorems": [
    "c53_column_sizes_refuted",
    "c53_column_sizes_partial"
   ],
   "note": "False of the code: it panics when a row has more columns than there are headers (bound check off by one); proved otherwise."
  },
  {
   "property": "C54",
   "status": "proved",
   "theorems": [
    "c54_parts_independent",
    "c54_padding_adds_nothing"
   ],
   "note": ""
  },
  {
   "property": "C55",
   "status": "proved",
   "theorems": [
    "c55_parsed_parts"
   ],
   "note": ""
  },
  {
   "property": "C56",
   "status": "proved",
   "theorems": [
    "c56_delete_message"
   ],
   "note": ""
  },
  {
   "property": "C57",
   "status": "proved",
   "theorems": [
    "c57_plain_call_signs"
   ],
   "note": ""
  },
  {
   "property": "C58",
   "status": "proved",
   "theorems": [
    "c58_short_radiogram"
   ],
   "note": ""
  },
  {
   "property": "C59",
   "status": "proved",
   "theorems": [
    "c59_legend",
    "c59_signs",
    "c59_characters"
   ],
   "note": ""
  },
  {
   "property": "C60",
   "status": "proved",
   "theorems": [
    "c60_traffic_form",
    "c60_traffic_received"
   ],
   "note": ""
  },
  {
   "property": "C61",
   "status": "proved",
   "theorems": [
    "c61_keys_pages",
    "c61_messages_pages",
    "c61_text"
   ],
   "note": ""
  },
  {
   "property": "C62",
   "status": "proved",
   "theorems": [
    "c62_save_writes",
    "c62_save_changes_nothing_else"
   ],
   "note": ""
  },
  {
   "property": "C63",
   "status": "proved",
   "theorems": [
    "c63_failed_load"
   ],
   "note": ""
  },
  {
   "property": "C64",
   "status": "partial",
   "theorems": [
    "c64_retry_refuted"
   ],
   "note": "False of the code: the key derived from the wrong password stays set, Load does not ask again."
  },
  {
   "property": "C65",
   "status": "proved",
   "theorems": [
    "c65_reload"
   ],
   "note": ""
  },
  {
   "property": "C66",
   "status": "partial",
   "theorems": [
    "c66_stale_flags_refuted",
    "c32_restore_partial"
   ],
   "note": "False of the code: gob decodes into the existing array and leaves fields that are zero in the file. True for a fresh instance (C32)."
  },
  {
   "property": "C67",
   "status": "proved",
   "theorems": [
    "c67_import_keeps_pfk",
    "c67_import_frame"
   ],
   "note": ""
  },
  {
   "property": "C68",
   "status": "proved",
   "theorems": [
    "c68_export",
    "c68_handover"
   ],
   "note": "All writes succeed, settings not zero."
  },
  {
   "property": "C69",
   "status": "proved",
   "theorems": [
    "c69_delete_key",
    "c69_delete_message",
    "c69_import"
   ],
   "note": "All histories of NewKey, NewTextMessage, DeleteKey, DeleteMessage, MarkKeyUsed, ImportKeys on a store read from a file."
  },
  {
   "property": "C70",
   "status": "proved",
   "theorems": [
    "c70_new_text",
    "c70_new_key",
    "c70_mark_key_used",
    "c70_import"
   ],
   "note": "Same histories as C69."
  },
  {
   "property": "C71",
   "status": "proved",
   "theorems": [
    "c71_delete_key",
    "c71_after_load"
   ],
   "note": ""
  },
  {
   "property": "C72",
   "status": "proved",
   "theorems": [
    "c72_unusable",
    "c72_short_keys",
    "c72_assert",
    "c49_usable_partial"
   ],
   "note": ""
  },
  {
   "property": "C73",
   "status": "proved",
   "theorems": [
    "c73_list"
   ],
   "note": "Go time, Unicode tables and the DTG text are parameters (the DTG text has 12 characters)."
  },
  {
   "property": "C74",
   "status": "proved",
   "theorems": [
    "c74_list"
   ],
   "note": "Messages with a sender; the digest is a parameter."
  },
  {
   "property": "C75",
   "status": "partial",
   "theorems": [
    "c75_frame",
    "c75_export_own_file_refuted"
   ],
   "note": "Proved except for an export to the own file, which replaces it (refuted)."
  },
  {
   "property": "C76",
   "status": "proved",
   "theorems": [
    "c76_new"
   ],
   "note": ""
  },
  {
   "property": "C77",
   "status": "partial",
   "theorems": [
    "c77_delete_refuted",
    "c77_delete_ids"
   ],
   "note": "False of the code: with --yes filter options other than --id are ignored and nothing is deleted. Proved for --id."
  },
  {
   "property": "C78",
   "status": "proved",
   "theorems": [
    "c78_pick"
   ],
   "note": ""
  },
  {
   "property": "C79",
   "status": "proved",
   "theorems": [
    "c77_delete_ids"
   ],
   "note": ""
  },
  {
   "property": "C80",
   "status": "proved",
   "theorems": [
    "c80_export"
   ],
   "note": ""
  },
  {
   "property": "C81",
   "status": "partial",
   "theorems": [
    "c81_declined_refuted",
    "c81_done_partial"
   ],
   "note": "False of the code: if the user declines to overwrite, success is reported. Proved otherwise."
  },
  {
   "property": "C82",
   "status": "partial",
   "theorems": [
    "c82_import_refuted",
    "c82_import"
   ],
   "note": "False of the code: --import uses the default salt and a typed-in password. c82_import says exactly when it succeeds."
  },
  {
   "property": "C83",
   "status": "proved",
   "theorems": [
    "c83_handover"
   ],
   "note": ""
  },
  {
   "property": "C84",
   "status": "proved",
   "theorems": [
    "c84_frame"
   ],
   "note": ""
  },
  {
   "property": "C85",
   "status": "proved",
   "theorems": [
    "c85_new"
   ],
   "note": ""
  },
  {
   "property": "C86",
   "status": "proved",
   "theorems": [
    "c86_delete",
    "c86_pick"
   ],
   "note": ""
  },
  {
   "property": "C87",
   "status": "proved",
   "theorems": [
    "c82_import"
   ],
   "note": ""
  },
  {
   "property": "C88",
   "status": "partial",
   "theorems": [
    "c88_columns_refuted",
    "c88_columns_partial"
   ],
   "note": "False of the code for a message without sender; proved otherwise."
  },
  {
   "property": "C89",
   "status": "partial",
   "theorems": [
    "c89_failed_save_refuted",
    "c89_concurrent_refuted",
    "c89_reimport_refuted",
    "c90_history"
   ],
   "note": "False of the code: the message is printed before the file is written; files are not locked; a deleted used key can be imported again. c90_history is the case without these."
  },
  {
   "property": "C90",
   "status": "proved",
   "theorems": [
    "c90_history"
   ],
   "note": ""
  },
  {
   "property": "C91",
   "status": "proved",
   "theorems": [
    "c91_change"
   ],
   "note": "Conflicting options of pfk are not modelled."
  },
  {
   "property": "C92",
   "status": "proved",
   "theorems": [
    "c92_initialize"
   ],
   "note": "Panic: the modelled random source is exhausted."
  },
  {
   "property": "C93",
   "status": "partial",
   "theorems": [
    "c93_call_refuted",
    "c93_call_partial"
   ],
   "note": "False of the code: a call-sign of one character is dropped without an error. Proved for two and more."
  },
  {
   "property": "C94",
   "status": "partial",
   "theorems": [
    "c94_delete_new_refuted",
    "c96_in_turn"
   ],
   "note": "False of the code: --delete ends the call if there is no key (or none selected), --new is then not done. c96_in_turn: otherwise every operation is done as if called alone."
  },
  {
   "property": "C95",
   "status": "proved",
   "theorems": [
    "c95_wrong_key"
   ],
   "note": ""
  },
  {
   "property": "C96",
   "status": "proved",
   "theorems": [
    "c96_in_turn"
   ],
   "note": "The export file must not be the station's file."
  },
  {
   "property": "C97",
   "status": "proved",
   "theorems": [
    "c97_different_keys",
    "c97_alone"
   ],
   "note": "FindKey is one step of the model. c97_alone: the model of a goroutine agrees with the one of Encipher."
  },
  {
   "property": "C98",
   "status": "partial",
   "theorems": [
    "c98_taking_refuted",
    "c97_different_keys"
   ],
   "note": "False of the code: after a failure Encipher marks the key of the message unused twice; in between another goroutine can take it."
  },
  {
   "property": "C99",
   "status": "proved",
   "theorems": [
    "c99_confirmed",
    "c99_otherwise",
    "c99_old_confirmed",
    "c99_old_otherwise"
   ],
   "note": "Lines and errors of the terminal are a list; the check of strength is any function."
  }
 ]
}