{
 "claims": [
  {
   "property": "C01",
   "status": "partial",
   "theorems": [
    "C01_conversation",
    "C01_dropped_duplicate_refuted",
    "C01_exact"
   ],
   "note": "Proved for all schedules of any length against an independent ideal conversation: exact plaintext on first delivery, DuplicateMessage on redelivery, InvalidMessage when too far ahead (C01_conversation). For devices without older sessions every event is determined, a message of a chain no longer kept being an InvalidMessage, unless its MAC fits by accident, as no unforgeability is assumed (C01_exact); with older sessions see C85. Assumes the keys drawn are pairwise different and fewer than 2^32 steps. What is missing: a redelivery from a chain no longer kept raises InvalidMessage instead of DuplicateMessage (C01_dropped_duplicate_refuted)."
  },
  {
   "property": "C02",
   "status": "proved",
   "theorems": [
    "C02_message",
    "C02_prekey_message"
   ],
   "note": "For every reachable store and immediate redelivery; C49 is about arbitrary later histories."
  },
  {
   "property": "C03",
   "status": "proved",
   "theorems": [
    "C03_failed_decryptMsg"
   ],
   "note": ""
  },
  {
   "property": "C04",
   "status": "partial",
   "theorems": [
    "C04_failed_decryptPkmsg_partial",
    "C04_failed_decryptPkmsg_refuted"
   ],
   "note": "Proved that nothing but the trusted identity of a first-time peer can change; that change itself happens before authentication, so the property is refuted."
  },
  {
   "property": "C05",
   "status": "proved",
   "theorems": [
    "C05_message",
    "C05_prekey_message",
    "C05_complete"
   ],
   "note": "Soundness and completeness with respect to a specification of the keys, the MAC and CBC."
  },
  {
   "property": "C06",
   "status": "proved",
   "theorems": [
    "C06_counters_increase",
    "C06_keys"
   ],
   "note": ""
  },
  {
   "property": "C07",
   "status": "proved",
   "theorems": [
    "C07_too_far",
    "C07_too_far_new_chain",
    "C07_accepted",
    "C07_stored",
    "C07_stored_message",
    "C07_stored_prekey_message"
   ],
   "note": ""
  },
  {
   "property": "C08",
   "status": "proved",
   "theorems": [
    "C08_at_most_five",
    "C08_oldest_goes"
   ],
   "note": ""
  },
  {
   "property": "C09",
   "status": "proved",
   "theorems": [
    "C09_at_most_forty",
    "C09_evolves",
    "C09_bundle",
    "C09_initiate",
    "C09_response",
    "C09_prekey_message"
   ],
   "note": ""
  },
  {
   "property": "C10",
   "status": "proved",
   "theorems": [
    "C10_handshake"
   ],
   "note": ""
  },
  {
   "property": "C11",
   "status": "proved",
   "theorems": [
    "C11_first_message",
    "C11_schedules",
    "C11_exact"
   ],
   "note": "The prekey is not removed if its id is 16777215 (Medium.MAX_VALUE), as the code compares with that constant. Assumes the keys drawn are pairwise different."
  },
  {
   "property": "C12",
   "status": "partial",
   "theorems": [
    "C12_object_partial",
    "C12_serialised_refuted"
   ],
   "note": "Fails: prekey messages always carry a prekey id once parsed (the protobuf default 0), so the receiver looks up prekey 0 and raises InvalidKeyId. Proved: this happens for every bundle without one-time prekey if no prekey 0 is stored; and the unserialised message object is decrypted."
  },
  {
   "property": "C13",
   "status": "proved",
   "theorems": [
    "C13_bundle",
    "C13_prekey_message",
    "C13_key_exchange"
   ],
   "note": "For prekey messages the stored session must be readable, because decryptPkmsg loads it before looking at the identity."
  },
  {
   "property": "C14",
   "status": "partial",
   "theorems": [
    "C14_missing",
    "C14_bad_signature_partial",
    "C14_bad_length",
    "C14_exception_refuted",
    "C14_accepted",
    "C14_failure_unchanged"
   ],
   "note": "Any failure changes nothing and a session is created only with a verified signature, for all bundles. The exception is InvalidKeyException for 64-byte signatures and 32-byte keys; other lengths raise ValueError (refuted)."
  },
  {
   "property": "C15",
   "status": "partial",
   "theorems": [
    "C15_named_until_answered",
    "C15_plain_after_answer",
    "C15_old_session_refuted"
   ],
   "note": "Proved until any message from the peer is decrypted. A message that only an archived session opens also ends it (refuted), because that session becomes current; the property speaks of messages of the new session only."
  },
  {
   "property": "C16",
   "status": "proved",
   "theorems": [
    "C16_repeated",
    "C16_no_prekey_consumed"
   ],
   "note": ""
  },
  {
   "property": "C17",
   "status": "proved",
   "theorems": [
    "C17_gone",
    "C17_later",
    "C17_last_resort"
   ],
   "note": ""
  },
  {
   "property": "C18",
   "status": "proved",
   "theorems": [
    "C18_exchange"
   ],
   "note": "Assumes the two base keys differ, identities are generated by the library, and the responder has no exchange pending. Ends with any schedule as in C01."
  },
  {
   "property": "C19",
   "status": "proved",
   "theorems": [
    "C19_order_is_lexicographic",
    "C19_exactly_one_alice",
    "C19_irreflexive",
    "C19_transitive",
    "C19_other_lengths_raise"
   ],
   "note": ""
  },
  {
   "property": "C20",
   "status": "proved",
   "theorems": [
    "C20_simultaneous"
   ],
   "note": "Both orders of processing are independent, since each device processes the other's initiate message and then the other's response. Assumes the two base keys differ."
  },
  {
   "property": "C21",
   "status": "proved",
   "theorems": [
    "C21_stale"
   ],
   "note": ""
  },
  {
   "property": "C22",
   "status": "partial",
   "theorems": [
    "C22_unchanged",
    "C22_initiate_partial",
    "C22_response_partial",
    "C22_exception_refuted"
   ],
   "note": "Raising and changing nothing holds for all messages. The exception is InvalidKeyException when keys and signature have their proper lengths; otherwise another one (refuted)."
  },
  {
   "property": "C23",
   "status": "partial",
   "theorems": [
    "C23_whisper",
    "C23_whisper_empty_body_refuted",
    "C23_prekey_with_id",
    "C23_prekey_partial",
    "C23_prekey_absent_id_refuted",
    "C23_key_exchange",
    "C23_sender_key",
    "C23_sender_key_distribution"
   ],
   "note": "Proved for all five classes except: an absent prekey id is parsed as 0 (refuted), and a WhisperMessage with an empty body, which the library never builds, does not parse (refuted). Flags below 32 and 32-byte keys, as in every message the library builds."
  },
  {
   "property": "C24",
   "status": "proved",
   "theorems": [
    "C24_session_record",
    "C24_loaded_session_record_wf",
    "C24_prekey_record",
    "C24_signed_prekey_record",
    "C24_identity_key_pair",
    "C24_sender_key_record",
    "C24_loaded_sender_key_record_wf"
   ],
   "note": "For all records whose integer fields are in protobuf range; everything loaded from a store is. The unstored fresh flag is reset by design."
  },
  {
   "property": "C25",
   "status": "partial",
   "theorems": [
    "C25_whisper",
    "C25_prekey",
    "C25_key_exchange",
    "C25_sender_key",
    "C25_sender_key_distribution",
    "C25_legacy_class_refuted"
   ],
   "note": "Exact table of exceptions per parser proved. PreKeyWhisperMessage and the two group parsers raise InvalidMessageException for old versions because their except clauses convert LegacyMessageException (refuted as a statement about that class)."
  },
  {
   "property": "C26",
   "status": "partial",
   "theorems": [
    "C26_prekey",
    "C26_sender_key",
    "C26_sender_key_distribution",
    "C26_whisper_partial",
    "C26_key_exchange_partial",
    "C26_whisper_decode_error_refuted",
    "C26_key_exchange_decode_error_refuted",
    "C26_key_exchange_index_error_refuted"
   ],
   "note": "Proved for PreKeyWhisperMessage, SenderKeyMessage and SenderKeyDistributionMessage; refuted for WhisperMessage (DecodeError) and KeyExchangeMessage (DecodeError, IndexError), with the exact set of possible exceptions proved."
  },
  {
   "property": "C27",
   "status": "partial",
   "theorems": [
    "C27_hkdf_v3_is_rfc5869_partial",
    "C27_hkdf_v2_counts_from_zero",
    "C27_output_length",
    "C27_shorter_is_prefix",
    "C27_hkdf_beyond_127_blocks_refuted"
   ],
   "note": "Equal to RFC 5869 up to 127 blocks (4064 bytes; the library uses at most 80); beyond that the code deviates (refuted). Length and prefix hold for all lengths."
  },
  {
   "property": "C28",
   "status": "proved",
   "theorems": [
    "C28_nth_message_keys",
    "C28_nth_sender_key"
   ],
   "note": ""
  },
  {
   "property": "C29",
   "status": "proved",
   "theorems": [
    "C29_any_order",
    "C29_raise_changes_nothing"
   ],
   "note": "Refinement: every schedule of creates, sends, joins and deliveries gives the events of the ideal group; fewer than 2^32 steps."
  },
  {
   "property": "C30",
   "status": "proved",
   "theorems": [
    "C30_accepted_signature",
    "C30_refused_changes_nothing"
   ],
   "note": ""
  },
  {
   "property": "C31",
   "status": "proved",
   "theorems": [
    "C31_encrypt_nothing_stored",
    "C31_decrypt_nothing_stored",
    "C31_unknown_key_id"
   ],
   "note": ""
  },
  {
   "property": "C32",
   "status": "partial",
   "theorems": [
    "C32_future_limit_refuted"
   ],
   "note": "Refuted for all primitives and every gap: the comparison at groupcipher.py:76 has its operands swapped, so no message is ever too far ahead."
  },
  {
   "property": "C33",
   "status": "partial",
   "theorems": [
    "C33_distribution_effective_partial",
    "C33_redistribution_refuted"
   ],
   "note": "Proved when no state with that key id is stored yet; refuted otherwise: the first stored state with the id is always used."
  },
  {
   "property": "C34",
   "status": "proved",
   "theorems": [
    "C34_prekey_ids",
    "C34_prekey_pairs"
   ],
   "note": ""
  },
  {
   "property": "C35",
   "status": "proved",
   "theorems": [
    "C35_registration_id",
    "C35_sender_key_id",
    "C35_registration_id_onto"
   ],
   "note": ""
  },
  {
   "property": "C36",
   "status": "proved",
   "theorems": [
    "C36_signed",
    "C36_accepted"
   ],
   "note": ""
  },
  {
   "property": "C37",
   "status": "partial",
   "theorems": [
    "C37_address_equality",
    "C37_name_equality",
    "C37_equal_hash_alike",
    "C37_serialized_injective_refuted",
    "C37_serialized_injective_partial"
   ],
   "note": "Equality and hash proved; injectivity of the serialised form is refuted in general and proved for sender names without a colon."
  },
  {
   "property": "C38",
   "status": "proved",
   "theorems": [
    "C38_split_of_combination",
    "C38_slices_concatenate",
    "C38_nibbles",
    "C38_nibbles_of_byte",
    "C38_int_to_byte_array"
   ],
   "note": ""
  },
  {
   "property": "C39",
   "status": "proved",
   "theorems": [
    "C39_roundtrip",
    "C39_accepted_bodies",
    "C39_other_bodies_raise"
   ],
   "note": ""
  },
  {
   "property": "C40",
   "status": "proved",
   "theorems": [
    "C40_peers",
    "C40_peers_crash",
    "C40_groups",
    "C40_groups_crash"
   ],
   "note": "Every session and group call, also one cut short by a crash, neither reads nor changes another peer device's session, another peer's identity, or another name's sender key. One-time prekeys and the random source are shared by design."
  },
  {
   "property": "C41",
   "status": "proved",
   "theorems": [
    "C41_redelivery",
    "C41_prekey_kept"
   ],
   "note": ""
  },
  {
   "property": "C42",
   "status": "partial",
   "theorems": [
    "C42_message_partial",
    "C42_prekey_message_partial",
    "C42_archived_refuted"
   ],
   "note": "Proved for the state that decrypted, and for all states when no archived state shares its receiving chain; refuted in general: a replayed key exchange message creates two states with the same chain."
  },
  {
   "property": "C43",
   "status": "proved",
   "theorems": [
    "C43_first_that_does_not_refuse"
   ],
   "note": ""
  },
  {
   "property": "C44",
   "status": "proved",
   "theorems": [
    "C44_refused"
   ],
   "note": ""
  },
  {
   "property": "C45",
   "status": "partial",
   "theorems": [
    "C45_apart_partial",
    "C45_overlap",
    "C45_refuted"
   ],
   "note": "Refuted: encrypt loads, then stores. Distinct exactly for the interleavings in which one call stores before the other loads; equal for all others (both proved for all stores)."
  },
  {
   "property": "C46",
   "status": "partial",
   "theorems": [
    "C46_decrypt",
    "C46_encrypt_partial",
    "C46_encrypt_refuted"
   ],
   "note": "decryptMsg proved. encrypt changes nothing but raises IndexError (refuted)."
  },
  {
   "property": "C47",
   "status": "proved",
   "theorems": [
    "C47_last_counter"
   ],
   "note": ""
  },
  {
   "property": "C48",
   "status": "partial",
   "theorems": [
    "C48_lockout_partial",
    "C48_lockout_refuted",
    "C48_whisper_message"
   ],
   "note": "Refuted: a first-contact message is enough to have a wrong identity stored. Proved when the names differ, an identity is already stored, or the identity is the same."
  },
  {
   "property": "C49",
   "status": "partial",
   "theorems": [
    "C49_decrypted_twice_refuted",
    "C49_never_again_partial",
    "C49_never_again_prekey_partial"
   ],
   "note": "Refuted with a complete execution: a key exchange message replayed after an old message promoted the state that answered it. C49_never_again_partial and C49_never_again_prekey_partial: in all histories in which no new receiving chain of the message's ratchet key is made, the message is not decrypted again, except by a state without that chain (for prekey messages also: unless the session they set up was dropped)."
  },
  {
   "property": "C50",
   "status": "partial",
   "theorems": [
    "C50_finished_once_partial",
    "C50_no_key_exchange_partial",
    "C50_key_reused_refuted"
   ],
   "note": "Refuted by an execution in which a key exchange that the device had started is finished twice. C50_finished_once_partial: this is the only way; from the first contact on the property holds in all histories in which no exchange is finished twice, provided the keys drawn are different. C50_no_key_exchange_partial: in particular if no key exchange message of that peer device is processed."
  },
  {
   "property": "C51",
   "status": "proved",
   "theorems": [
    "C51_single_calls_atomic"
   ],
   "note": "For every call with a single durable effect."
  },
  {
   "property": "C52",
   "status": "partial",
   "theorems": [
    "C52_handshakes_atomic_refuted",
    "C52_first_message_atomic_refuted",
    "C52_write_order_partial"
   ],
   "note": "False as stated: session and identity are written separately (two refutations). Proved instead: each store on its own is old or new, and they are written in a fixed order."
  },
  {
   "property": "C53",
   "status": "proved",
   "theorems": [
    "C53_iterations_increase"
   ],
   "note": "All histories from any stores, with crashes."
  },
  {
   "property": "C54",
   "status": "proved",
   "theorems": [
    "C54_decrypted_once",
    "C54_iteration_once"
   ],
   "note": "All histories from an empty sender key store, with crashes."
  },
  {
   "property": "C55",
   "status": "partial",
   "theorems": [
    "C55_erased_refuted",
    "C55_answering_erased_partial"
   ],
   "note": "False for the whole record: joining twice stores a second state that can still produce the key (refuted). Proved for the state that answers for the key id, for ever."
  },
  {
   "property": "C56",
   "status": "partial",
   "theorems": [
    "C56_stored_bounded_refuted",
    "C56_stored_exact_partial"
   ],
   "note": "False: the limit is never applied, n lost messages leave n stored keys for every n below 2^32-3 (refuted). The exact effect of each message on the stored keys is proved."
  },
  {
   "property": "C57",
   "status": "partial",
   "theorems": [
    "C57_states_bounded_refuted",
    "C57_process_adds_one_partial"
   ],
   "note": "False: every processed distribution message appends a state (refuted for every number); exactly one per message is proved."
  },
  {
   "property": "C58",
   "status": "proved",
   "theorems": [
    "C58_create_idempotent"
   ],
   "note": "For all stores; includes the first creation."
  },
  {
   "property": "C59",
   "status": "partial",
   "theorems": [
    "C59_concurrent_refuted",
    "C59_serial_partial",
    "C59_overlap_refuted"
   ],
   "note": "False exactly for the schedules under which the two calls overlap: every such schedule gives both messages one iteration (refuted, for all states); every other schedule gives different iterations (partial)."
  },
  {
   "property": "C60",
   "status": "partial",
   "theorems": [
    "C60_session_refuted",
    "C60_group_refuted",
    "C60_msg_serial_partial",
    "C60_pkmsg_serial_partial",
    "C60_group_serial_partial",
    "C60_group_overlap_refuted"
   ],
   "note": "False when the calls overlap, for sessions and groups (refuted); for a group every overlapping schedule gives both calls the outcome of one (refuted, for all states). For every schedule without overlap the two are not both accepted (partial)."
  },
  {
   "property": "C61",
   "status": "proved",
   "theorems": [
    "C61_states",
    "C61_sent",
    "C61_message",
    "C61_prekey_message",
    "C61_received"
   ],
   "note": ""
  },
  {
   "property": "C62",
   "status": "partial",
   "theorems": [
    "C62_delete_all_refuted",
    "C62_delete_none_partial",
    "C62_delete_first_partial"
   ],
   "note": "False under Python 3: the dictionary changes size during its iteration, so the call raises RuntimeError after the first deletion (refuted). The two partial theorems say exactly what the call does."
  },
  {
   "property": "C63",
   "status": "partial",
   "theorems": [
    "C63_remove_refuted",
    "C63_remove_partial"
   ],
   "note": "False for InMemoryAxolotlStore, which calls the inner store without its argument (refuted). The inner store does it (partial)."
  },
  {
   "property": "C64",
   "status": "proved",
   "theorems": [
    "C64_devices"
   ],
   "note": ""
  },
  {
   "property": "C65",
   "status": "proved",
   "theorems": [
    "C65_contains",
    "C65_load",
    "C65_model"
   ],
   "note": ""
  },
  {
   "property": "C66",
   "status": "proved",
   "theorems": [
    "C66_trusted_stays",
    "C66_trusted_stays_pair"
   ],
   "note": ""
  },
  {
   "property": "C67",
   "status": "partial",
   "theorems": [
    "C67_pinned_refuted",
    "C67_pinned_partial"
   ],
   "note": "False if a call is killed between storing the session and saving the identity (refuted). Holds in histories without killed calls (partial)."
  },
  {
   "property": "C68",
   "status": "partial",
   "theorems": [
    "C68_serial_partial",
    "C68_race_refuted",
    "C68_sequential_partial"
   ],
   "note": "False when both check before either saves (refuted). One after the other the second is refused, and under any schedule without overlap not both succeed (partial)."
  },
  {
   "property": "C69",
   "status": "proved",
   "theorems": [
    "C69_encrypt_outcome"
   ],
   "note": "Both directions, in all histories; a refused call leaves the stores unchanged."
  },
  {
   "property": "C70",
   "status": "partial",
   "theorems": [
    "C70_only_library_exceptions_refuted",
    "C70_short_key_refuted",
    "C70_decryptMsg_partial",
    "C70_decryptPkmsg_partial",
    "C70_bundle_partial",
    "C70_exchange_partial",
    "C70_start_succeeds"
   ],
   "note": "False as stated: a message whose ratchet key has a wrong length raises ValueError in every session that can send (proved for all such messages). The partial theorems give, for each of decryptMsg, decryptPkmsg, processPreKeyBundle and processKeyExchangeMessage, the complete list of exceptions and when a foreign one can occur. Starting a key exchange never fails. Missing: the property itself, which the code violates."
  },
  {
   "property": "C71",
   "status": "proved",
   "theorems": [
    "C71_stored_sessions_readable"
   ],
   "note": "All histories, also with calls that die half-way."
  },
  {
   "property": "C72",
   "status": "proved",
   "theorems": [
    "C72_message",
    "C72_prekey_message"
   ],
   "note": "The whole new state in all fields, for both kinds of messages."
  },
  {
   "property": "C73",
   "status": "proved",
   "theorems": [
    "C73_message",
    "C73_after_step"
   ],
   "note": "The whole message and the whole new world."
  },
  {
   "property": "C74",
   "status": "proved",
   "theorems": [
    "C74_bundle",
    "C74_start",
    "C74_answer",
    "C74_end"
   ],
   "note": "The whole new world and message of each of the four handshake calls."
  },
  {
   "property": "C75",
   "status": "proved",
   "theorems": [
    "C75_decrypt",
    "C75_encrypt",
    "C75_create",
    "C75_create_again",
    "C75_process"
   ],
   "note": "decrypt as an equivalence; the other calls with their whole new world and message."
  },
  {
   "property": "C76",
   "status": "proved",
   "theorems": [
    "C76_readable",
    "C76_decrypt",
    "C76_encrypt",
    "C76_encrypt_failed",
    "C76_create",
    "C76_process"
   ],
   "note": "Failure of decrypt and encrypt as equivalences. That ValueError can come out at all is how the code is, and part of the statement; examples show each case."
  },
  {
   "property": "C77",
   "status": "proved",
   "theorems": [
    "C77_peers",
    "C77_groups",
    "C77_schedules"
   ],
   "note": "Simulation between the interleaved and the single execution, for any number of calls. For two calls on the same peer device it is false, see C45, C59 and the example beside the theorem."
  },
  {
   "property": "C78",
   "status": "partial",
   "theorems": [
    "C78_one_at_a_time_partial"
   ],
   "note": "Every such history is turned into a sequential one with the same ciphertexts, to which the invariant of C50 applies. Partial like C50: it is excluded that a key exchange is finished twice, with which the property is refuted there."
  },
  {
   "property": "C79",
   "status": "proved",
   "theorems": [
    "C79_iterations_increase",
    "C79_decrypted_once"
   ],
   "note": "Histories with calls elsewhere in flight are turned into sequential ones with the same results (turns_between), to which C53 and C54 apply."
  },
  {
   "property": "C80",
   "status": "partial",
   "theorems": [
    "C80_replay_replaces_refuted",
    "C80_response_once_partial"
   ],
   "note": "False for messages that start an exchange: each repetition is answered and replaces the session, and after 41 repetitions none of the former states is stored (refuted, for all worlds and all such messages; the example loses a message). Messages that end an exchange are used once (partial)."
  },
  {
   "property": "C81",
   "status": "partial",
   "theorems": [
    "C81_unsigned_fields_refuted",
    "C81_base_key_partial"
   ],
   "note": "False: only the base key is signed, so ratchet key, number and flags of any offer can be exchanged for any others (refuted, for all worlds and offers). Base key and identity are as the sender made them (partial)."
  },
  {
   "property": "C82",
   "status": "partial",
   "theorems": [
    "C82_bounded_refuted",
    "C82_distinct_partial"
   ],
   "note": "Refuted: k messages that the peer can make leave 2000*k keys in one chain, up to the range of the counter. Proved: the stored numbers of a chain are distinct and below its index; per message at most 2000 are added (C07)."
  },
  {
   "property": "C83",
   "status": "partial",
   "theorems": [
    "C83_registration_refuted",
    "C83_ids_refuted",
    "C83_identity_refuted",
    "C83_inside_partial"
   ],
   "note": "Refuted: the registration id can be changed in every message; for a known session also the prekey ids, and the identity key if none is stored for the peer, which is then saved. Proved: the message inside is authentic for the identity keys of the session, which for a new session come from the wrapper."
  },
  {
   "property": "C84",
   "status": "proved",
   "theorems": [
    "C84_conversation",
    "C84_from_bundle"
   ],
   "note": "C84_conversation is C01 for the relation busy, in which other activity may come between any two steps; C84_from_bundle is C11 likewise, as long as the prekeys of the bundle stay in the store until the first message is in and the peer stays trusted. Key exchange messages with a valid signature of a trusted identity replace the session and are not among the refused messages."
  },
  {
   "property": "C85",
   "status": "proved",
   "theorems": [
    "C85_sessions"
   ],
   "note": "Any number of sessions up to the 41 a record keeps, crossing prekey messages included. MAC accidents are excluded at the move where they happen (mixed_up) and are stated in terms of the key and MAC functions; they cannot be excluded by laws on crypto that the real primitives satisfy."
  },
  {
   "property": "C86",
   "status": "partial",
   "theorems": [
    "C86_accepts",
    "C86_encoded_partial",
    "C86_serialized",
    "C86_one_key",
    "C86_refuses",
    "C86_index_error",
    "C86_offset_refuted",
    "C86_short_refuted"
   ],
   "note": "Accepted inputs are characterised exactly. What is missing: a key that is encoded at an offset other than 0 is refused unless the string itself begins with the type byte (C86_offset_refuted), a key with fewer than 32 bytes is accepted (C86_short_refuted), and where there is no byte to look at the exception is IndexError (C86_index_error)."
  },
  {
   "property": "C87",
   "status": "proved",
   "theorems": [
    "C87_exact",
    "C87_refuses",
    "C87_only_error",
    "C87_roundtrip"
   ],
   "note": "The decoder of hex_codec is modelled as binascii.a2b_hex."
  },
  {
   "property": "C88",
   "status": "proved",
   "theorems": [
    "C88_install",
    "C88_contact",
    "C88_everyone"
   ],
   "note": "C88_install, C88_contact and C88_everyone quantify over every world, i.e. every random source. Freshness of the drawn public keys is a hypothesis, as in C75. The README also calls KeyHelper.generateLastResortKey, which the code does not define; it is left out of the model."
  },
  {
   "property": "C89",
   "status": "proved",
   "theorems": [
    "C89_chats",
    "C89_runs"
   ],
   "note": "C89_chats extends C29 to many senders; channels need different names, as the sender key store is indexed by them (C37 has the names for which the serialised form is the same)."
  },
  {
   "property": "C90",
   "status": "partial",
   "theorems": [
    "C90_fields",
    "C90_no_fields",
    "C90_unambiguous",
    "C90_whisper",
    "C90_prekey",
    "C90_exchange",
    "C90_distribution",
    "C90_sender_key_partial",
    "C90_sender_key_refuted"
   ],
   "note": "Partial because the code violates it for sender key messages: with fewer than 65 bytes the slice that should hold the fields gets a negative bound, so up to 32 bytes of anything after a version byte 3x are accepted as message 0 of key 0 (C90_sender_key_refuted); from 65 bytes on the statement is exact (C90_sender_key_partial). The other four kinds and the wire format are proved in full."
  },
  {
   "property": "C91",
   "status": "proved",
   "theorems": [
    "C91_send",
    "C91_group_send",
    "C91_receive",
    "C91_receive_one_state",
    "C91_receive_first",
    "C91_group_receive"
   ],
   "note": "Received messages: with archived states, which state opens a message may depend on its MAC; the theorem asks that two states do not both fit, and needs no condition when there is one state (C91_receive_one_state)."
  },
  {
   "property": "C92",
   "status": "partial",
   "theorems": [
    "C92_send",
    "C92_group_send",
    "C92_receive",
    "C92_group_receive",
    "C92_receive_first",
    "C92_exchange_kept",
    "C92_exchange_refuted"
   ],
   "note": "Forward secrecy as non-interference; the primitives are arbitrary, so that inverting them is hard is not part of the statement. Proved for every message sent and received and for one-time prekeys. Partial because the code violates it for sessions from a key exchange: when the answer is processed the state with the private keys of the exchange is archived as it is (C92_exchange_kept), and the first messages of the session can be opened from the archive and the recorded answer after their keys have been removed (C92_exchange_refuted)."
  },
  {
   "property": "C93",
   "status": "proved",
   "theorems": [
    "C93_session",
    "C93_session_unambiguous",
    "C93_sender",
    "C93_prekey",
    "C93_signed",
    "C93_identity",
    "C93_session_refused",
    "C93_sender_refused",
    "C93_prekey_refused",
    "C93_signed_refused",
    "C93_session_written",
    "C93_sender_written",
    "C93_prekey_written",
    "C93_signed_written",
    "C93_identity_written"
   ],
   "note": "The numbering and types are those of the .proto file; that the generated module storageprotos_pb2.py says the same was compared by reading. The empty string is special: a fresh session record, no sender keys, TypeError for prekeys."
  },
  {
   "property": "C94",
   "status": "partial",
   "theorems": [
    "C94_kept_partial",
    "C94_wrapped_refuted"
   ],
   "note": "Holds while no more prekeys are generated in total than there are numbers (C94_kept_partial). After that the numbers repeat, as the comment in the code announces, and a prekey still on offer is replaced by the one that gets its number (C94_wrapped_refuted)."
  },
  {
   "property": "C95",
   "status": "proved",
   "theorems": [
    "C95_any_order",
    "C95_fates"
   ],
   "note": "Full statement. That the device is left the same to the byte rests on the stored keys always being in ascending order, which is part of what is shown. With the same key id and iteration claimed twice the message delivered first wins (Example C95_same_twice)."
  },
  {
   "property": "C96",
   "status": "proved",
   "theorems": [
    "C96_any_order"
   ],
   "note": "Full statement. The messages need only be readable one by one at the start; that they can all be read together is part of what is shown. The stored keys are left in the same order, not just the same up to order. Without room for the new chain the order does matter, because the oldest chain is dropped (Example C96_no_room)."
  },
  {
   "property": "C97",
   "status": "proved",
   "theorems": [
    "C97_any_first"
   ],
   "note": "Full statement. Shown by moving the setting up of the session in front of the first decryption, after which C96 applies. Two messages of the same number: the second one delivered is refused (Example C97_same_twice)."
  },
  {
   "property": "C98",
   "status": "proved",
   "theorems": [
    "C98_signed",
    "C98_prekey",
    "C98_known",
    "C98_removed"
   ],
   "note": "Full statement. The result and the stores are compared exactly; the stores differ by the change of that one prekey only."
  },
  {
   "property": "C99",
   "status": "proved",
   "theorems": [
    "C99_alice",
    "C99_bob",
    "C99_symmetric",
    "C99_calls",
    "C99_indistinguishable"
   ],
   "note": "Full statement. Params.v models the three classes and the calls that use them as written; C99_calls relates these to the definitions of Ratchet.v and Builder.v that all other claims are about. Arguments of other Python types than the documented ones are not modelled."
  },
  {
   "property": "C100",
   "status": "proved",
   "theorems": [
    "C100_agree",
    "C100_equal",
    "C100_turned",
    "C100_other_lengths"
   ],
   "note": "Full statement. The order itself (signed big-endian words, transitivity) is in C19. In Python 3 [>] asks the other key for [<]; [<=] and [>=] are not defined by the class and are not modelled."
  }
 ]
}