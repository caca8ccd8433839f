{
 "claims": [
  {
   "property": "C01",
   "status": "proved",
   "theorems": [
    "C01_first_message"
   ],
   "note": "Whole path BuildSenderSession, SessionEncryptMessage, SessionDecrypt*; any crypto satisfying crypto_ok; B may hold earlier sessions with A."
  },
  {
   "property": "C02",
   "status": "proved",
   "theorems": [
    "C02_conversation"
   ],
   "note": "All schedules of sends, deliveries, losses, reorderings, repetitions and injections; injected bytes are assumed to be refused when presented (forgery is treated in C07); fresh ratchet keys assumed distinct; fewer than 2^32 actions."
  },
  {
   "property": "C03",
   "status": "proved",
   "theorems": [
    "C03_any_order"
   ],
   "note": "Any number of texts, any arrival order within the 2000 limit."
  },
  {
   "property": "C05",
   "status": "proved",
   "theorems": [
    "C05_rejected_message_changes_nothing",
    "C05_accepted_message_frame"
   ],
   "note": "All stores, all byte strings; an ordinary message that is accepted writes only its own session."
  },
  {
   "property": "C06",
   "status": "proved",
   "theorems": [
    "C06_rejected_prekey_message_sets_identity_refuted",
    "C06_genuine_peer_locked_out_refuted",
    "C06_stored_identity_partial"
   ],
   "note": "FALSE of the code: BuildReceiverSession saves the identity before the message is authenticated; refutations with a concrete forged message, after which the genuine peer is locked out. Positive part: an identity already stored is not replaced."
  },
  {
   "property": "C07",
   "status": "proved",
   "theorems": [
    "C07_state_accepts_only_valid_macs",
    "C07_accepted_message_has_valid_mac",
    "C07_second_string_is_forgery"
   ],
   "note": "Unforgeability itself is not assumed; the theorem reduces acceptance to possession of a valid tag."
  },
  {
   "property": "C10",
   "status": "proved",
   "theorems": [
    "C10_too_far_refused",
    "C10_near_not_refused",
    "C10_growth_of_record",
    "C10_limit_on_32_bit_platform_refuted"
   ],
   "note": "Proved for 64-bit int; on a 32-bit platform the limit can be evaded (refuted, int conversion of uint32 counter)."
  },
  {
   "property": "C13",
   "status": "proved",
   "theorems": [
    "C13_known_base_key_is_an_ordinary_message",
    "C13_known_base_key_uses_no_prekey"
   ],
   "note": ""
  },
  {
   "property": "C14",
   "status": "partial",
   "theorems": [
    "C14_prekey_zero_removed_refuted",
    "C14_prekey_removed_only_by_use",
    "C14_used_prekey_is_removed"
   ],
   "note": "FALSE as stated for prekey id 0 (refuted: prekey 0 is removed although the message named none, or never used); proved for all other ids, including that the last-resort key is never removed."
  },
  {
   "property": "C17",
   "status": "proved",
   "theorems": [
    "C17_session_needs_valid_signature"
   ],
   "note": ""
  },
  {
   "property": "C18",
   "status": "proved",
   "theorems": [
    "C18_whisper_round_trip",
    "C18_prekey_round_trip"
   ],
   "note": ""
  },
  {
   "property": "C19",
   "status": "proved",
   "theorems": [
    "C19_parse_panics_refuted",
    "C19_whisper_panic_iff",
    "C19_prekey_panic_iff"
   ],
   "note": "FALSE of the code: short inputs panic; exact characterisation of the panicking inputs proved."
  },
  {
   "property": "C20",
   "status": "proved",
   "theorems": [
    "C20_cbc_round_trip"
   ],
   "note": ""
  },
  {
   "property": "C21",
   "status": "proved",
   "theorems": [
    "C21_padding_refuted",
    "C21_panic_iff",
    "C21_accepts_iff"
   ],
   "note": "FALSE of the code: padding bytes other than the last are not checked; exact characterisation of accepted and panicking inputs proved."
  },
  {
   "property": "C04",
   "status": "partial",
   "theorems": [
    "C04_replay_accepted_refuted",
    "C04_no_replay_partial"
   ],
   "note": "FALSE as stated: a message of an archived session can be decrypted twice (refuted, witness of four receptions). Proved for all histories in which the record has no archived states, the chain has not been dropped and counters stay below 2^32-2001."
  },
  {
   "property": "C08",
   "status": "partial",
   "theorems": [
    "C08_position_reused_refuted",
    "C08_positions_distinct_partial",
    "C08_bound",
    "C08_one_late"
   ],
   "note": "FALSE as stated: after late messages of an archived session, B reuses a (ratchet key, counter) pair (refuted). Proved for all histories, with crashes, in which accepted messages are accepted by the newest state; for all histories, a position is used at most max(1, n) times, n the number of messages taken by archived sessions (C08_bound; reached in the example), so two such messages are needed before one is used twice (C08_one_late)."
  },
  {
   "property": "C09",
   "status": "proved",
   "theorems": [
    "C09_crash_while_sending"
   ],
   "note": "Any sequence of encryptions to anyone, each possibly interrupted after any of its writes."
  },
  {
   "property": "C11",
   "status": "proved",
   "theorems": [
    "C11_bound_refuted",
    "C11_keys_grow",
    "C11_keys_kept"
   ],
   "note": "FALSE of the code: the limit is on the distance of one jump, not on the number of kept keys; 2000 k keys in one chain for every k, and an exact count in general."
  },
  {
   "property": "C12",
   "status": "proved",
   "theorems": [
    "C12_bounded_records"
   ],
   "note": "All histories with crashes."
  },
  {
   "property": "C15",
   "status": "partial",
   "theorems": [
    "C15_first_message_lost_refuted",
    "C15_retry_partial"
   ],
   "note": "FALSE as stated: a stop between removal of the prekey and the store of the session loses the message and the session (refuted). Proved for stops before the removal."
  },
  {
   "property": "C16",
   "status": "proved",
   "theorems": [
    "C16_identity_pinned",
    "C16_files",
    "C16_files_after_saving"
   ],
   "note": "Applies when the user has not configured to trust all identities."
  },
  {
   "property": "C61",
   "status": "proved",
   "theorems": [
    "C61_late_message_damages_newer_session_refuted"
   ],
   "note": "FALSE of the code: the failed attempt with the newer session state changes it in place and the changed state is stored."
  },
  {
   "property": "C62",
   "status": "proved",
   "theorems": [
    "C62_prekey_id_zero_refuted"
   ],
   "note": "FALSE of the code for id 0, which randID can return. The positive statement for ids other than 0 is C01."
  },
  {
   "property": "C22",
   "status": "proved",
   "theorems": [
    "C22_session_round_trip",
    "C22_files_follow_history"
   ],
   "note": "The second theorem lifts the round trip to all histories of API calls with crashes: files written along the history, plain or encrypted and with any ivs, represent the abstract stores used in the other theorems. Records must serialise to less than 2^63 bytes."
  },
  {
   "property": "C23",
   "status": "proved",
   "theorems": [
    "C23_prekey_round_trip",
    "C23_signed_prekey_round_trip",
    "C23_stored_prekey"
   ],
   "note": ""
  },
  {
   "property": "C24",
   "status": "proved",
   "theorems": [
    "C24_storage_round_trip",
    "C24_write_succeeds",
    "C24_tamper_detection",
    "C24_unauthenticated_refused",
    "C24_identity_round_trip"
   ],
   "note": ""
  },
  {
   "property": "C25",
   "status": "proved",
   "theorems": [
    "C25_damaged_file_panics_refuted",
    "C25_short_files_panic",
    "C25_no_other_panic"
   ],
   "note": "FALSE of the code: files of fewer than 32 bytes panic; every longer file that is not authenticated is an error."
  },
  {
   "property": "C26",
   "status": "proved",
   "theorems": [
    "C26_session_files_distinct",
    "C26_directory_invariant",
    "C26_delete_all",
    "C26_names"
   ],
   "note": "Recipient ids containing a path separator are outside the model."
  },
  {
   "property": "C27",
   "status": "proved",
   "theorems": [
    "C27_prekey_names_distinct",
    "C27_prekey_name_read_back",
    "C27_prekey_name_order"
   ],
   "note": ""
  },
  {
   "property": "C28",
   "status": "proved",
   "theorems": [
    "C28_number_round_trip",
    "C28_generated_range",
    "C28_cut_down"
   ],
   "note": ""
  },
  {
   "property": "C29",
   "status": "proved",
   "theorems": [
    "C29_torn_write_refuted",
    "C29_torn_encrypted_panics"
   ],
   "note": "FALSE of the code: ioutil.WriteFile truncates before writing."
  },
  {
   "property": "C63",
   "status": "proved",
   "theorems": [
    "C63_damaged_session_is_forgotten_refuted",
    "C63_every_damaged_session"
   ],
   "note": "FALSE of the code."
  },
  {
   "property": "C64",
   "status": "proved",
   "theorems": [
    "C64_devices_of_other_recipients_refuted",
    "C64_devices_complete",
    "C64_devices_of_someone"
   ],
   "note": "FALSE of the code: the recipient is ignored; what holds is that no device of the recipient is left out and every device returned belongs to some recipient."
  },
  {
   "property": "C51",
   "status": "proved",
   "theorems": [
    "C51_base64_round_trip",
    "C51_key_round_trip",
    "C51_key_accepted_iff",
    "C51_key_never_short",
    "C51_signature_accepted_iff",
    "C51_alphabet"
   ],
   "note": ""
  },
  {
   "property": "C52",
   "status": "proved",
   "theorems": [
    "C52_uuid_form",
    "C52_uuid_injective",
    "C52_uuid_hex_consistent",
    "C52_hex_text_idempotent",
    "C52_valid_iff_version4"
   ],
   "note": ""
  },
  {
   "property": "C53",
   "status": "proved",
   "theorems": [
    "C53_stream_round_trip",
    "C53_contacts_round_trip",
    "C53_groups_round_trip"
   ],
   "note": ""
  },
  {
   "property": "C65",
   "status": "proved",
   "theorems": [
    "C65_valid_uuid_has_only_digits_refuted",
    "C65_valid_uuid_except_bar",
    "C65_accepted"
   ],
   "note": "FALSE of the code: the character class [8|9|aA|bB] also accepts a vertical bar; that is the only wrong text accepted."
  },
  {
   "property": "C30",
   "status": "proved",
   "theorems": [
    "C30_padding",
    "C30_padding_hides_length"
   ],
   "note": ""
  },
  {
   "property": "C31",
   "status": "proved",
   "theorems": [
    "C31_exchange"
   ],
   "note": "Whole exchanges of any length with any server; also that every entry of every request is an encryption of the same padded content and that the message of a stale device is a prekey message from a newly fetched bundle."
  },
  {
   "property": "C32",
   "status": "proved",
   "theorems": [
    "C32_sending_never_ends_refuted",
    "C32_sending_ends"
   ],
   "note": "FALSE of the code for a server that keeps answering 409; it ends if 409 and 410 are answered finitely often."
  },
  {
   "property": "C33",
   "status": "proved",
   "theorems": [
    "C33_device_addressed_twice_refuted",
    "C33_device_addressed_once"
   ],
   "note": "FALSE of the code for a server that calls a device missing that was addressed; holds for servers that do not."
  },
  {
   "property": "C34",
   "status": "proved",
   "theorems": [
    "C34_build_panics_refuted",
    "C34_build_never_panics"
   ],
   "note": "FALSE of the code: a prekey text that does not decode, or a reply about another device, panics; it does not panic otherwise."
  },
  {
   "property": "C35",
   "status": "proved",
   "theorems": [
    "C35_content",
    "C35_end_to_end",
    "C35_text_reaches_callback",
    "C35_voice_name"
   ],
   "note": "End to end for a first message, from the send API through the server to the receiver's parser; for later messages the content theorem composes with C02 and with the clause of C31 on what requests carry."
  },
  {
   "property": "C36",
   "status": "proved",
   "theorems": [
    "C36_group_context_lost_refuted"
   ],
   "note": "FALSE of the code: createMessage ignores the v1 group for every message."
  },
  {
   "property": "C66",
   "status": "proved",
   "theorems": [
    "C66_refused_sync_copy_panics_refuted",
    "C66_every_refusal"
   ],
   "note": "FALSE of the code: sendSyncMessage dereferences a nil response."
  },
  {
   "property": "C67",
   "status": "proved",
   "theorems": [
    "C67_sending_leaves_others_alone"
   ],
   "note": "Recipients whose ids differ only by a leading plus sign share their stored state."
  },
  {
   "property": "C37",
   "status": "proved",
   "theorems": [
    "C37_acknowledgements",
    "C37_ids",
    "C37_wire",
    "C37_response_acknowledged_refuted"
   ],
   "note": "Order, uniqueness and timing hold for all frame sequences. FALSE of the code in one respect: a frame that is not a request is acknowledged too, with id 0."
  },
  {
   "property": "C38",
   "status": "proved",
   "theorems": [
    "C38_unauthenticated_envelope_refuted",
    "C38_unauthenticated_is_processed",
    "C38_sealed_round_trip"
   ],
   "note": "FALSE of the code: every body whose MAC does not verify is processed as an unsealed envelope; sealed bodies are opened correctly."
  },
  {
   "property": "C39",
   "status": "proved",
   "theorems": [
    "C39_listener_crashes_refuted",
    "C39_short_bodies_crash",
    "C39_unparsable_bodies_crash"
   ],
   "note": "FALSE of the code: bodies of fewer than ten bytes and bodies that are no envelope panic."
  },
  {
   "property": "C40",
   "status": "proved",
   "theorems": [
    "C40_one_handler",
    "C40_words"
   ],
   "note": ""
  },
  {
   "property": "C41",
   "status": "proved",
   "theorems": [
    "C41_end_session",
    "C41_end_session_api",
    "C41_keys_stay",
    "C41_end_session_keeps"
   ],
   "note": "For sender ids without a leading plus sign; both for a received end-session message (identified or sealed sender) and for the EndSession call."
  },
  {
   "property": "C68",
   "status": "proved",
   "theorems": [
    "C68_foreign_sync_obeyed_refuted",
    "C68_any_sender_ends_sessions"
   ],
   "note": "FALSE of the code: the sender is not looked at."
  },
  {
   "property": "C69",
   "status": "proved",
   "theorems": [
    "C69_peer_can_crash_client_refuted",
    "C69_other_contents_are_safe",
    "C69_types"
   ],
   "note": "FALSE of the code: receipts without timestamps or type, data messages without timestamp and attachments with short keys panic; contents with timestamps and without attachments and groups do not."
  },
  {
   "property": "C70",
   "status": "proved",
   "theorems": [
    "C70_message_lost_in_crash_refuted"
   ],
   "note": "FALSE of the code: the session is stored before the callback is called."
  },
  {
   "property": "C71",
   "status": "proved",
   "theorems": [
    "C71_acknowledged_but_lost_refuted"
   ],
   "note": "FALSE of the code."
  },
  {
   "property": "C72",
   "status": "proved",
   "theorems": [
    "C72_call_message_refuted",
    "C72_call_callback_never_called",
    "C72_words",
    "C72_numbers"
   ],
   "note": "FALSE of the code: no content ever reaches the call callback."
  },
  {
   "property": "C73",
   "status": "proved",
   "theorems": [
    "C73_legacy_message_lost_refuted"
   ],
   "note": "FALSE of the code: the error of the first attempt is returned although the second succeeded (shadowed variable)."
  },
  {
   "property": "C74",
   "status": "proved",
   "theorems": [
    "C74_attribution"
   ],
   "note": "Sealed-sender envelopes are excluded: their sender is what the helper process reports."
  },
  {
   "property": "C75",
   "status": "proved",
   "theorems": [
    "C75_text_copy_arrives",
    "C75_copy_is_posted",
    "C75_end_session_copy_refused_refuted"
   ],
   "note": "Holds for texts. FALSE of the code for session resets addressed to a UUID: the flag is applied to the absent phone number and fails."
  },
  {
   "property": "C76",
   "status": "proved",
   "theorems": [
    "C76_duplicate_is_an_error_refuted",
    "C76_duplicate_never_reported"
   ],
   "note": "FALSE of the code: SessionCipher.decrypt replaces every error."
  },
  {
   "property": "C49",
   "status": "proved",
   "theorems": [
    "C49_safety_number",
    "C49_twelve_blocks",
    "C49_number_determines_halves",
    "C49_key_order_irrelevant",
    "C49_smaller_first"
   ],
   "note": "over an arbitrary hash function"
  },
  {
   "property": "C50",
   "status": "proved",
   "theorems": [
    "C50_when_it_crashes",
    "C50_own_number_crashes",
    "C50_own_number_refuted"
   ],
   "note": "FALSE of the code: computing the number for two equal halves panics, so the safety number with oneself always crashes; the theorems state exactly when it does"
  },
  {
   "property": "C54",
   "status": "partial",
   "theorems": [
    "C54_upload_is_the_store",
    "C54_published",
    "C54_last_resort_mixed_up",
    "C54_last_resort_refuted"
   ],
   "note": "holds when the random starting id leaves 100 ids below 0xFFFFFF; FALSE otherwise: a one-time key is then published as the last-resort key and the last-resort key as a one-time key"
  },
  {
   "property": "C55",
   "status": "proved",
   "theorems": [
    "C55_round_trip",
    "C55_upload_succeeds",
    "C55_authentic",
    "C55_refused",
    "C55_size",
    "C55_where"
   ],
   "note": "a file or a key shorter than 32 bytes crashes the client instead of being refused (C69)"
  },
  {
   "property": "C56",
   "status": "partial",
   "theorems": [
    "C56_encrypt_decrypt",
    "C56_round_trip",
    "C56_name_with_final_zero_refuted",
    "C56_too_long",
    "C56_authentic",
    "C56_published_name_is_read"
   ],
   "note": "holds for names not ending in a zero byte; FALSE for the others, whose final zero bytes are lost"
  },
  {
   "property": "C77",
   "status": "proved",
   "theorems": [
    "C77_digest_decides_refuted",
    "C77_digest_ignored",
    "C77_where"
   ],
   "note": "FALSE of the code: the digest is never checked"
  },
  {
   "property": "C78",
   "status": "proved",
   "theorems": [
    "C78_uploading_never_crashes_refuted",
    "C78_when_uploading_crashes",
    "C78_relative_path"
   ],
   "note": "FALSE of the code: an answer without a Location header panics; the theorems state exactly when"
  },
  {
   "property": "C79",
   "status": "proved",
   "theorems": [
    "C79_name_is_decrypted_refuted",
    "C79_second_answer_wins",
    "C79_undecryptable_is_no_error",
    "C79_with_credential",
    "C79_fields",
    "C79_unmentioned"
   ],
   "note": "FALSE of the code: GetProfile reads the answer to a second request over the decrypted profile, and only logs decryption errors"
  },
  {
   "property": "C57",
   "status": "proved",
   "theorems": [
    "C57_query_exact",
    "C57_query_injective",
    "C57_request_opens",
    "C57_all_asked",
    "C57_answers",
    "C57_asked_once",
    "C57_written_numbers",
    "C57_only_numbers"
   ],
   "note": ""
  },
  {
   "property": "C58",
   "status": "proved",
   "theorems": [
    "C58_load_finds",
    "C58_load_only",
    "C58_update",
    "C58_update_history"
   ],
   "note": ""
  },
  {
   "property": "C59",
   "status": "proved",
   "theorems": [
    "C59_cache_never_refreshed",
    "C59_exactly_a_week",
    "C59_garbage_is_for_ever",
    "C59_always_obtained_refuted"
   ],
   "note": "FALSE of the code: the credentials are fetched once per process, so there is none after a week; an answer that cannot be decoded is kept as an empty list for ever"
  },
  {
   "property": "C60",
   "status": "proved",
   "theorems": [
    "C60_what_is_left",
    "C60_verify_twice",
    "C60_verify_twice_refuted"
   ],
   "note": "FALSE of the code: Verify clears the sign bit of the signature it is given; a genuine signature of a key with that sign is refused the second time"
  },
  {
   "property": "C80",
   "status": "partial",
   "theorems": [
    "C80_restart",
    "C80_load_consistent",
    "C80_update_consistent",
    "C80_unregistered_collapse",
    "C80_restart_refuted",
    "C80_update_survives"
   ],
   "note": "holds for tables made by loading and updating profile keys; FALSE after a synchronisation, which gives all unregistered contacts the same zero UUID, so that one of them is left after a restart"
  },
  {
   "property": "C81",
   "status": "proved",
   "theorems": [
    "C81_table_is_the_address_book",
    "C81_learned_key_kept_refuted"
   ],
   "note": "FALSE of the code: the table is rebuilt from the address book"
  },
  {
   "property": "C82",
   "status": "proved",
   "theorems": [
    "C82_one_number_spoils_all_refuted",
    "C82_all_or_nothing",
    "C82_extension"
   ],
   "note": "FALSE of the code: a number with a space passes the filter but is no integer, and the whole synchronisation fails"
  },
  {
   "property": "C83",
   "status": "proved",
   "theorems": [
    "C83_short_answer_crashes",
    "C83_short_answer_refuted"
   ],
   "note": "FALSE of the code: an answer with fewer than 16 bytes per number panics"
  },
  {
   "property": "C84",
   "status": "partial",
   "theorems": [
    "C84_refresh",
    "C84_refresh_honest",
    "C84_other_contact_replaced_refuted"
   ],
   "note": "holds for servers that answer with the identifier asked for; FALSE otherwise"
  },
  {
   "property": "C85",
   "status": "proved",
   "theorems": [
    "C85_sign_verify",
    "C85_nonce"
   ],
   "note": "over the laws of the curve group given in edwards_ok"
  },
  {
   "property": "C42",
   "status": "partial",
   "theorems": [
    "C42_right_answer",
    "C42_late_answer_returns",
    "C42_early_answer_is_lost",
    "C42_reconnect_loses",
    "C42_answered_request_returns_refuted"
   ],
   "note": "FALSE of the code: an answer that arrives before the caller has made its channel is lost and the caller waits for ever; otherwise, with one request at a time, it is returned"
  },
  {
   "property": "C43",
   "status": "proved",
   "theorems": [
    "C43_member_removed",
    "C43_quit",
    "C43_quit_effective_refuted",
    "C43_left_group_is_still_there",
    "C43_leaving_is_effective_refuted",
    "C43_left_after_restart",
    "C43_half_left"
   ],
   "note": "FALSE of the code: somebody listed twice is still listed after quitting (and no code calls quitGroup); a group we left stays in memory with all members until a restart"
  },
  {
   "property": "C86",
   "status": "proved",
   "theorems": [
    "C86_requests_not_mixed_up_refuted"
   ],
   "note": "FALSE of the code: there is one channel variable for all"
  },
  {
   "property": "C87",
   "status": "proved",
   "theorems": [
    "C87_every_other_member",
    "C87_no_members"
   ],
   "note": ""
  },
  {
   "property": "C88",
   "status": "proved",
   "theorems": [
    "C88_stops_at_first_failure",
    "C88_one_member_spoils_it_refuted"
   ],
   "note": "FALSE of the code: the first failure ends the loop"
  },
  {
   "property": "C89",
   "status": "proved",
   "theorems": [
    "C89_update",
    "C89_renaming_keeps_members_refuted",
    "C89_new"
   ],
   "note": "FALSE of the code for every group: our own number is appended each time"
  },
  {
   "property": "C90",
   "status": "partial",
   "theorems": [
    "C90_restart",
    "C90_unwritten_update_refuted",
    "C90_avatar_directory_refuted",
    "C90_skipped"
   ],
   "note": "holds if every file could be written and the path of the storage directory does not contain the word avatar; FALSE otherwise"
  },
  {
   "property": "C44",
   "status": "proved",
   "theorems": [
    "C44_non_administrator",
    "C44_only_administrators_make_administrators"
   ],
   "note": "for every change, accepted, refused or broken off; zkgroup is a parameter"
  },
  {
   "property": "C45",
   "status": "proved",
   "theorems": [
    "C45_other_actions_do_not_matter_refuted",
    "C45_allowed_alone_refuted"
   ],
   "note": "FALSE of the code: groupImmut is the same pointer as the group, so each action is judged on what the earlier ones left"
  },
  {
   "property": "C46",
   "status": "proved",
   "theorems": [
    "C46_refused_title_is_set",
    "C46_refused_change_leaves_group_refuted",
    "C46_one_action_partial"
   ],
   "note": "FALSE of the code: nothing is rolled back; a single action other than adding or approving leaves the group as it was"
  },
  {
   "property": "C47",
   "status": "proved",
   "theorems": [
    "C47_no_change_is_accepted",
    "C47_title_by_administrator_refuted",
    "C47_with_limits"
   ],
   "note": "FALSE of the code for every group and change: the validator of ModifyGroup has zero for every limit; true with a validator that has limits"
  },
  {
   "property": "C48",
   "status": "proved",
   "theorems": [
    "C48_validated"
   ],
   "note": "exact: a group passes if and only if it is good"
  },
  {
   "property": "C91",
   "status": "proved",
   "theorems": [
    "C91_effects"
   ],
   "note": "said of ModifyGroup with any validator; with the one it uses nothing is accepted (C47)"
  },
  {
   "property": "C92",
   "status": "proved",
   "theorems": [
    "C92_no_invitation_is_accepted",
    "C92_action_alone",
    "C92_administrator_invites_refuted"
   ],
   "note": "FALSE of the code for every invitation: the validator forbids the profile key that the action demands; the action alone takes exactly the invitations of people not yet listed"
  },
  {
   "property": "C93",
   "status": "proved",
   "theorems": [
    "C93_accepting_makes_no_member",
    "C93_invited_user_joins_refuted"
   ],
   "note": "FALSE of the code"
  },
  {
   "property": "C94",
   "status": "proved",
   "theorems": [
    "C94_request_not_listed",
    "C94_approval_needs_listing",
    "C94_request_can_be_approved_refuted",
    "C94_asking_is_refused"
   ],
   "note": "FALSE of the code: requests go to one list, approvals are made from another"
  },
  {
   "property": "C95",
   "status": "proved",
   "theorems": [
    "C95_description_within_its_limit_refuted",
    "C95_limit_is_that_of_titles"
   ],
   "note": "FALSE of the code: the limit of titles is used"
  },
  {
   "property": "C96",
   "status": "proved",
   "theorems": [
    "C96_when_it_crashes",
    "C96_reachable",
    "C96_group_message_crashes_refuted",
    "C96_what_is_left"
   ],
   "note": "FALSE of the code: a message naming an unknown group about which the server tells nothing dereferences a nil group; the first theorem says exactly when"
  },
  {
   "property": "C97",
   "status": "proved",
   "theorems": [
    "C97_changes_are_signed"
   ],
   "note": "over all histories; zkgroup signatures are a parameter"
  },
  {
   "property": "C98",
   "status": "proved",
   "theorems": [
    "C98_stale_change_refuted",
    "C98_change_presented_again",
    "C98_invited",
    "C98_roles",
    "C98_rev_stays"
   ],
   "note": "FALSE of the code: a change stays with the group and is presented again with later messages, and the revision of a change is not compared with that of the group"
  },
  {
   "property": "C99",
   "status": "proved",
   "theorems": [
    "C99_sender_ignored",
    "C99_stranger_in_group_refuted"
   ],
   "note": "FALSE of the code: the sender is not looked at"
  },
  {
   "property": "C100",
   "status": "proved",
   "theorems": [
    "C100_found_iff",
    "C100_stored_group_not_found_refuted"
   ],
   "note": "FALSE of the code: files are only looked at while no group is in memory"
  },
  {
   "property": "C101",
   "status": "partial",
   "theorems": [
    "C101_answer_does_not_matter",
    "C101_refused_join_succeeds_refuted",
    "C101_what_is_sent"
   ],
   "note": "FALSE of the code: the outcome of the request is ignored; proved: what is asked for and on whose behalf"
  },
  {
   "property": "C102",
   "status": "proved",
   "theorems": [
    "C102_refused_update_keeps_all",
    "C102_unreadable_answer",
    "C102_failed_update_loses_group_refuted",
    "C102_update_keeps",
    "C102_status_stays"
   ],
   "note": "FALSE of the code for answers that cannot be decrypted; true when the server refuses"
  },
  {
   "property": "C103",
   "status": "proved",
   "theorems": [
    "C103_completeness_ignored",
    "C103_incomplete_answer_kept_refuted"
   ],
   "note": "FALSE of the code: the error of Unmarshal is not looked at"
  },
  {
   "property": "C104",
   "status": "partial",
   "theorems": [
    "C104_members_known",
    "C104_member_left_out_refuted"
   ],
   "note": "holds if every member can be decrypted; FALSE otherwise: the others are left out without an error"
  },
  {
   "property": "C105",
   "status": "partial",
   "theorems": [
    "C105_status",
    "C105_removed_is_invited_refuted",
    "C105_numbers"
   ],
   "note": "the first half holds; FALSE for invitations: everyone who is not a member is marked as invited"
  },
  {
   "property": "C106",
   "status": "partial",
   "theorems": [
    "C106_title",
    "C106_title_gets_a_letter_refuted",
    "C106_rest"
   ],
   "note": "exact: FALSE for titles of 32 to 126 bytes, which are preceded by the character whose code is their length"
  },
  {
   "property": "C107",
   "status": "partial",
   "theorems": [
    "C107_every_member",
    "C107_sent_to_oneself_refuted",
    "C107_stops_at_first_failure"
   ],
   "note": "goes to every member if all can be reached; FALSE of the code: also to ourselves, and to nobody after the first failure"
  },
  {
   "property": "C108",
   "status": "partial",
   "theorems": [
    "C108_success_uploads",
    "C108_never_again",
    "C108_retried_refuted",
    "C108_statuses"
   ],
   "note": "FALSE of the code: if the upload fails after the last-resort prekey was written, the installation counts as registered for ever; a start that registers and succeeds has uploaded the keys"
  },
  {
   "property": "C109",
   "status": "proved",
   "theorems": [
    "C109_identity_kept",
    "C109_told_once"
   ],
   "note": "over all lives with interruptions and failing writes; ordinary use keeps the identity directory and the last-resort prekey"
  },
  {
   "property": "C110",
   "status": "proved",
   "theorems": [
    "C110_key_replaced",
    "C110_stable_refuted"
   ],
   "note": "FALSE of the code: every start but the first replaces the key; the first theorem says by what"
  },
  {
   "property": "C111",
   "status": "partial",
   "theorems": [
    "C111_first_partial",
    "C111_matching_refuted",
    "C111_no_account"
   ],
   "note": "holds after a start that found no credential; FALSE after the next one"
  },
  {
   "property": "C112",
   "status": "proved",
   "theorems": [
    "C112_same_bytes_same_key",
    "C112_different_refuted"
   ],
   "note": "FALSE of the code when math/rand is not seeded (toolchains before Go 1.20): the key is a function of the bytes of math/rand"
  },
  {
   "property": "C113",
   "status": "proved",
   "theorems": [
    "C113_key_and_nonce",
    "C113_fresh_refuted",
    "C113_whatever_is_written",
    "C113_sizes"
   ],
   "note": "FALSE of the code when math/rand is not seeded (toolchains before Go 1.20)"
  },
  {
   "property": "C114",
   "status": "proved",
   "theorems": [
    "C114_kept_until",
    "C114_renewed_after",
    "C114_renewed_refuted"
   ],
   "note": "FALSE of the code: seconds are compared with milliseconds; the first two theorems say exactly when the certificate is renewed"
  },
  {
   "property": "C115",
   "status": "proved",
   "theorems": [
    "C115_stuck",
    "C115_recovers_refuted"
   ],
   "note": "FALSE of the code: bytes that are no certificate are stored, and every later start ends there"
  },
  {
   "property": "C116",
   "status": "partial",
   "theorems": [
    "C116_identity_partial",
    "C116_identity_refuted"
   ],
   "note": "holds if no file is damaged; FALSE with a damaged identity file and no certificate, because the error is overwritten"
  },
  {
   "property": "C117",
   "status": "proved",
   "theorems": [
    "C117_number_of_calls",
    "C117_once_refuted"
   ],
   "note": "FALSE of the code: three calls when registering, one at each other start"
  },
  {
   "property": "C118",
   "status": "partial",
   "theorems": [
    "C118_credentials_partial",
    "C118_account",
    "C118_credentials_refuted"
   ],
   "note": "holds if the store can be written; FALSE otherwise: the error of writing the password is ignored and an older one is used"
  },
  {
   "property": "C119",
   "status": "partial",
   "theorems": [
    "C119_linked_device_gets_the_account",
    "C119_bad_key_sends_nothing",
    "C119_profile_key_refuted",
    "C119_info"
   ],
   "note": "holds for everything but the profile key; FALSE for that: it is never sent"
  },
  {
   "property": "C120",
   "status": "partial",
   "theorems": [
    "C120_young_partial",
    "C120_stale",
    "C120_code_is_young_refuted"
   ],
   "note": "holds for runs in which every code that was asked for was also used; FALSE otherwise: after a failed attempt the code is kept without a timer, for any time"
  },
  {
   "property": "C121",
   "status": "partial",
   "theorems": [
    "C121_own_code_partial",
    "C121_two_devices_two_codes_refuted"
   ],
   "note": "holds for attempts at least ten seconds after the earlier ones; FALSE within ten seconds"
  },
  {
   "property": "C122",
   "status": "proved",
   "theorems": [
    "C122_code_from_an_answer",
    "C122_success_means_a_code_refuted"
   ],
   "note": "FALSE of the code: a refusal is read as the empty code; a code that is sent is from an answer, or empty"
  },
  {
   "property": "C123",
   "status": "partial",
   "theorems": [
    "C123_removed_partial",
    "C123_refused_is_success",
    "C123_unlinked_is_gone_refuted"
   ],
   "note": "holds if the server answers with success; FALSE for every other status, which is ignored"
  },
  {
   "property": "C124",
   "status": "proved",
   "theorems": [
    "C124_list_returned",
    "C124_failure_is_reported_refuted"
   ],
   "note": "FALSE of the code: an answer that is no list is an empty list or a crash; a list is returned as it is"
  },
  {
   "property": "C125",
   "status": "proved",
   "theorems": [
    "C125_keys_agree",
    "C125_authentic"
   ],
   "note": ""
  },
  {
   "property": "C126",
   "status": "proved",
   "theorems": [
    "C126_impostor_reads_the_address_book",
    "C126_only_a_genuine_enclave_refuted"
   ],
   "note": "FALSE of the code: quote and signature are never verified; the first theorem says that anyone who answers reads all numbers"
  },
  {
   "property": "C127",
   "status": "proved",
   "theorems": [
    "C127_when_it_crashes",
    "C127_malformed_is_an_error_refuted"
   ],
   "note": "FALSE of the code; the first theorem says exactly when the process stops"
  },
  {
   "property": "C128",
   "status": "proved",
   "theorems": [
    "C128_the_others_are_kept",
    "C128_all_failing_is_an_error_refuted"
   ],
   "note": "the first half holds; FALSE for the second: no attestation is a success and the query is sent without envelopes"
  },
  {
   "property": "C129",
   "status": "proved",
   "theorems": [
    "C129_published_key",
    "C129_when_let_in",
    "C129_contact_is_let_in_refuted"
   ],
   "note": "FALSE of the code: the published key is derived from the private identity key; the first theorems say what is published and when a contact is let in"
  },
  {
   "property": "C130",
   "status": "partial",
   "theorems": [
    "C130_restricted_partial",
    "C130_everyone_is_let_in",
    "C130_strangers_kept_out_refuted"
   ],
   "note": "holds as long as SetAccountCapabilities is not called; FALSE after it, which lets everyone in"
  },
  {
   "property": "C131",
   "status": "partial",
   "theorems": [
    "C131_in_step_partial",
    "C131_error_changes_nothing_refuted",
    "C131_announced_at_first"
   ],
   "note": "holds if every call succeeded; FALSE otherwise: a call whose last step fails has changed the account but not what is remembered"
  },
  {
   "property": "C132",
   "status": "proved",
   "theorems": [
    "C132_key_presented",
    "C132_owner_key_presented_refuted"
   ],
   "note": "FALSE of the code; the first theorem says which keys are presented"
  },
  {
   "property": "C133",
   "status": "partial",
   "theorems": [
    "C133_every_recipient",
    "C133_bad_key_is_an_error",
    "C133_usable_key_refuted",
    "C133_one_recipient_partial"
   ],
   "note": "GetAccessFor gives one pair for each recipient or an error; FALSE of GetAccessForUUID: a profile key of a wrong size gives an empty access key and no error"
  },
  {
   "property": "C134",
   "status": "proved",
   "theorems": [
    "C134_signature_lost",
    "C134_certificate_verifies_refuted"
   ],
   "note": "FALSE of the code for every certificate: only the inner certificate is handed on"
  },
  {
   "property": "C135",
   "status": "proved",
   "theorems": [
    "C135_always_discoverable",
    "C135_choice_is_honoured_refuted"
   ],
   "note": "FALSE of the code: every update says discoverable"
  },
  {
   "property": "C136",
   "status": "proved",
   "theorems": [
    "C136_sealed_requests_are_anonymous",
    "C136_key_is_readable"
   ],
   "note": "the connection itself (addresses, TLS) is not modelled"
  },
  {
   "property": "C137",
   "status": "proved",
   "theorems": [
    "C137_proxy_in_every_request",
    "C137_agent_is_never_sent",
    "C137_agent_is_sent_refuted"
   ],
   "note": "FALSE of the code: the two are swapped, for every configuration and request"
  },
  {
   "property": "C138",
   "status": "partial",
   "theorems": [
    "C138_host_is_configured",
    "C138_avatar_by_uuid",
    "C138_any_host_gets_the_password",
    "C138_password_only_to_the_configured_host_refuted"
   ],
   "note": "holds for every path that starts with a slash; FALSE for the image of a profile asked for by number: the server's answer decides which host gets the password"
  },
  {
   "property": "C139",
   "status": "proved",
   "theorems": [
    "C139_any_certificate",
    "C139_roots_decide_refuted"
   ],
   "note": "FALSE of the code: every certificate is accepted"
  },
  {
   "property": "C140",
   "status": "partial",
   "theorems": [
    "C140_account_is_named",
    "C140_ascii_credentials_partial",
    "C140_credentials_arrive_refuted",
    "C140_header",
    "C140_what_arrives",
    "C140_letters",
    "C140_distinct"
   ],
   "note": "holds for requests with the account's own password and for ASCII credentials; FALSE of AsBasic for others: they are recoded from a Windows character set"
  },
  {
   "property": "C141",
   "status": "proved",
   "theorems": [
    "C141_when_an_error",
    "C141_credentials_as_answered",
    "C141_refusal_is_an_error_refuted"
   ],
   "note": "FALSE of the code: status and decoding error are ignored; the first theorem says exactly when there is an error"
  },
  {
   "property": "C142",
   "status": "proved",
   "theorems": [
    "C142_image_arrives",
    "C142_only_posted"
   ],
   "note": "AES-GCM is a parameter with the laws of gcm_ok; for honest answers about the identifier"
  },
  {
   "property": "C143",
   "status": "proved",
   "theorems": [
    "C143_when_refreshing_crashes",
    "C143_never_crashes_refuted"
   ],
   "note": "FALSE of the code: a short answer of the image server, such as an error page, stops the process; the first theorem says exactly when"
  },
  {
   "property": "C144",
   "status": "partial",
   "theorems": [
    "C144_others_untouched",
    "C144_saved_is_read",
    "C144_identity_key_overwritten",
    "C144_kept_apart_refuted",
    "C144_where",
    "C144_half_written"
   ],
   "note": "holds for identifiers that can be names of files; FALSE in general: the identifier comes from the server and is not checked, so that the identity key can be overwritten"
  },
  {
   "property": "C145",
   "status": "partial",
   "theorems": [
    "C145_image_there_partial",
    "C145_image_there_refuted",
    "C145_bad_image_ignored"
   ],
   "note": "holds if the image server gives no empty answers and no empty images; FALSE otherwise"
  },
  {
   "property": "C146",
   "status": "proved",
   "theorems": [
    "C146_never_taken_away",
    "C146_taken_away_is_gone_refuted"
   ],
   "note": "FALSE of the code for every contact: no refresh takes an image away"
  },
  {
   "property": "C147",
   "status": "proved",
   "theorems": [
    "C147_when_it_crashes",
    "C147_what_is_kept",
    "C147_no_image_is_a_crash",
    "C147_always_said_to_have_one",
    "C147_profile_by_number_refuted"
   ],
   "note": "FALSE of the code: it stops the process for every profile without an image, and decrypts with the wrong key"
  },
  {
   "property": "C148",
   "status": "partial",
   "theorems": [
    "C148_one_answer",
    "C148_echo_partial",
    "C148_group_message_answered_alone",
    "C148_echo_refuted"
   ],
   "note": "holds for messages of no group and of groups of the first version; FALSE for the second: the answer goes to the sender alone"
  },
  {
   "property": "C149",
   "status": "proved",
   "theorems": [
    "C149_every_text_published",
    "C149_first_sender_for_all",
    "C149_published_names_sender_refuted"
   ],
   "note": "FALSE of the code: all are published under the name of the first sender; that all texts are published in order is proved"
  },
  {
   "property": "C150",
   "status": "proved",
   "theorems": [
    "C150_how_often_shown",
    "C150_shown_once_refuted"
   ],
   "note": "FALSE of the code: shown twice unless raw; hook and attachments as claimed"
  },
  {
   "property": "C151",
   "status": "partial",
   "theorems": [
    "C151_named_contact",
    "C151_number",
    "C151_nobody_named_refuted"
   ],
   "note": "holds if every contact has a name; FALSE otherwise: what is to go to nobody goes to the contact without a name"
  },
  {
   "property": "C152",
   "status": "proved",
   "theorems": [
    "C152_fields_arrive",
    "C152_when_it_crashes",
    "C152_crash_refuted"
   ],
   "note": "the fields arrive; FALSE of the code that too few are refused: the program crashes"
  },
  {
   "property": "C153",
   "status": "partial",
   "theorems": [
    "C153_what_is_attached",
    "C153_attachment_partial",
    "C153_attachment_refuted"
   ],
   "note": "holds if no longer file of that name is left; FALSE otherwise: the end of an older upload is sent along"
  },
  {
   "property": "C154",
   "status": "partial",
   "theorems": [
    "C154_success",
    "C154_everything_sent_refuted",
    "C154_success_is_sent"
   ],
   "note": "exact; FALSE if the file cannot be opened in /tmp: sent without it"
  },
  {
   "property": "C155",
   "status": "partial",
   "theorems": [
    "C155_other_files",
    "C155_cleaned_up",
    "C155_files_of_others_refuted"
   ],
   "note": "files of other names are untouched; FALSE for a file of the same name, which is overwritten and removed"
  },
  {
   "property": "C156",
   "status": "partial",
   "theorems": [
    "C156_to_a_group",
    "C156_handed_to_group",
    "C156_group_refuted"
   ],
   "note": "holds for ids of 32 bytes; FALSE for the ids of 16 bytes of groups of the first version"
  },
  {
   "property": "C157",
   "status": "partial",
   "theorems": [
    "C157_what_is_removed",
    "C157_digits_partial",
    "C157_never_for_others",
    "C157_forgotten_refuted",
    "C157_other_directory_refuted",
    "C157_file",
    "C157_only_digits"
   ],
   "note": "nothing else is removed; holds for peers named by digits in the default directory; FALSE for UUIDs and other directories"
  },
  {
   "property": "C158",
   "status": "proved",
   "theorems": [
    "C158_when_not_answered",
    "C158_text_is_sent",
    "C158_answered_refuted",
    "C158_success_is_sent"
   ],
   "note": "FALSE of the code: a message that is no string crashes the handler"
  },
  {
   "property": "C159",
   "status": "partial",
   "theorems": [
    "C159_all_listed_partial",
    "C159_after_a_bad_file",
    "C159_all_listed_refuted"
   ],
   "note": "holds if all files parse; FALSE otherwise: none after the first bad file is listed"
  },
  {
   "property": "C160",
   "status": "proved",
   "theorems": [
    "C160_conversation_is_presented"
   ],
   "note": "server honest about prekeys and about what it passes on; chains not older than five ratchet steps and gaps up to 2000, repetitions if there was no earlier session, as in C02"
  },
  {
   "property": "C161",
   "status": "proved",
   "theorems": [
    "C161_one_after_another",
    "C161_no_deadlock"
   ],
   "note": "calls under the mutex and reads of registration numbers; building of sessions is not under the mutex, see C163"
  },
  {
   "property": "C162",
   "status": "proved",
   "theorems": [
    "C162_positions_distinct"
   ],
   "note": "in a session that exists"
  },
  {
   "property": "C163",
   "status": "partial",
   "theorems": [
    "C163_crossing_refuted",
    "C163_apart",
    "C163_apart_at_the_end"
   ],
   "note": "FALSE of the code: the session of a first message being received is overwritten by the one being built, and the peer's following messages are refused. Proved for all executions, building of sessions included, in which no two goroutines have to do with the same peer."
  },
  {
   "property": "C164",
   "status": "partial",
   "theorems": [
    "C164_sending_ends_the_process_refuted",
    "C164_under_the_mutex",
    "C164_single",
    "C164_apart",
    "C164_when"
   ],
   "note": "FALSE of the code: the registration number is read from a truncated session file without the mutex; holds for calls under the mutex, for a single goroutine, and for goroutines that have to do with different peers"
  },
  {
   "property": "C165",
   "status": "partial",
   "theorems": [
    "C165_serial_partial",
    "C165_wrong_connection_refuted",
    "C165_two_starts_refuted"
   ],
   "note": "holds if StartListening is called only after the earlier call has returned; FALSE otherwise"
  },
  {
   "property": "C166",
   "status": "partial",
   "theorems": [
    "C166_stop_partial",
    "C166_stop_ignored_refuted"
   ],
   "note": "holds once the connection stands; FALSE while connecting: the stop is ignored"
  },
  {
   "property": "C167",
   "status": "partial",
   "theorems": [
    "C167_erased_partial",
    "C167_kept_refuted",
    "C167_first_chain_kept"
   ],
   "note": "FALSE as stated in two ways: when the record has archived states, the key of a message of an archived session stays in the record after it has been read (refuted, witness); and in every conversation A's record keeps the first key of A's own first sending chain in a receiver chain (ratchet.go 200) until A is past key 9, which opens every message of that chain (C167_first_chain_kept, all conversations). Proved for conversations of two clients that had no older session: the key is gone from every chain under the message's ratchet key, for both the reader and the sender, at every later moment. What all chains together give away is C180 and C181."
  },
  {
   "property": "C168",
   "status": "proved",
   "theorems": [
    "C168_crossing_refuted"
   ],
   "note": "FALSE of the code: the texts of the first two rounds are read, those of the following rounds are not, by neither side and for any randomness: the attempt to read the other's message with the wrong state changes that state (root key and sending chain), and the changed state is stored."
  },
  {
   "property": "C169",
   "status": "proved",
   "theorems": [
    "C169_resumed"
   ],
   "note": "for peers of which at least one had a record before; that the states in front refuse the message is a hypothesis (MAC); C168 shows what happens to the state in front"
  },
  {
   "property": "C170",
   "status": "proved",
   "theorems": [
    "C170_network"
   ],
   "note": "refines C02 to any number of devices; the example C170_same_prekey shows that the hypothesis on one-time prekeys is needed"
  },
  {
   "property": "C171",
   "status": "partial",
   "theorems": [
    "C171_found_partial",
    "C171_never_here",
    "C171_local_program_refuted",
    "C171_leaves_no_trace_refuted"
   ],
   "note": "holds for the PATH and for a build in ./crayfish/target/debug; FALSE for a program ./crayfish, which is never started, and an empty file of that name is left behind where there was none"
  },
  {
   "property": "C172",
   "status": "partial",
   "theorems": [
    "C172_start_partial",
    "C172_no_configuration_refuted",
    "C172_registering_refuted",
    "C172_sealed_refuted"
   ],
   "note": "proved for all interleavings in which the configuration can be read, the helper is installed and nobody uses it before the listener got to its first connection; FALSE otherwise: nil pointers"
  },
  {
   "property": "C173",
   "status": "partial",
   "theorems": [
    "C173_account",
    "C173_sealed_partial",
    "C173_always_the_old_one",
    "C173_after_registering_refuted"
   ],
   "note": "holds in a process that does not register; FALSE in one that does: until it is restarted the identifier from before is handed over, in every run"
  },
  {
   "property": "C174",
   "status": "partial",
   "theorems": [
    "C174_code_partial",
    "C174_code_refuted"
   ],
   "note": "exact: digits below 2^32, zeros in front are lost; FALSE for 123-456"
  },
  {
   "property": "C175",
   "status": "partial",
   "theorems": [
    "C175_registered_partial",
    "C175_refused",
    "C175_registered_refuted",
    "C175_answer",
    "C175_no_answer",
    "C175_filled"
   ],
   "note": "an identifier that is answered is the one registered; FALSE that one must be answered: an object without it, or null, registers the identifier of zeros"
  },
  {
   "property": "C176",
   "status": "partial",
   "theorems": [
    "C176_messages_partial",
    "C176_messages_refuted"
   ],
   "note": "holds for messages whose members named by their type are there; FALSE otherwise"
  },
  {
   "property": "C177",
   "status": "partial",
   "theorems": [
    "C177_stop_partial",
    "C177_no_new_connection",
    "C177_too_early",
    "C177_stop_refuted"
   ],
   "note": "proved for all interleavings in which nobody uses the helper before the listener got to its first connection; FALSE for an earlier Stop, after which no Stop has an effect"
  },
  {
   "property": "C178",
   "status": "partial",
   "theorems": [
    "C178_learnt",
    "C178_only_announced_partial",
    "C178_end_to_end",
    "C178_anyone_sets_any_key",
    "C178_foreign_key_refuted",
    "C178_own_copy_refuted"
   ],
   "note": "holds for messages without copies of sent messages; FALSE for copies: whoever sends one sets the key of whomever it names, and the copy of an own announcement stores the own key under the empty name"
  },
  {
   "property": "C179",
   "status": "proved",
   "theorems": [
    "C179_messages_and_stores"
   ],
   "note": "for conversations begun by a session from a prekey bundle between two clients without an older session; the terms are those of Secrecy.v, evaluated with the private keys the parties drew"
  },
  {
   "property": "C180",
   "status": "proved",
   "theorems": [
    "C180_exactly_exposed",
    "C180_no_copies"
   ],
   "note": "both directions; against attackers who compute with terms (symbolic model, see DESIGN.md); C179 ties the terms to the bytes"
  },
  {
   "property": "C181",
   "status": "partial",
   "theorems": [
    "C181_forward_secrecy_partial",
    "C181_first_chain_exposed",
    "C181_no_one_time_exposed",
    "C181_forward_secrecy_refuted"
   ],
   "note": "FALSE of the code for A's first chain: initializeSenderSession keeps A's own first sending chain key in a receiver chain (ratchet.go 200), so A's store opens everything A sent first until A is past key 9. Proved otherwise, with a one-time prekey for the first two keys; that the last-resort prekey does not count is shown too"
  },
  {
   "property": "C182",
   "status": "proved",
   "theorems": [
    "C182_healing",
    "C182_next_exposed",
    "C182_between_copies"
   ],
   "note": "symbolic attacker; exactness of the bound two is shown"
  },
  {
   "property": "C183",
   "status": "proved",
   "theorems": [
    "C183_tags"
   ],
   "note": "symbolic attacker"
  },
  {
   "property": "C184",
   "status": "proved",
   "theorems": [
    "C184_sent",
    "C184_taken"
   ],
   "note": "symbolic attacker (aknows in Active.v), tied to the bytes for every client by ActiveLink.v; clients begin without sessions; the randomness drawn is that of the clients (priv)"
  },
  {
   "property": "C185",
   "status": "partial",
   "theorems": [
    "C185_authentic",
    "C185_signed_prekey_lost_refuted"
   ],
   "note": "proved for losses that leave signed prekeys and base keys alone; FALSE when the signed prekey of the receiver is lost (witness)"
  },
  {
   "property": "C186",
   "status": "proved",
   "theorems": [
    "C186_secret"
   ],
   "note": "both directions for single keys; symbolic attacker"
  },
  {
   "property": "C187",
   "status": "partial",
   "theorems": [
    "C187_named",
    "C187_cut_off_refuted"
   ],
   "note": "proved for clients never cut off within a call; FALSE otherwise: BuildSenderSession writes the session before the identity key"
  },
  {
   "property": "C188",
   "status": "proved",
   "theorems": [
    "C188_interrupted",
    "C188_window_refuted"
   ],
   "note": "each write is taken to be done wholly or not at all (C29 has torn writes); the second theorem shows that the exception is necessary"
  },
  {
   "property": "C189",
   "status": "partial",
   "theorems": [
    "C189_clamped",
    "C189_first_messages_partial",
    "C189_replies",
    "C189_without_one_time_refuted"
   ],
   "note": "proved with a one-time prekey and for the answers; FALSE without one: newPreKeyWhisperMessage always writes the optional prekey id"
  },
  {
   "property": "C190",
   "status": "partial",
   "theorems": [
    "C190_told_is_kept",
    "C190_signed_prekey_lost_refuted"
   ],
   "note": "proved for one-time prekeys and the last-resort key, and for the signed prekey if all writes work; FALSE otherwise: generateSignedPreKey ignores the error of StoreSignedPreKey"
  },
  {
   "property": "C191",
   "status": "partial",
   "theorems": [
    "C191_exact",
    "C191_once",
    "C191_labels",
    "C191_bound",
    "C191_copies",
    "C191_twice_refuted",
    "C191_counted"
   ],
   "note": "FALSE of the code when an archived session accepts a message (C191_twice_refuted: sent once, taken twice); proved for all executions in which messages are accepted by the newest session, drawn base keys are not in use and at most 40 sessions are kept. C191_exact says it for any leak, C191_once for leaks of keys other than base keys, signed prekeys and the peer's identity key. With archived sessions: C191_bound and C191_copies bound the number of times by one and the number of other messages that archived sessions accepted, and the refuting run reaches the bound. Missing: the bound when more than 40 sessions are kept."
  },
  {
   "property": "C192",
   "status": "partial",
   "theorems": [
    "C192_whole",
    "C192_arrives",
    "C192_failing_reader",
    "C192_failure_lost_refuted"
   ],
   "note": "proved for all readers that repeat their error when read again; FALSE otherwise: the error of io.CopyN is ignored"
  },
  {
   "property": "C193",
   "status": "partial",
   "theorems": [
    "C193_one_time",
    "C193_first_message_once_refuted"
   ],
   "note": "proved for first messages that name a one-time prekey; FALSE of the code for first messages without one (and with the last-resort prekey): the server can have the same text taken under several devices and names"
  },
  {
   "property": "C194",
   "status": "proved",
   "theorems": [
    "C194_done",
    "C194_accepted"
   ],
   "note": "For modify with any validator; ModifyGroup itself checks with the zero validator (C47). The timer is not kept in the group, so a change of it changes only the revision."
  },
  {
   "property": "C195",
   "status": "proved",
   "theorems": [
    "C195_leaving",
    "C195_declining",
    "C195_withdrawing",
    "C195_asking",
    "C195_own_part_refuted"
   ],
   "note": "FALSE of the code: such calls are always answered as unauthorized while the person is already out of the group of the store. The theorems give the exact outcome for all groups."
  },
  {
   "property": "C196",
   "status": "partial",
   "theorems": [
    "C196_read_marks",
    "C196_receipt",
    "C196_typing",
    "C196_all_told_refuted"
   ],
   "note": "Read marks hold as stated. FALSE for receipts and typing notices: only the first time of a receipt is passed on, viewed is announced as sent, started cannot be told from stopped; the theorems give the exact outcome."
  },
  {
   "property": "C197",
   "status": "proved",
   "theorems": [
    "C197_account_kept",
    "C197_attempt"
   ],
   "note": ""
  },
  {
   "property": "C198",
   "status": "proved",
   "theorems": [
    "C198_accepted_is_shown",
    "C198_gets_through",
    "C198_sessions_in_use"
   ],
   "note": "Honest-server conditions are hypotheses (keys_served, careful, helpful); example with one reinstalled, one unchanged, one new and one removed device. For gets_through the server asks for no copies to the own devices (a refused copy panics, C66)."
  },
  {
   "property": "C199",
   "status": "partial",
   "theorems": [
    "C199_written",
    "C199_reported",
    "C199_posted",
    "C199_changed",
    "C199_forgotten_refuted"
   ],
   "note": "proved when a saved key is removed only after the sessions under the name; FALSE otherwise (C199_forgotten_refuted: the gateway's rekey request removes the key and keeps the sessions, and a text then goes to the owner of the old key)"
  },
  {
   "property": "C200",
   "status": "partial",
   "theorems": [
    "C200_sent",
    "C200_taken",
    "C200_authentic",
    "C200_secret",
    "C200_ended",
    "C200_one_time",
    "C200_again_refuted"
   ],
   "note": "authenticity and secrecy proved for all lives; freshness proved for first messages naming a one-time prekey; FALSE for first messages without one: after the end of the session the same bytes are taken again (C200_again_refuted)"
  },
  {
   "property": "C201",
   "status": "proved",
   "theorems": [
    "C201_shown",
    "C201_runs",
    "C201_kept",
    "C201_listening"
   ],
   "note": "symbolic attacker as in C184-C187, C199, C200; sealed-sender envelopes (shown with an empty source) are outside; the example is a text and an answered end of the session"
  },
  {
   "property": "C202",
   "status": "proved",
   "theorems": [
    "C202_sent"
   ],
   "note": "symbolic attacker as in C184-C187, C199, C200; knowledge is of the message key"
  },
  {
   "property": "C203",
   "status": "partial",
   "theorems": [
    "C203_ever",
    "C203_undisturbed",
    "C203_labels"
   ],
   "note": "symbolic attacker as in C191, C200. Needed and stated: what is accepted is accepted by the newest session (C191_twice_refuted shows FALSE otherwise), and one-time prekeys when sessions are deleted (C200_again_refuted shows FALSE otherwise)"
  },
  {
   "property": "C204",
   "status": "partial",
   "theorems": [
    "C204_counted",
    "C204_once_refuted"
   ],
   "note": "the bound by the number of calls of SendMessage is FALSE of the code: C204_once_refuted (409 naming no device, then 200). The bound by the number of encryptions is C204_counted, with the conditions of C203 (lasting)"
  },
  {
   "property": "C205",
   "status": "proved",
   "theorems": [
    "C205_files_follow_lives",
    "C205_same_identity"
   ],
   "note": "for records smaller than 2^63 bytes; what an installation holds right after its registration meets the hypothesis start_ok of C199 - C204"
  },
  {
   "property": "C206",
   "status": "proved",
   "theorems": [
    "C206_asked_as",
    "C206_asked_for_a_week"
   ],
   "note": "the zkgroup library is a record of arbitrary functions"
  },
  {
   "property": "C207",
   "status": "partial",
   "theorems": [
    "C207_followed_for_a_week",
    "C207_nothing_is_learnt",
    "C207_old_members_get_messages",
    "C207_old_members_listed",
    "C207_no_joining",
    "C207_new_groups_crash",
    "C207_follows_the_server_refuted"
   ],
   "note": "FALSE of the code from the eighth day after the credentials were fetched (C207_follows_the_server_refuted): the cache is never refreshed, every update fails silently, messages go to the old members for ever, and the first message of a group without a file panics. True for the first week: C207_followed_for_a_week"
  },
  {
   "property": "C208",
   "status": "partial",
   "theorems": [
    "C208_answers",
    "C208_only_own_devices_refuted",
    "C208_announced"
   ],
   "note": "FALSE of the code for reports of verified identities, which are obeyed whoever sends them (C208_only_own_devices_refuted). Everything else is proved for all envelopes in C208_answers"
  },
  {
   "property": "C209",
   "status": "partial",
   "theorems": [
    "C209_refused_stops",
    "C209_answer_never_stops_refuted",
    "C209_verified_goes_on"
   ],
   "note": "FALSE of the code: a nil response is dereferenced (C209_refused_stops for every sender, C209_answer_never_stops_refuted). Reports of verified identities do not stop the client"
  },
  {
   "property": "C210",
   "status": "proved",
   "theorems": [
    "C210_contacts_arrive",
    "C210_groups_arrive"
   ],
   "note": "GetRegisteredContacts is modelled in Contacts.v and its result an argument here"
  },
  {
   "property": "C211",
   "status": "proved",
   "theorems": [
    "C211_number",
    "C211_saved",
    "C211_shown",
    "C211_sent",
    "C211_keys"
   ],
   "note": "collisions of the thirty digits among the four pairs concerned are a premise; the cryptography is symbolic as in C201 and C202; a client that trusts every key (AlwaysTrustPeerID) is excluded, as is one cut off within a reception"
  },
  {
   "property": "C212",
   "status": "partial",
   "theorems": [
    "C212_next",
    "C212_filled",
    "C212_name",
    "C212_edit_lost",
    "C212_cut",
    "C212_stuck",
    "C212_lost",
    "C212_interrupted_refuted",
    "C212_registers_refuted",
    "C212_elsewhere"
   ],
   "note": "proved as long as every save happens whole or not at all and nobody else writes the file (C212_next, C212_name). FALSE otherwise: the file is emptied before it is written, and a client that stops in between never starts again (C212_lost, C212_interrupted_refuted: it has its keys, so it does not register, and nothing fills in the UUID) or, with its store in another directory than .storage, registers a new account with new keys (C212_registers_refuted); RefreshConfig does not change what the process uses, and its next save removes what was edited (C212_edit_lost). YAML is an argument with the two facts of yaml_ok"
  },
  {
   "property": "C213",
   "status": "partial",
   "theorems": [
    "C213_reopened",
    "C213_which",
    "C213_sealed",
    "C213_other_password",
    "C213_empty_password",
    "C213_encrypted_refuted",
    "C213_salt_partial",
    "C213_no_salt",
    "C213_salt_refuted",
    "C213_password_later",
    "C213_first"
   ],
   "note": "the first sentence is proved. FALSE otherwise: with an empty password the identity key is written in the clear although unencryptedStorage is not set (C213_empty_password, C213_encrypted_refuted); if the first start stops after the salt file was made, the salt is empty for good and equal passwords give equal keys (C213_no_salt, C213_salt_refuted); a client used without a password ends with a panic at every start with one (C213_password_later). PBKDF2 is an argument"
  },
  {
   "property": "C214",
   "status": "partial",
   "theorems": [
    "C214_direct_partial",
    "C214_named",
    "C214_twice",
    "C214_nobody",
    "C214_sealed",
    "C214_never_by_name",
    "C214_who_refuted",
    "C214_group_unseen",
    "C214_group_refuted",
    "C214_forged",
    "C214_forged_refuted",
    "C214_half_day",
    "C214_time_refuted",
    "C214_clock"
   ],
   "note": "proved between two people whose shown names have no space in them (C214_direct_partial). FALSE otherwise: every sealed message is printed without a sender (C214_sealed, C214_who_refuted), contacts are never shown by name as messages come with UUIDs and names are filed under numbers (C214_never_by_name), messages of groups are printed as if they had been sent to oneself alone (C214_group_unseen, C214_group_refuted), any text may contain a line that looks like a message of somebody else (C214_forged, C214_forged_refuted), and the hour is that of a clock with twelve hours (C214_half_day, C214_time_refuted)"
  },
  {
   "property": "C215",
   "status": "partial",
   "theorems": [
    "C215_echo",
    "C215_echo_direct_partial",
    "C215_to_nobody",
    "C215_sealed_unanswered",
    "C215_echo_refuted",
    "C215_conversations",
    "C215_one_conversation_partial",
    "C215_one_conversation_refuted"
   ],
   "note": "proved for unsealed messages of no group (C215_echo_direct_partial, C215_one_conversation_partial). FALSE otherwise: an answer never goes to a group (C215_echo), the answer to a sealed message is for nobody and is never sent (C215_sealed_unanswered, C215_to_nobody, C215_echo_refuted), and every sealed message begins another conversation with nobody (C215_conversations, C215_one_conversation_refuted)"
  },
  {
   "property": "C216",
   "status": "partial",
   "theorems": [
    "C216_typed_partial",
    "C216_pieces",
    "C216_lost",
    "C216_sent_refuted",
    "C216_answers_refuted",
    "C216_long",
    "C216_ends",
    "C216_always_ends"
   ],
   "note": "proved if every read gives one line, as from a terminal (C216_typed_partial). FALSE of a pipe: of what one read gives only the first line is sent (C216_lost, C216_sent_refuted, C216_answers_refuted), long lines are sent in pieces (C216_long), and the program ends with its input (C216_ends, C216_always_ends)"
  },
  {
   "property": "C217",
   "status": "partial",
   "theorems": [
    "C217_asks",
    "C217_asked",
    "C217_refused_stops",
    "C217_ignored",
    "C217_answer_dropped",
    "C217_contacts_refuted"
   ],
   "note": "proved: the request goes to the own account only and is what a client answers (C217_asks), and success means that it was accepted (C217_asked). FALSE of the code otherwise: a refusal stops the program (C217_refused_stops), and lists of contacts and groups are dropped unread (C217_ignored, C217_answer_dropped, C217_contacts_refuted)"
  },
  {
   "property": "C218",
   "status": "partial",
   "theorems": [
    "C218_status",
    "C218_status_json",
    "C218_gateway_partial",
    "C218_json_partial",
    "C218_rekey",
    "C218_overload",
    "C218_untrusted",
    "C218_reason",
    "C218_quoted",
    "C218_answers_refuted",
    "C218_reasons",
    "C218_other_errors"
   ],
   "note": "proved: the status (all inputs), and JSON with the reason if the errors of sending need no escaping. FALSE otherwise: texts are not escaped, so that an error with a quotation mark - as when the server cannot be reached - makes an answer that is not JSON (C218_quoted, C218_answers_refuted)"
  },
  {
   "property": "C219",
   "status": "partial",
   "theorems": [
    "C219_returned",
    "C219_received",
    "C219_copy",
    "C219_copy_posted",
    "C219_receipt",
    "C219_apart_partial",
    "C219_apart_refuted"
   ],
   "note": "proved: one number for the caller, the requests, the recipient, the own devices and the receipts. That two messages have different numbers holds when their clock readings differ (C219_apart_partial) and is FALSE otherwise: two calls within one millisecond return the same number (C219_apart_refuted)"
  },
  {
   "property": "C220",
   "status": "partial",
   "theorems": [
    "C220_others",
    "C220_only",
    "C220_noted",
    "C220_kept_partial",
    "C220_echo",
    "C220_cut_refuted",
    "C220_all_kept_refuted"
   ],
   "note": "proved: other files are never changed (C220_others, C220_only), the log is true (C220_noted), and everything is kept whole while files can be made and written (C220_kept_partial). FALSE otherwise: a program that echoes throws attachments away (C220_echo, C220_all_kept_refuted), and when writing fails the beginning is left behind under the same kind of name (C220_cut_refuted)"
  },
  {
   "property": "C221",
   "status": "partial",
   "theorems": [
    "C221_read",
    "C221_handed_on",
    "C221_copy_read",
    "C221_copy_handed_on",
    "C221_unread",
    "C221_marks_refuted"
   ],
   "note": "proved: the parts that are read are handed on unchanged, independently of all others. FALSE of the rest: nothing handed over depends on the other fields (C221_unread), so that messages to be viewed once, messages for newer programs and requests to delete a message look like ordinary ones (C221_marks_refuted)"
  },
  {
   "property": "C222",
   "status": "proved",
   "theorems": [
    "C222_block_list",
    "C222_other_decisions",
    "C222_blocked_refuted"
   ],
   "note": "FALSE of the code: lists of blocked people and all other decisions are dropped without any effect (C222_block_list, C222_other_decisions, for all of them), and somebody who was blocked goes on being heard (C222_blocked_refuted)"
  },
  {
   "property": "C223",
   "status": "partial",
   "theorems": [
    "C223_members",
    "C223_shown",
    "C223_again_refuted"
   ],
   "note": "proved: requests for all members, one number, what members are shown. FALSE of repetitions: a failure at one member makes the call fail after earlier members got the message, and a second call sends it to them under another number (C223_again_refuted)"
  },
  {
   "property": "C224",
   "status": "partial",
   "theorems": [
    "C224_silence",
    "C224_pings",
    "C224_kept_partial",
    "C224_read",
    "C224_busy",
    "C224_kept_refuted"
   ],
   "note": "proved: a silent server is given up in time (C224_silence); a server that answers is kept if answers and the turn of messages together take less than six seconds (C224_kept_partial); what is read is what arrived, in order (C224_read). FALSE otherwise: pongs are read between messages, so that messages which take a minute together - a backlog, a large attachment - end the connection of a server that answers at once (C224_busy, C224_kept_refuted)"
  },
  {
   "property": "C225",
   "status": "partial",
   "theorems": [
    "C225_order",
    "C225_returns_partial",
    "C225_worker_ends",
    "C225_stuck",
    "C225_returns_refuted",
    "C225_write_failed"
   ],
   "note": "proved: order and uniqueness (C225_order); the loop returns from every lost connection over which at most 256 requests came (C225_returns_partial), and the worker ends after it. FALSE otherwise: if a write of the worker stalls while 257 more requests are handled, the loop waits for room in the channel; when the write fails the worker ends, nobody empties the channel, and StartListening never returns, not even after StopListening (C225_stuck, C225_returns_refuted)"
  },
  {
   "property": "C226",
   "status": "partial",
   "theorems": [
    "C226_none_lost",
    "C226_handled",
    "C226_again",
    "C226_again_reached",
    "C226_caught_up",
    "C226_receipt_again",
    "C226_once_refuted"
   ],
   "note": "proved: nothing is lost, all can be caught up with, at most 258 messages are handled again, and that many can be (C226_again_reached). That messages of peers are not handed over again is C04 and C191. FALSE of receipts the server sends: each copy is handed over (C226_receipt_again, C226_once_refuted)"
  },
  {
   "property": "C227",
   "status": "partial",
   "theorems": [
    "C227_copies",
    "C227_one_person",
    "C227_one_copy_refuted"
   ],
   "note": "proved: one copy of a message to a person (C227_one_person), none if the server does not ask. FALSE of groups: a message to a group is copied once for every member (C227_copies gives the exact number), and each copy is shown (C227_one_copy_refuted)"
  },
  {
   "property": "C228",
   "status": "proved",
   "theorems": [
    "C228_supply",
    "C228_signed_same",
    "C228_supply_refuted"
   ],
   "note": "FALSE of the code: keys are uploaded once, with the account. C228_supply gives the exact answers of the server in every life: the one-time keys of that upload in order, then none for ever; the signed prekey never changes (C228_signed_same). After 100 people asked, a start does not help (C228_supply_refuted)"
  },
  {
   "property": "C229",
   "status": "proved",
   "theorems": [
    "C229_known",
    "C229_cannot_write",
    "C229_shown",
    "C229_context_unread",
    "C229_members_refuted"
   ],
   "note": "FALSE of the code: a client knows only the groups it made itself (C229_known, for all histories); others cannot write to them (C229_cannot_write); invitations and texts are shown to members as messages of a person without a group (C229_shown), and the group named by another program is not read (C229_context_unread)"
  },
  {
   "property": "C230",
   "status": "partial",
   "theorems": [
    "C230_usual_names",
    "C230_error_partial",
    "C230_bad_names",
    "C230_short_answer",
    "C230_message",
    "C230_process_ends_refuted"
   ],
   "note": "FALSE of the code: C230_process_ends_refuted gives two messages of a peer that end the process, one with the attachment key '%', one with an attachment the server no longer has. C230_bad_names and C230_short_answer say which addresses and answers do that, for all networks, C230_message that any message of a peer with such an attachment does. C230_error_partial is the part that holds. When url.Parse of the Go library accepts an address (url_ok) is from knowledge of that library, whose source is not in the repository: trusted."
  },
  {
   "property": "C231",
   "status": "partial",
   "theorems": [
    "C231_once_partial",
    "C231_lost",
    "C231_for_ever",
    "C231_one_end_refuted"
   ],
   "note": "FALSE of the code: C231_one_end_refuted gives a first message of a peer that ends the process at every start, whatever the network does. C231_for_ever says for which messages that is so, for all crypto, stores and lists of later starts. C231_once_partial is the part that holds: a message that ends the process without ending a session is refused without a panic at every later start; its hypotheses are those of C04 about the record (no archived states, counters not near 2^32). C231_lost says what that costs: nothing is done about the message at later starts, so it is never shown, also when the first handling ended with an error of the network."
  },
  {
   "property": "C232",
   "status": "partial",
   "theorems": [
    "C232_once_partial",
    "C232_each_time",
    "C232_shown_again_refuted"
   ],
   "note": "FALSE of the code without a one-time prekey: C232_each_time says that every such message is shown at each delivery, C232_shown_again_refuted gives one. C232_once_partial: with a one-time prekey it is shown once, for any number of deliveries. Messages without attachments and groups; C203 and C204 speak of all runs under their conditions."
  }
 ]
}