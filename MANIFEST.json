{
 "claims": [
  {
   "property": "C01",
   "status": "proved",
   "theorems": [
    "C01_response_layout"
   ],
   "note": "Every byte of every packet, for all payloads (the length field is the payload length mod 2^16)."
  },
  {
   "property": "C02",
   "status": "proved",
   "theorems": [
    "C02_host_reassembles",
    "C02_too_long_rejected"
   ],
   "note": "Payloads of 1..7609 bytes; beyond that the specified host rejects, which is proved too."
  },
  {
   "property": "C03",
   "status": "proved",
   "theorems": [
    "C03_request_reassembly",
    "C03_silent_until_complete"
   ],
   "note": "Any split of a request into initial and continuation packets; keepalive counts are an oracle."
  },
  {
   "property": "C04",
   "status": "proved",
   "theorems": [
    "C04_ping_echo"
   ],
   "note": "Any payload of 1..7609 bytes on any idle channel."
  },
  {
   "property": "C05",
   "status": "proved",
   "theorems": [
    "C05_ids_fresh",
    "C05_init_reply"
   ],
   "note": "Over any history of reports; bounded by 2^32-2 INITs, where the 32-bit id wraps."
  },
  {
   "property": "C06",
   "status": "proved",
   "theorems": [
    "C06_unallocated_refused"
   ],
   "note": "Over any history; the only other effect of the message is none."
  },
  {
   "property": "C07",
   "status": "proved",
   "theorems": [
    "C07_isolation",
    "C07_interleaving"
   ],
   "note": "One-step isolation and a non-interference theorem (projection to a channel) for stateless applications."
  },
  {
   "property": "C08",
   "status": "proved",
   "theorems": [
    "C08_replies_on_channel"
   ],
   "note": "For every reachable server state and every message."
  },
  {
   "property": "C09",
   "status": "proved",
   "theorems": [
    "C09_bad_continuation",
    "C09_stray_continuation",
    "C09_cancel",
    "C09_cancel_idle"
   ],
   "note": "Wrong sequence, stray continuation, cancel."
  },
  {
   "property": "C10",
   "status": "partial",
   "theorems": [
    "C10_refuted",
    "C10_not_full",
    "C10_unknown_command_fatal",
    "C10_careful_host_partial"
   ],
   "note": "The full statement is false of the code (unknown commands panic); refuted, and proved for hosts sending only known commands."
  },
  {
   "property": "C11",
   "status": "partial",
   "theorems": [
    "C11_refuted",
    "C11_not_full",
    "C11_answered_partial"
   ],
   "note": "The full statement is false (an empty response emits no packet); refuted, and proved for answers of 1..7609 bytes."
  },
  {
   "property": "C12",
   "status": "proved",
   "theorems": [
    "C12_contiguous",
    "C12_all_sent"
   ],
   "note": "For every interleaving of any number of senders."
  },
  {
   "property": "C13",
   "status": "partial",
   "theorems": [
    "C13_refuted",
    "C13_fifo_partial"
   ],
   "note": "False for a goroutine per packet; refuted, and proved for FIFO scheduling."
  },
  {
   "property": "C14",
   "status": "partial",
   "theorems": [
    "C14_refuted",
    "C14_late_bound_partial",
    "C14_exited_silent_partial",
    "C14_no_leak_partial"
   ],
   "note": "False without timing assumptions; refuted for every n, and bounded by the number of late timer expiries."
  },
  {
   "property": "C15",
   "status": "proved",
   "theorems": [
    "C15_exactly_once",
    "C15_only_submitted",
    "C15_completed",
    "C15_settles",
    "C15_repeated_id_loses_a_callback"
   ],
   "note": "For distinct ids; a repeated id is shown to lose a callback."
  },
  {
   "property": "C16",
   "status": "proved",
   "theorems": [
    "C16_fifo",
    "C16_needs_the_lock"
   ],
   "note": "For histories serialised by CTAPHID's responsesLock; shown necessary."
  },
  {
   "property": "C17",
   "status": "proved",
   "theorems": [
    "C17_cancelled",
    "C17_not_cancelled"
   ],
   "note": "Both outcomes."
  },
  {
   "property": "C18",
   "status": "proved",
   "theorems": [
    "C18_descriptors",
    "C18_report_length"
   ],
   "note": "Every setup packet that is answered."
  },
  {
   "property": "C19",
   "status": "proved",
   "theorems": [
    "C19_setters",
    "C19_fields"
   ],
   "note": "All bytes and in-range values."
  },
  {
   "property": "C20",
   "status": "partial",
   "theorems": [
    "C20_refuted",
    "C20_at_most_one_partial",
    "C20_answered_partial",
    "C20_settles_partial"
   ],
   "note": "False for unsupported control requests (refuted); proved for the explicit set of supported ones: at most one, exactly one at quiescence, quiescence always reachable."
  },
  {
   "property": "C21",
   "status": "proved",
   "theorems": [
    "C21_ret_submit",
    "C21_framing"
   ],
   "note": "Per frame and for whole sessions."
  },
  {
   "property": "C22",
   "status": "partial",
   "theorems": [
    "C22_refuted",
    "C22_segmentation_partial"
   ],
   "note": "False when a segment boundary falls inside OUT data or a bus id (refuted); proved for all other segmentations."
  },
  {
   "property": "C23",
   "status": "partial",
   "theorems": [
    "C23_reply_is_empty",
    "C23_refuted"
   ],
   "note": "False: the reply is empty for every device list (proved)."
  },
  {
   "property": "C24",
   "status": "partial",
   "theorems": [
    "C24_refuted",
    "C24_import_partial",
    "C24_description"
   ],
   "note": "False for a bus id field without NUL (refuted); proved for NUL-terminated names."
  },
  {
   "property": "C25",
   "status": "proved",
   "theorems": [
    "C25_unlink",
    "C25_one_reply_each"
   ],
   "note": "Status, exactly one reply per unlink in order, no later RET_SUBMIT."
  },
  {
   "property": "C26",
   "status": "partial",
   "theorems": [
    "C26_refuted",
    "C26_import_never_returns",
    "C26_control_returns_partial"
   ],
   "note": "False after an import (refuted for every import); proved for connections that never import."
  },
  {
   "property": "C27",
   "status": "proved",
   "theorems": [
    "C27_only_loopback",
    "C27_ipv6_refused"
   ],
   "note": "All IPv4 addresses; IPv6 peers are refused."
  },
  {
   "property": "C28",
   "status": "proved",
   "theorems": [
    "C28_registration_gated"
   ],
   "note": "One command, from any state that satisfies the client invariant."
  },
  {
   "property": "C29",
   "status": "proved",
   "theorems": [
    "C29_registration_verifies"
   ],
   "note": "One command; also that the stored credential is the one returned and that the certificate is for its key."
  },
  {
   "property": "C30",
   "status": "proved",
   "theorems": [
    "C30_failed_registration_inert"
   ],
   "note": "For every error status."
  },
  {
   "property": "C31",
   "status": "partial",
   "theorems": [
    "C31_scoped_partial",
    "C31_restart_refuted",
    "C31_allow_list",
    "C31_registered_before",
    "C31_no_credentials"
   ],
   "note": "False across restarts: after a restart every credential belongs to the last one's RP, so a credential signs for another RP (refuted). Proved within one process; in every history the allow list is obeyed and only RPs for which a registration was requested are served; NO_CREDENTIALS and no effect otherwise."
  },
  {
   "property": "C32",
   "status": "proved",
   "theorems": [
    "C32_assertion_verifies"
   ],
   "note": "Every history with crashes and restarts, given no collision among the 16-byte random draws."
  },
  {
   "property": "C33",
   "status": "proved",
   "theorems": [
    "C33_registration_flags",
    "C33_assertion_flags"
   ],
   "note": "Registrations and assertions, both directions."
  },
  {
   "property": "C34",
   "status": "proved",
   "theorems": [
    "C34_counters_increase"
   ],
   "note": "Every history with crashes at every point and restarts, shorter than 2^32 entries, given no collision among the 16-byte draws."
  },
  {
   "property": "C35",
   "status": "partial",
   "theorems": [
    "C35_refusal_leaves_trace_refuted",
    "C35_refusal_partial"
   ],
   "note": "False: the counter is incremented and saved before the user is asked (refuted); proved that nothing else changes."
  },
  {
   "property": "C36",
   "status": "partial",
   "theorems": [
    "C36_exclude_list_refuted",
    "C36_existing_kept_partial"
   ],
   "note": "False: the exclude list is ignored (refuted); proved that existing credentials are kept unchanged."
  },
  {
   "property": "C37",
   "status": "partial",
   "theorems": [
    "C37_pin_round_trip_partial",
    "C37_leading_zero_refuted"
   ],
   "note": "False when the shared x coordinate has a leading zero byte (refuted); proved for all others."
  },
  {
   "property": "C38",
   "status": "partial",
   "theorems": [
    "C38_change_without_pin_refuted",
    "C38_hash_change_partial",
    "C38_pin_set_partial"
   ],
   "note": "False when no PIN is set (refuted); proved in full once a PIN is set, and what does hold otherwise."
  },
  {
   "property": "C39",
   "status": "partial",
   "theorems": [
    "C39_guesses_limited_partial",
    "C39_restart_refuted",
    "C39_blocked_never_said",
    "C39_exhausted_crashes"
   ],
   "note": "False: the count is lost on restart (refuted) and PIN_BLOCKED is never answered, the device panics instead (proved). Proved: at most 8 wrong PINs between right ones in one process."
  },
  {
   "property": "C40",
   "status": "partial",
   "theorems": [
    "C40_token_without_pin_refuted",
    "C40_token_given_partial"
   ],
   "note": "False when no PIN is set: the token is given for an empty pinHashEnc (refuted); proved once a PIN is set."
  },
  {
   "property": "C41",
   "status": "proved",
   "theorems": [
    "C41_commands_inert",
    "C41_registration_ignores_pin",
    "C41_assertion_ignores_pin"
   ],
   "note": "ClientPIN, MakeCredential and GetAssertion."
  },
  {
   "property": "C42",
   "status": "proved",
   "theorems": [
    "C42_get_info"
   ],
   "note": "Every state."
  },
  {
   "property": "C43",
   "status": "proved",
   "theorems": [
    "C43_responses_canonical",
    "C43_stored_keys_canonical",
    "C43_unique_reading"
   ],
   "note": "Responses of every command and stored credential keys; canonical forms have one reading."
  },
  {
   "property": "C44",
   "status": "partial",
   "theorems": [
    "C44_crash_refuted",
    "C44_no_panic_partial"
   ],
   "note": "False (refuted, with a list of crashing messages); proved for an explicit class of messages."
  },
  {
   "property": "C45",
   "status": "proved",
   "theorems": [
    "C45_apdu_decoded"
   ],
   "note": "Every extended-length APDU of cases 1, 2E, 3E and 4E (an inductive specification) decodes to its header, data and Le."
  },
  {
   "property": "C46",
   "status": "proved",
   "theorems": [
    "C46_registration",
    "C46_reply_unambiguous"
   ],
   "note": "For every message with INS 1 that gets a response: asked exactly once; refused -> 6985 only; approved -> the response decomposes as specified, the signature verifies under the returned key over the specified bytes, the certificate was made for that key and the handle seals that key for that application. The certificate is opaque (x509 encoding not modelled)."
  },
  {
   "property": "C47",
   "status": "proved",
   "theorems": [
    "C47_handle_length"
   ],
   "note": "Handle length is at most 255 (exactly 194) and equals the length byte."
  },
  {
   "property": "C48",
   "status": "proved",
   "theorems": [
    "C48_own_handles",
    "C48_handle_binds"
   ],
   "note": "A response that is not one of the three status words is a signature with the private key sealed in the request's handle, for the request's application. Sealed means: of the form gcm_seal under the device key (authenticity of AES-GCM is the law l_gcm_only)."
  },
  {
   "property": "C49",
   "status": "proved",
   "theorems": [
    "C49_handles_last",
    "C49_round_trip"
   ],
   "note": "Register then authenticate, in any later state with the same sealing key, and after any history with restarts and crashes in which the encryption key parameter is the same."
  },
  {
   "property": "C50",
   "status": "partial",
   "theorems": [
    "C50_presence_refuted",
    "C50_not_full",
    "C50_presence_partial",
    "C50_check_only"
   ],
   "note": "Refuted for control byte 8, which signs with presence byte 1 without asking. Proved for every other control byte; check-only never signs and changes nothing."
  },
  {
   "property": "C51",
   "status": "partial",
   "theorems": [
    "C51_counters_increase_partial",
    "C51_restart_refuted",
    "C51_concurrent_refuted",
    "C51_reloaded_refuted",
    "C51_range_partial",
    "C51_serial_partial"
   ],
   "note": "False across restarts and for concurrent requests (refuted). Proved within one process for requests one after another; for concurrent ones the exact range of values."
  },
  {
   "property": "C52",
   "status": "partial",
   "theorems": [
    "C52_foreign_refuted",
    "C52_not_full",
    "C52_foreign_partial",
    "C52_crashes_iff",
    "C52_not_a_box",
    "C52_other_application"
   ],
   "note": "Refuted: a handle that is a CBOR box not sealed by this device makes crypto.Open panic (e.g. the one byte A0). Partial: such a request changes nothing and is answered WRONG_DATA or crashes, and C52_crashes_iff says exactly when; non-boxes and own handles for another application get WRONG_DATA."
  },
  {
   "property": "C53",
   "status": "partial",
   "theorems": [
    "C53_version",
    "C53_total_refuted",
    "C53_not_full",
    "C53_register_total_partial"
   ],
   "note": "VERSION proved. Never crashing is refuted (unknown instruction, wrong registration length, short message). Partial: well-formed registrations never crash; for authentications see C52_crashes_iff."
  },
  {
   "property": "C54",
   "status": "proved",
   "theorems": [
    "C54_add",
    "C54_delete",
    "C54_lookup",
    "C54_delete_api",
    "C54_operations",
    "C54_answers"
   ],
   "note": "Single operations, any list of operations, and the client's DeleteIdentity with its save."
  },
  {
   "property": "C55",
   "status": "partial",
   "theorems": [
    "C55_restart_partial",
    "C55_kept_partial",
    "C55_when_partial",
    "C55_restart_refuted"
   ],
   "note": "False for relying parties and users (refuted: loop variable aliasing). Proved for everything else, and exactly when it holds."
  },
  {
   "property": "C56",
   "status": "proved",
   "theorems": [
    "C56_registration_durable",
    "C56_assertion_durable",
    "C56_pin_durable",
    "C56_crash_anywhere"
   ],
   "note": "For every command and every crash point."
  },
  {
   "property": "C57",
   "status": "proved",
   "theorems": [
    "C57_state_round_trip"
   ],
   "note": "Over the JSON encoder and decoder and abstract scrypt and AES-GCM."
  },
  {
   "property": "C58",
   "status": "proved",
   "theorems": [
    "C58_state_authentic",
    "C58_tampered",
    "C58_bad_nonce_panics",
    "C58_refused",
    "C58_other_passphrase",
    "C58_trailing_data"
   ],
   "note": "Accepted blobs are exactly encryptions of what is returned; the panic on a nonce of the wrong length is stated."
  },
  {
   "property": "C59",
   "status": "partial",
   "theorems": [
    "C59_killed_partial",
    "C59_complete",
    "C59_torn_refuted"
   ],
   "note": "Refuted: SaveData truncates, then writes. Proved for every history and kill point: the file is the old data, the new data or a proper prefix of the new; in the first two cases every start succeeds, in the last every start panics (the device never starts with an empty vault). A completed save leaves the new data."
  },
  {
   "property": "C60",
   "status": "partial",
   "theorems": [
    "C60_delete_partial",
    "C60_last_partial",
    "C60_other_refuted"
   ],
   "note": "Refuted: with exactly one match the last identity of the vault is deleted (loop variable address, Go 1.19). Proved: no match and several matches change nothing; exact effect with one match; correct if the match is the last identity."
  },
  {
   "property": "C61",
   "status": "proved",
   "theorems": [
    "C61_private_round_trip",
    "C61_equal_correct",
    "C61_stable",
    "C61_private_document",
    "C61_private_read",
    "C61_other_curve"
   ],
   "note": "All three key types; also that Equal is correct on proper keys."
  },
  {
   "property": "C62",
   "status": "partial",
   "theorems": [
    "C62_ecdsa_partial",
    "C62_coordinates_partial",
    "C62_ed25519_partial",
    "C62_ecdsa_read_partial",
    "C62_ed25519_equal_never",
    "C62_rsa_refuted",
    "C62_coordinates_refuted",
    "C62_not_full_refuted"
   ],
   "note": "False: RSA public keys cannot be read back, Equal is never true for Ed25519, and coordinates lose leading zero bytes (refuted); ECDSA and Ed25519 round trips proved."
  },
  {
   "property": "C63",
   "status": "proved",
   "theorems": [
    "C63_cbc_inverse",
    "C63_cbc_mode",
    "C63_otherwise_panics"
   ],
   "note": "Inverse, CBC mode with zero IV, and the panic cases; over abstract AES."
  },
  {
   "property": "C64",
   "status": "proved",
   "theorems": [
    "C64_enabled_once_in_order",
    "C64_hidden_texts",
    "C64_at_once",
    "C64_level_line",
    "C64_no_crash"
   ],
   "note": "Every sequence of calls; also that the loggers do not crash."
  },
  {
   "property": "C65",
   "status": "proved",
   "theorems": [
    "C65_digits",
    "C65_read_back",
    "C65_short_reads",
    "C65_read_write"
   ],
   "note": "Every width and value."
  },
  {
   "property": "C66",
   "status": "partial",
   "theorems": [
    "C66_class_refuted",
    "C66_fields_partial"
   ],
   "note": "False: the type is read from bits 5..4 (refuted); direction and recipient proved."
  },
  {
   "property": "C67",
   "status": "partial",
   "theorems": [
    "C67_wrong_curve_refuted",
    "C67_agreement_key_partial"
   ],
   "note": "False: the curve is encoded as 0 and coordinates lose leading zeros (refuted); the rest proved."
  },
  {
   "property": "C68",
   "status": "proved",
   "theorems": [
    "C68_sign_verify",
    "C68_stored_key_signs"
   ],
   "note": "All three key types; Ed25519 and RSA under an additional functional law."
  },
  {
   "property": "C69",
   "status": "proved",
   "theorems": [
    "C69_registration_request",
    "C69_assertion_request",
    "C69_pin_request",
    "C69_registration_request_full",
    "C69_assertion_request_full",
    "C69_bad_field_name",
    "C69_field_name_case"
   ],
   "note": "All three commands with parameters."
  },
  {
   "property": "C70",
   "status": "proved",
   "theorems": [
    "C70_registration_succeeds",
    "C70_assertion_succeeds"
   ],
   "note": "Both commands."
  },
  {
   "property": "C71",
   "status": "proved",
   "theorems": [
    "C71_deleted_gone"
   ],
   "note": "Every history."
  },
  {
   "property": "C72",
   "status": "proved",
   "theorems": [
    "C72_starts_succeed"
   ],
   "note": "Every history; the data saver is assumed to replace its data in one step (C59 shows that the demo's does not)."
  },
  {
   "property": "C73",
   "status": "proved",
   "theorems": [
    "C73_pin_stays"
   ],
   "note": "PIN set through the local interface; CTAP SetPIN in C37 and C38."
  },
  {
   "property": "C74",
   "status": "proved",
   "theorems": [
    "C74_credentials_stay"
   ],
   "note": "Every history."
  },
  {
   "property": "C75",
   "status": "partial",
   "theorems": [
    "C75_swapped_refuted",
    "C75_login_refuted",
    "C75_actions_partial",
    "C75_login_partial",
    "C75_creation",
    "C75_no_quotes_partial",
    "C75_answer"
   ],
   "note": "Refuted: the two U2F questions are swapped, and a relying party name containing quotes makes the login question ambiguous. Proved: different actions give different questions; names occur in the question; unambiguous without quotes; exact set of consenting answers (ASCII)."
  },
  {
   "property": "C76",
   "status": "partial",
   "theorems": [
    "C76_plain_partial",
    "C76_refused",
    "C76_octal_refuted",
    "C76_octal",
    "C76_negative"
   ],
   "note": "Refuted: the flag is read with strconv.ParseInt base 0, so 012345 sets the PIN 5349. Proved for decimal numbers of 4 to 18 digits without leading zero; refusals change nothing."
  },
  {
   "property": "C77",
   "status": "proved",
   "theorems": [
    "C77_list"
   ],
   "note": "Every device state satisfying the client invariant."
  },
  {
   "property": "C78",
   "status": "proved",
   "theorems": [
    "C78_history",
    "C78_written_in_order",
    "C78_restarts"
   ],
   "note": "Refinement of the whole device (USB/IP, USB, CTAPHID, authenticators) to the histories of C31..C74. A CTAPHID message is handled in one step; writes to the connection succeed."
  },
  {
   "property": "C79",
   "status": "proved",
   "theorems": [
    "C79_host_reads",
    "C79_transaction",
    "C79_first_request",
    "C79_delivers"
   ],
   "note": "For messages handled in order; C13 shows that the code does not guarantee the order. No local calls during the run."
  },
  {
   "property": "C80",
   "status": "proved",
   "theorems": [
    "C80_cut",
    "C80_serial",
    "C80_answered_once"
   ],
   "note": "The parts before and after a question are atomic; races inside them are in C51 (U2F counter)."
  },
  {
   "property": "C81",
   "status": "partial",
   "theorems": [
    "C81_counters_partial",
    "C81_overlap_refuted"
   ],
   "note": "Refuted: GetAssertion keeps a pointer to the source while it waits, so two overlapping logins report the same counter. Proved: never smaller, and larger when the second began after the first was answered."
  },
  {
   "property": "C82",
   "status": "partial",
   "theorems": [
    "C82_deleted_partial",
    "C82_waiting_refuted"
   ],
   "note": "Refuted: a login that waits when its credential is deleted still signs. Proved for logins that began after the deletion."
  },
  {
   "property": "C83",
   "status": "partial",
   "theorems": [
    "C83_gate_partial",
    "C83_later_pin_refuted"
   ],
   "note": "Refuted: a PIN set while a registration waits is not asked for. Proved: the gate held when the registration began."
  },
  {
   "property": "C84",
   "status": "proved",
   "theorems": [
    "C84_assertion_verifies"
   ],
   "note": "Every overlapping history."
  },
  {
   "property": "C85",
   "status": "proved",
   "theorems": [
    "C85_starts_succeed",
    "C85_credentials_stay",
    "C85_pin_stays"
   ],
   "note": "Every overlapping history."
  },
  {
   "property": "C86",
   "status": "proved",
   "theorems": [
    "C86_approved"
   ],
   "note": "Every overlapping history."
  },
  {
   "property": "C87",
   "status": "proved",
   "theorems": [
    "C87_u2f_counters",
    "C87_guesses_limited"
   ],
   "note": "Overlap at the questions; interleavings within a request are in C51."
  },
  {
   "property": "C88",
   "status": "partial",
   "theorems": [
    "C88_guesses_bounded_partial",
    "C88_bound_reached",
    "C88_one_at_a_time_partial",
    "C88_unlimited_refuted",
    "C88_full_refuted",
    "C88_alone"
   ],
   "note": "Refuted: the counter is loaded and stored without a lock. Proved: with at most k requests in flight at most (8+k choose 8)-1 wrong PINs, which is attained; eight when requests do not overlap."
  },
  {
   "property": "C89",
   "status": "partial",
   "theorems": [
    "C89_lost_refuted",
    "C89_kept_partial",
    "C89_one_by_one_partial"
   ],
   "note": "Refuted: two overlapping appends lose a credential. Proved: nothing that was there is lost, nothing is invented, and all is kept when registrations do not overlap."
  },
  {
   "property": "C90",
   "status": "proved",
   "theorems": [
    "C90_front",
    "C90_history"
   ],
   "note": "Steps between two wait points of a goroutine are atomic; races inside them are in C51, C88 and C89. Writes to the connection succeed; the runtime's check for concurrent map access is not modelled."
  },
  {
   "property": "C91",
   "status": "proved",
   "theorems": [
    "C91_delivered"
   ],
   "note": "Delivery to the host needs distinct sequence numbers and 64 byte transfers, as the kernel driver uses."
  },
  {
   "property": "C92",
   "status": "proved",
   "theorems": [
    "C92_never_stuck"
   ],
   "note": "Every reachable state."
  },
  {
   "property": "C93",
   "status": "partial",
   "theorems": [
    "C93_waits_on",
    "C93_cancel_refuted",
    "C93_incomplete_partial"
   ],
   "note": "Refuted: the CANCEL waits for the channel's lock. Proved: nothing but an answer ends the wait or lets the CANCEL be looked at; before a request is complete CANCEL discards it and changes nothing else."
  },
  {
   "property": "C94",
   "status": "proved",
   "theorems": [
    "C94_approved"
   ],
   "note": "Every reachable state; parameters as in C31."
  },
  {
   "property": "C95",
   "status": "proved",
   "theorems": [
    "C95_list_is_a_queue"
   ],
   "note": "The count is the unsigned 32-bit field of the list."
  },
  {
   "property": "C96",
   "status": "partial",
   "theorems": [
    "C96_long_report_refuted",
    "C96_in_bounds_partial",
    "C96_no_leftovers",
    "C96_announced",
    "C96_fido_usage"
   ],
   "note": "Refuted for reports longer than 64 bytes, which the copy in newHIDFrame does not check. Proved for reports of at most 64 bytes, the size the report descriptor announces, in every reachable state."
  },
  {
   "property": "C97",
   "status": "partial",
   "theorems": [
    "C97_burst_refuted",
    "C97_in_order_partial",
    "C97_at_most_once_partial",
    "C97_progress_partial"
   ],
   "note": "Refuted: the driver keeps 17 frames and drops the oldest, and the run loop is blocked while a message is handled. Proved: in order and complete when the host is never more than 17 reports ahead; without that, an ordered selection with an exact count of what is missing; and the run loop always finishes."
  },
  {
   "property": "C98",
   "status": "proved",
   "theorems": [
    "C98_mac_history",
    "C98_mac_restarts"
   ],
   "note": "Reports of at most 64 bytes."
  },
  {
   "property": "C99",
   "status": "proved",
   "theorems": [
    "C99_mac_host_reads",
    "C99_mac_transaction"
   ],
   "note": "Reports of at most 64 bytes; the transaction needs a paced host (C97)."
  },
  {
   "property": "C100",
   "status": "partial",
   "theorems": [
    "C100_stop_refuted",
    "C100_calls_partial"
   ],
   "note": "Refuted: the selector is wired to HandleSendFrame, which dereferences the missing argument. Proved for every other selector and argument list."
  },
  {
   "property": "C101",
   "status": "partial",
   "theorems": [
    "C101_leak_refuted",
    "C101_leak_is_the_packets_partial"
   ],
   "note": "Refuted: the result of C.CBytes is never freed. Proved: what is left is exactly 64 bytes for each packet sent."
  },
  {
   "property": "C102",
   "status": "proved",
   "theorems": [
    "C102_certificate"
   ],
   "note": "crypto/x509 and encoding/asn1 are modelled; the reader in S_X509 is independent of that model. Dates up to the year 9989."
  },
  {
   "property": "C103",
   "status": "proved",
   "theorems": [
    "C103_u2f_accepted"
   ],
   "note": "The device's certificate oracle is the model of attestation.go (certifies)."
  },
  {
   "property": "C104",
   "status": "partial",
   "theorems": [
    "C104_packed_partial",
    "C104_strings",
    "C104_strings_refuted"
   ],
   "note": "Refuted in full: the subject's strings are PrintableString where WebAuthn 8.2.1 wants UTF8String, so a strict verifier accepts no registration (C104_strings). Proved: every other check passes."
  },
  {
   "property": "C105",
   "status": "partial",
   "theorems": [
    "C105_serial_refuted",
    "C105_always_zero",
    "C105_distinct_partial"
   ],
   "note": "Refuted: the serial number is 0 in every certificate. Proved: different keys get different certificates."
  },
  {
   "property": "C106",
   "status": "proved",
   "theorems": [
    "C106_authority",
    "C106_chain"
   ],
   "note": "P-256 keys as CreateCAPrivateKey makes them; SHA-1 is any function with 20 bytes of output."
  },
  {
   "property": "C107",
   "status": "partial",
   "theorems": [
    "C107_valid_partial",
    "C107_expired_refuted"
   ],
   "note": "Refuted: nothing checks that the authority is still valid. Proved when it is."
  },
  {
   "property": "C108",
   "status": "partial",
   "theorems": [
    "C108_not_full",
    "C108_mismatch_refuted",
    "C108_matching_partial"
   ],
   "note": "Refuted: a device starts with a certificate of another key; its first approved registration is saved and then panics. Proved: with a matching pair registrations succeed by both protocols."
  },
  {
   "property": "C109",
   "status": "partial",
   "theorems": [
    "C109_same_handler",
    "C109_discreet_partial",
    "C109_hash_shown",
    "C109_hash_suffices",
    "C109_guess_refuted",
    "C109_not_full"
   ],
   "note": "Refuted: setting or trying a PIN logs the stored hash, and the hash is enough to get the PIN token (C109_guess_refuted: one wrong guess and the log). Proved for every other exchange."
  },
  {
   "property": "C110",
   "status": "partial",
   "theorems": [
    "C110_same_handler",
    "C110_discreet_partial",
    "C110_private_key_refuted",
    "C110_refused_refuted",
    "C110_not_full"
   ],
   "note": "Refuted: a handle presented with another application gets its private key logged; a refused registration's handle is logged and works. Proved for every other exchange."
  },
  {
   "property": "C111",
   "status": "partial",
   "theorems": [
    "C111_demo_settings",
    "C111_console_partial",
    "C111_secrets_refuted",
    "C111_not_full"
   ],
   "note": "Refuted as C109 and C110: the demo shows lines of kind debug by default. Proved for every other exchange; fmt is any function."
  },
  {
   "property": "C112",
   "status": "partial",
   "theorems": [
    "C112_opens_partial",
    "C112_failed_start",
    "C112_passphrase_refuted"
   ],
   "note": "Refuted: two processes started without a file with different passphrases overwrite each other's file. Proved when all processes that got to run have the passphrase."
  },
  {
   "property": "C113",
   "status": "partial",
   "theorems": [
    "C113_deleted_partial",
    "C113_overwrites",
    "C113_overlap_refuted"
   ],
   "note": "Refuted: a running device does not notice `demo delete` and its next assertion even puts the credential back (C113_overwrites, in general). Proved when processes run one after another, by refinement to the histories of one device."
  },
  {
   "property": "C114",
   "status": "partial",
   "theorems": [
    "C114_registered_partial",
    "C114_overlap_refuted"
   ],
   "note": "Refuted: a command started before a registration saves the older state after it. Proved when processes run one after another."
  },
  {
   "property": "C115",
   "status": "partial",
   "theorems": [
    "C115_pin_partial",
    "C115_overlap_refuted"
   ],
   "note": "Refuted: the next assertion of a running device undoes `demo pin set`. Proved when processes run one after another."
  },
  {
   "property": "C116",
   "status": "partial",
   "theorems": [
    "C116_terminal_partial",
    "C116_pipe",
    "C116_pipe_refuted"
   ],
   "note": "Refuted: each question makes its own bufio.Reader, which takes up to 4096 bytes and is dropped with what follows the line, so from a pipe the end of a line that says no can approve. Proved for one question at a time when a read returns at most one line, as on a terminal; without that, answers are ends of lines in order (C116_pipe)."
  },
  {
   "property": "C117",
   "status": "partial",
   "theorems": [
    "C117_first_line_partial",
    "C117_ahead_refuted",
    "C117_two_refuted"
   ],
   "note": "Refuted by typing ahead and by two questions waiting. Proved for one question at a time when everything typed has been read before it is shown."
  },
  {
   "property": "C118",
   "status": "partial",
   "theorems": [
    "C118_never_approved_partial",
    "C118_dies_refuted"
   ],
   "note": "Refuted: the process panics. Proved: nothing is approved."
  },
  {
   "property": "C119",
   "status": "partial",
   "theorems": [
    "C119_accepted",
    "C119_constant_key",
    "C119_opened",
    "C119_own_key_partial",
    "C119_demo_refuted"
   ],
   "note": "Refuted: the sealing key is the SHA-256 of a constant in every demo device; every handle is accepted by all of them (C119_accepted) and can be opened by anyone (C119_opened). Proved for devices with a key that does not seal the handle (with the crash of C52)."
  },
  {
   "property": "C120",
   "status": "proved",
   "theorems": [
    "C120_whole_replies",
    "C120_one_writer"
   ],
   "note": "By a simulation of the runs of M_Usbip; mutual exclusion of the writers is C120_one_writer."
  },
  {
   "property": "C121",
   "status": "partial",
   "theorems": [
    "C121_refuted",
    "C121_hangs",
    "C121_before_import_partial"
   ],
   "note": "Refuted: a failed write of a callback panics in a goroutine without Try and ends the process; one of the server after the import leaves responseMutex locked, and for every continuation nothing more is written or accepted (C121_hangs). Proved for writes before the import."
  },
  {
   "property": "C122",
   "status": "proved",
   "theorems": [
    "C122_no_deadlock"
   ],
   "note": "Any number of callbacks and timers; the lock of the request buffer may be held while waiting for responseMutex."
  },
  {
   "property": "C123",
   "status": "proved",
   "theorems": [
    "C123_old_connections",
    "C123_fresh",
    "C123_last"
   ],
   "note": "The last part is also a limit: after a disconnect an imported device cannot be imported again without a restart (see C26)."
  },
  {
   "property": "C124",
   "status": "proved",
   "theorems": [
    "C124_threads",
    "C124_approved"
   ],
   "note": "By refinement to the lives of C90; C124_approved carries C94 over."
  },
  {
   "property": "C125",
   "status": "partial",
   "theorems": [
    "C125_isolated_partial",
    "C125_delete_refuted"
   ],
   "note": "Refuted with deletions: DeleteIdentity moves the last entry of the vault into the gap, so which credential of a relying party answers first afterwards depends on whether another relying party's credential was last. Proved without deletions; within one process (restarts mix relying parties up, C31)."
  },
  {
   "property": "C126",
   "status": "proved",
   "theorems": [
    "C126_pin_secret",
    "C126_pin_set",
    "C126_first_pin"
   ],
   "note": "What `offered` and `proved` mean is spelt out by `tries` and `proves` (S_Secret). C126_pin_set and C126_first_pin let the owner set PINs during the conversation, different ones in the two worlds. The timing of answers is not modelled."
  },
  {
   "property": "C127",
   "status": "proved",
   "theorems": [
    "C127_ctap_apart",
    "C127_u2f_apart"
   ],
   "note": "Both directions; by a relational logic over the state monad."
  },
  {
   "property": "C128",
   "status": "partial",
   "theorems": [
    "C128_race",
    "C128_race_refuted",
    "C128_one_writer",
    "C128_linear",
    "C128_order",
    "C128_panic",
    "C128_patient_partial"
   ],
   "note": "Refuted from every quiet state: an INIT and any other packet of four bytes or more have a schedule in which the runtime ends the process (C128_race). Proved: writes exclude each other, effects and panics are those of messages handled one after another, in an order that respects time (C128_linear, C128_order, C128_panic), and hosts that wait around broadcast messages are safe."
  },
  {
   "property": "C129",
   "status": "proved",
   "theorems": [
    "C129_settles",
    "C129_ends",
    "C129_nothing_left",
    "C129_answered"
   ],
   "note": "Termination is by a lexicographic measure and holds in every state; reads count as long as there is something to read (at the end of the input handleCommands loops, C26). The process may also end by a panic (C10, C44, C53)."
  },
  {
   "property": "C130",
   "status": "partial",
   "theorems": [
    "C130_refuted",
    "C130_found_partial",
    "C130_report_partial",
    "C130_wire",
    "C130_endpoints",
    "C130_strings"
   ],
   "note": "Refuted: bConfigurationValue is 0, which SET_CONFIGURATION cannot select (USB 2.0, 9.4.7), and Logical Maximum is the one byte 255, that is -1, below the minimum 0 (HID 1.11, 6.2.2.7). Proved: everything else, with the maximum read as unsigned as Linux does; that the transfers are what happens on the wire in every state; and that the endpoints found are those served."
  },
  {
   "property": "C131",
   "status": "partial",
   "theorems": [
    "C131_padded",
    "C131_prefix_partial",
    "C131_refuted"
   ],
   "note": "Refuted: onReturnSubmit sends the whole transfer buffer, padded with zeros, and reports its length (C131_padded). Proved for n up to the length of the answer."
  },
  {
   "property": "C132",
   "status": "partial",
   "theorems": [
    "C132_refuted",
    "C132_agrees_partial"
   ],
   "note": "Refuted: bcdDevice is 0 in the reply and 1 in the descriptor. All other fields agree."
  },
  {
   "property": "C133",
   "status": "partial",
   "theorems": [
    "C133_fresh_partial",
    "C133_numbers",
    "C133_takeover",
    "C133_refuted"
   ],
   "note": "Refuted: newChannel counts modulo 2^32 and looks at no table, so INIT number 2^32 returns channel 0 and the next ones channels already given; C133_takeover: from every state whoever sends enough INITs gets any channel, and the message another application was sending there is dropped. Proved for histories of fewer than 2^32-2 messages; the numbers are determined for every number of INITs."
  },
  {
   "property": "C134",
   "status": "partial",
   "theorems": [
    "C134_enabled_partial",
    "C134_kept",
    "C134_disclosed",
    "C134_refuted"
   ],
   "note": "Refuted: a logBuffer without output keeps every text for ever (C134_kept), and whoever lowers the level later reads all of them (C134_disclosed). Proved for the kinds that are enabled: nothing of them is kept."
  },
  {
   "property": "C135",
   "status": "partial",
   "theorems": [
    "C135_shown_partial",
    "C135_any_time_partial",
    "C135_buffer_partial",
    "C135_progress",
    "C135_race",
    "C135_refuted"
   ],
   "note": "Refuted: the loggers of one level share a bytes.Buffer but not a mutex, so of two lines of a level not enabled one can overwrite the other (C135_race; usbipLogger and usbLogger in the demo). Proved of everything shown, and of buffers that no two goroutines write to through different loggers. For SetLogLevel and SetLogOutput during logging see C152."
  },
  {
   "property": "C136",
   "status": "partial",
   "theorems": [
    "C136_shows_partial",
    "C136_rest",
    "C136_reported",
    "C136_refuted"
   ],
   "note": "Refuted: cbor v2.4.0 ignores what follows the first item. Proved: canonical items are shown, what is shown is in the shortest prefix that is an item, bad base64 and bad CBOR are reported."
  },
  {
   "property": "C137",
   "status": "partial",
   "theorems": [
    "C137_cut_partial",
    "C137_ignored",
    "C137_refuted"
   ],
   "note": "Refuted: what follows the request is ignored, whatever it is (C137_ignored; Unmarshal of cbor v2.4.0). Proved of requests cut short; with make_credential the process ends (see C44)."
  },
  {
   "property": "C138",
   "status": "partial",
   "theorems": [
    "C138_attached_partial",
    "C138_only",
    "C138_told_refuted",
    "C138_checked"
   ],
   "note": "Refuted: for an unknown bus id the server answers status 1 (not available), so the client says only that it failed to attach. Proved: what is attached, and that nothing else is. The driver's part is not in this theorem."
  },
  {
   "property": "C139",
   "status": "partial",
   "theorems": [
    "C139_modest_partial",
    "C139_go",
    "C139_refuted"
   ],
   "note": "Refuted: fetch_descriptor receives as many bytes as the reply announces into a buffer of the size asked for. Proved when no reply announces more than was asked for, in particular with the server of this repository (C139_go)."
  },
  {
   "property": "C140",
   "status": "partial",
   "theorems": [
    "C140_shown_partial",
    "C140_refuted",
    "C140_checked"
   ],
   "note": "Refuted: the server of this repository writes nothing for OP_REQ_DEVLIST (encoding/binary cannot encode the reply), the client waits. Proved of servers that send the list."
  },
  {
   "property": "C141",
   "status": "proved",
   "theorems": [
    "C141_requests"
   ],
   "note": "mx bounds the size of a request and bl what waits to be written (calm); together they stay below 2^32, the range of the client's sizes. Reads and writes do not fail; allocations succeed."
  },
  {
   "property": "C142",
   "status": "partial",
   "theorems": [
    "C142_whole_partial",
    "C142_refuted"
   ],
   "note": "Refuted: read_dev returns before write_devbuf is called while a further request is incomplete, so a request complete in the second buffer waits for the next one to be complete. Proved when what was read ends where a request ends."
  },
  {
   "property": "C143",
   "status": "partial",
   "theorems": [
    "C143_replies_partial",
    "C143_all_partial",
    "C143_recent",
    "C143_refuted"
   ],
   "note": "Refuted with 1025 requests outstanding: the cache of directions has 1024 places, the reply to an IN request that was overwritten is taken for one without data and its data for the next header. Proved as long as the request is remembered, in particular (C143_recent) when fewer than 1024 numbers were given out since. Requests are numbered without repetition and not with 0, as vhci does until the counter wraps."
  },
  {
   "property": "C144",
   "status": "partial",
   "theorems": [
    "C144_safe_partial",
    "C144_refuted",
    "C144_packets_refuted"
   ],
   "note": "Refuted: a reply that announces nearly 4 GiB makes the buffer size wrap (C144_refuted), and number_of_packets 2^28+1 makes swap_iso_descs_endian run past the buffer (C144_packets_refuted). Proved for arbitrary input as long as what was read and what is announced stay below 4 GiB together."
  },
  {
   "property": "C145",
   "status": "partial",
   "theorems": [
    "C145_requests_partial",
    "C145_cancel_refuted",
    "C145_leak_refuted",
    "C145_default_refuted"
   ],
   "note": "Refuted: a block cancelled between the reading of its header and of its data has the unlink for its data (C145_cancel_refuted); an unlink carries 24 bytes of whatever memory was read into (C145_leak_refuted); a CONTROL_TRANSFER_EX that reads from the default pipe goes out as one that writes (C145_default_refuted). Proved for orderly runs (no such cancelling, no aborted pipes) of known blocks with the 24 bytes left open, and until 32-bit sizes and numbers run out."
  },
  {
   "property": "C146",
   "status": "partial",
   "theorems": [
    "C146_whole_partial",
    "C146_cancel_refuted",
    "C146_unknown_refuted",
    "C146_stuck_refuted"
   ],
   "note": "Refuted: cancelling between header and data ends the forwarding (C146_cancel_refuted), as does a block the driver does not know, such as a BOS descriptor (C146_unknown_refuted); when that meets a read, the next block makes the driver forget the read and nothing is ever carried again (C146_stuck_refuted, for all continuations). Proved for orderly runs of known blocks; that rest is reached is not proved."
  },
  {
   "property": "C147",
   "status": "proved",
   "theorems": [
    "C147_once"
   ],
   "note": "For all runs of the model that do not reach a freed request (a Panic of the model)."
  },
  {
   "property": "C148",
   "status": "partial",
   "theorems": [
    "C148_right_partial",
    "C148_all_partial",
    "C148_less_refuted"
   ],
   "note": "Refuted: a bulk or interrupt OUT transfer of which the device took only a part is told to have gone whole (C148_less_refuted). Proved (C148_right_partial; C148_all_partial at rest) for orderly runs of known blocks and honest replies (fair_one), which for OUT transfers say the whole length on bulk pipes and 0 with CONTROL_TRANSFER(_EX), while the forwarder remembers the requests (C143)."
  },
  {
   "property": "C149",
   "status": "partial",
   "theorems": [
    "C149_safe_partial",
    "C149_control_refuted",
    "C149_minus_refuted",
    "C149_abort_refuted"
   ],
   "note": "Refuted: an honest reply to an OUT CONTROL_TRANSFER(_EX) with data makes the driver copy what follows the reply in memory (C149_control_refuted; this project's server sends such replies); an actual_length of 2^32-1 passes the signed comparison (C149_minus_refuted); aborting a pipe between header and data of a block leaves a pointer to the freed request, which the next read uses (C149_abort_refuted). Proved for orderly runs and honest replies as in C148, given that the forwarder's own step is safe (C144)."
  },
  {
   "property": "C150",
   "status": "partial",
   "theorems": [
    "C150_fair_partial",
    "C150_outcomes_partial",
    "C150_safe_partial",
    "C150_control_refuted"
   ],
   "note": "Refuted for control transfers that bring data to the device (C150_control_refuted: the server says in actual_length that the bytes were moved, and the driver copies as many from behind the reply). Proved otherwise (C150_fair_partial, C150_outcomes_partial, C150_safe_partial) for orderly runs of known blocks as in C145, when the server's reads cut no data part (C22), requests and replies fit (mx), and the forwarder remembers the requests (C143)."
  },
  {
   "property": "C151",
   "status": "partial",
   "theorems": [
    "C151_outcomes_partial",
    "C151_ends_partial",
    "C151_safe_partial",
    "C151_all_refuted"
   ],
   "note": "Refuted for blocks that the device does not answer, such as a string it does not have (C151_all_refuted: nothing is left to do and the block has not ended). Proved otherwise (C151_outcomes_partial, C151_ends_partial, C151_safe_partial) under the conditions of C150. Unlike in C148 and C150 that replies come in time and are the server's own is not assumed but follows from the joint run. Not proved: that the two always reach rest."
  },
  {
   "property": "C152",
   "status": "partial",
   "theorems": [
    "C152_once",
    "C152_before_partial",
    "C152_after_partial",
    "C152_lost",
    "C152_refuted",
    "C152_claim_refuted",
    "C152_order_refuted"
   ],
   "note": "Proved of every interleaving: each line is at one place (C152_once); what was kept when SetLogOutput, or SetLogLevel once an output is set, is called is shown when it returns (C152_before_partial); a line whose writing began when the outputs from its level on were set is shown when its Write returns (C152_after_partial). Refuted: a goroutine that found no output before the assignment in setOutput and keeps its line afterwards leaves it in a buffer that is not read again (C152_refuted; C152_lost in general), and a later SetLogOutput shows it out of order (C152_order_refuted). Each method of bytes.Buffer is one step here; C135 has the steps of Write."
  },
  {
   "property": "C153",
   "status": "proved",
   "theorems": [
    "C153_same_server",
    "C153_only_traffic",
    "C153_all_traffic",
    "C153_packets"
   ],
   "note": "Messages one after another (M_Hid); the order of lines from channels that run at once is not modelled. What the authenticators behind the HID server log themselves is C109 and C110. C153_packets holds for payloads of every length."
  },
  {
   "property": "C154",
   "status": "partial",
   "theorems": [
    "C154_once",
    "C154_all_end_partial",
    "C154_can_end",
    "C154_unplugged",
    "C154_late_refuted",
    "C154_read_partial",
    "C154_read_refuted"
   ],
   "note": "Proved of every run: C154_once, C154_can_end, C154_unplugged. C154_all_end_partial needs that no submission is between the driver's test of plugged and its lists when the device is removed; otherwise refuted (C154_late_refuted; Windows drivers above that wait for their calls before they let the removal pass avoid it). C154_read_partial has the conditions of C145; a block of a kind that the driver does not know makes a waiting read that never ends (C154_read_refuted)."
  },
  {
   "property": "C155",
   "status": "partial",
   "theorems": [
    "C155_request_partial",
    "C155_request_refuted",
    "C155_reply",
    "C155_setup_partial",
    "C155_type_refuted"
   ],
   "note": "Refuted: of the device number only the low byte is written, and unknown directions are all empty (C155_request_refuted); the type of a request is taken from bits 4 and 5, so that SET_IDLE is written as a vendor request (C155_type_refuted). Proved for device numbers below 256 and directions 0 and 1 (C155_request_partial), for all replies (C155_reply), and for setup packets up to bit 6 of the first byte when the recipient has a name (C155_setup_partial). Text of package fmt is modelled for the verbs used."
  },
  {
   "property": "C156",
   "status": "partial",
   "theorems": [
    "C156_kept_partial",
    "C156_delivered",
    "C156_refuted"
   ],
   "note": "Refuted: channels and their unfinished requests are never given back, so that 130 packets make the server keep 7609 bytes more, up to 2^32 - 2 times (C156_refuted). Proved: 7609 bytes for each channel and one channel for each INIT answered (C156_kept_partial, for histories without a panic), and that longer messages never reach the authenticators (C156_delivered)."
  },
  {
   "property": "C157",
   "status": "partial",
   "theorems": [
    "C157_bound_partial",
    "C157_held_refuted",
    "C157_sent_refuted"
   ],
   "note": "Refuted: the announced length is trusted, so that 48 bytes make the server hold up to 2^32 - 1 bytes while a request waits (C157_held_refuted), and send as many in the answer to GET_STATUS (C157_sent_refuted). Proved: one answer or waiting request for each eight bytes received, the bound with 2^32 in it, and that nothing is held when no timer is left (C157_bound_partial)."
  },
  {
   "property": "C158",
   "status": "partial",
   "theorems": [
    "C158_goroutines",
    "C158_rest",
    "C158_end_partial",
    "C158_prompt_refuted"
   ],
   "note": "Refuted for the end: Go's select takes any ready channel, so that the loop may run on for any number of expirations after stop (C158_prompt_refuted). Proved: at most two goroutines, no blocking send, keepalives and moves paced by expirations (C158_goroutines), everything has returned when nothing can move (C158_rest), and that end is always six moves away (C158_end_partial). The handler of the command returns (a panic ends the process)."
  },
  {
   "property": "C159",
   "status": "partial",
   "theorems": [
    "C159_same_reply_partial",
    "C159_guesses_refuted",
    "C159_refuted"
   ],
   "note": "Refuted: the key agreement key is not renewed after a wrong PIN, so that one recorded request for the token restores the guesses as often as it is sent (C159_guesses_refuted for every such request and any number of guesses; C159_refuted for the claim as stated). Proved: sent again in the same session it gets the same bytes and changes only the number of guesses (C159_same_reply_partial). A restart makes a new key; that recorded requests then fail is up to the cryptography and not stated."
  },
  {
   "property": "C160",
   "status": "partial",
   "theorems": [
    "C160_first_answers",
    "C160_only_partial",
    "C160_named",
    "C160_newest_refuted"
   ],
   "note": "Refuted: the first match of the vault answers, which is the oldest if nothing was deleted (C160_newest_refuted); whatever else is asked, but deletions, it stays so (C160_first_answers), so that a new registration is never used by logins without an allow list. Proved: the new credential answers when it is the only one (C160_only_partial) or when it is named (C160_named). Within one process; restarts mix relying parties up (C31)."
  },
  {
   "property": "C161",
   "status": "partial",
   "theorems": [
    "C161_behind_partial",
    "C161_other_last_partial",
    "C161_refuted"
   ],
   "note": "Refuted: DeleteIdentity moves the last credential into the gap, so that deleting a credential of one relying party can change which credential of another one answers (C161_refuted). Proved: not when the deleted one stands behind the one that answers (C161_behind_partial), nor when the last of the vault is of another relying party (C161_other_last_partial). Within one process."
  },
  {
   "property": "C162",
   "status": "partial",
   "theorems": [
    "C162_first_partial",
    "C162_always_refuted",
    "C162_refuted"
   ],
   "note": "Refuted: the option rk is read but not used, and every registration appends; wherever the account had a credential it has two afterwards (C162_always_refuted, C162_refuted). Proved: the first registration of an account leaves one (C162_first_partial). With C160 the older of the two answers."
  },
  {
   "property": "C163",
   "status": "partial",
   "theorems": [
    "C163_credential_partial",
    "C163_always_refuted",
    "C163_refuted"
   ],
   "note": "Refuted: User and NumberOfCredentials are commented out (ctap.go:321-322, 371-372), so that no answer to a login has a member but 1, 2 and 3 (C163_always_refuted, C163_refuted), although GetInfo announces resident keys. Proved: the answer tells the id of a credential of the relying party (C163_credential_partial)."
  }
 ]
}