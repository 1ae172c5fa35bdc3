{
 "claims": [
  {
   "property": "C01",
   "status": "proved",
   "theorems": [
    "c01_prefix",
    "c01_delivered",
    "c01_send"
   ],
   "note": "Both directions at once, any interleaving of sends, flushes, deliveries and reads, any cut of the stream. Failing sends are excluded; payloads reach the limit of one record excluded as in C04."
  },
  {
   "property": "C02",
   "status": "partial",
   "theorems": [
    "c02_split_partial",
    "c02_accepted",
    "c02_limits",
    "c02_split_refuted"
   ],
   "note": "False in general (c02_split_refuted: a ServerHello in two records, the first of two bytes). Proved for every connection with legal fragment limits and every split when the loop does not stop early; up to an exception, the pieces not fed are all that differs. Excluded: the exception of the unimplemented rekeying check between two pieces."
  },
  {
   "property": "C03",
   "status": "proved",
   "theorems": [
    "c03_lossless",
    "c03_limit_in_force"
   ],
   "note": "For every content and every state whose fragment length is one of the five legal ones, which every reachable state's is."
  },
  {
   "property": "C04",
   "status": "partial",
   "theorems": [
    "c04_record_size_partial",
    "c04_wire_partial",
    "c04_record_size_refuted"
   ],
   "note": "Plaintext records and all encrypted records whose fragment is shorter than the limit are accepted by the peer; a fragment of exactly the limit yields mfl + min(mfl, 4096) bytes, which a peer refuses: refuted. Sizes are multiples of the chunk in every case."
  },
  {
   "property": "C05",
   "status": "proved",
   "theorems": [
    "c05_recovered",
    "c05_all_zeros",
    "c05_only_wrapped",
    "c05_sender",
    "c05_record"
   ],
   "note": "Left and right inverse of the wrapping; c05_record says it of a whole record, whatever the cipher opens it to."
  },
  {
   "property": "C06",
   "status": "proved",
   "theorems": [
    "c06_nonces",
    "c06_log",
    "c06_log_grows",
    "c06_log_flush"
   ],
   "note": "every reachable state, every epoch; epochs are ghost identities of installed keys; the log is tied to the output by c06_log and c06_log_grows"
  },
  {
   "property": "C07",
   "status": "proved",
   "theorems": [
    "c07_output_drained",
    "c07_readable_drained"
   ],
   "note": "Every call other than data_to_send appends; what was flushed and what is left is exactly what was emitted. The same for data_to_read."
  },
  {
   "property": "C08",
   "status": "proved",
   "theorems": [
    "c08_receive",
    "c08_handles_unique",
    "c08_other_calls"
   ],
   "note": "The growth of the readable data in one receive_data call is the concatenation of the application data contents handled in the connected or half-closed state; other calls leave it alone. (That such a state may be entered before any key exists is C09 and C45.)"
  },
  {
   "property": "C09",
   "status": "partial",
   "theorems": [
    "c09_secret_partial",
    "c09_keys_partial",
    "c09_error",
    "c09_secret_refuted"
   ],
   "note": "Sealed from the moment the handshake allows writing on (c09_secret_partial) and whenever keys are installed; refuted before keys: a plaintext close_notify leaves the connection Closed but able to send, in the clear."
  },
  {
   "property": "C10",
   "status": "partial",
   "theorems": [
    "c10_alert_partial",
    "c10_only",
    "c10_alert_refuted"
   ],
   "note": "Proved whenever the alert can be encrypted (suite with a usage limit, limit not reached); refuted for the CCM suites, whose TypeError leaves the connection not failed and no alert sent."
  },
  {
   "property": "C11",
   "status": "partial",
   "theorems": [
    "c11_failed_partial",
    "c11_failed_refuted"
   ],
   "note": "Proved for histories without close_receiving_end; refuted with it: close_receiving_end turns Failed into a closed state that may send."
  },
  {
   "property": "C12",
   "status": "partial",
   "theorems": [
    "c12_silent_partial",
    "c12_silent_refuted"
   ],
   "note": "Proved up to the first close_notify received from the peer, for a connection that had not failed. Refuted in general: the peer's close_notify recreates the Closed state with both ends open, so send_data works again."
  },
  {
   "property": "C13",
   "status": "proved",
   "theorems": [
    "c13_nothing_accepted"
   ],
   "note": "Every receive_data raises and leaves the connection unchanged, after any further history."
  },
  {
   "property": "C14",
   "status": "partial",
   "theorems": [
    "c14_truncated",
    "c14_cannot_send_partial",
    "c14_cannot_send_refuted"
   ],
   "note": "Failing and is_connected proved for every history; that nothing can be sent is proved as long as close_receiving_end is not called a second time, and refuted when it is."
  },
  {
   "property": "C15",
   "status": "partial",
   "theorems": [
    "c15_terminates",
    "c15_one_run",
    "c15_consumes",
    "c15_all_read_partial",
    "c15_all_read_refuted"
   ],
   "note": "Termination and consumption proved; that no complete record is left is refuted (a handshake record leaving fewer than four bytes to reassemble stops the loop) and proved up to that case."
  },
  {
   "property": "C16",
   "status": "proved",
   "theorems": [
    "c16_authenticated",
    "c16_authenticated_rfc"
   ],
   "note": "Invariant of every client state along every history; hypotheses on external code: sealed records have the tag's length, hash and HMAC outputs the digest's. With a HelloRetryRequest the transcript is the one the client computes (see C24)."
  },
  {
   "property": "C17",
   "status": "proved",
   "theorems": [
    "c17_finished"
   ],
   "note": "Server invariant over every history whose random is not the HelloRetryRequest marker; the Finished of the client is HMAC over the RFC 8446 transcript up to the server's Finished."
  },
  {
   "property": "C18",
   "status": "partial",
   "theorems": [
    "c18_never_connected",
    "c18_is_connected_refuted"
   ],
   "note": "A server that requires client authentication never reaches Connected (it cannot finish a handshake at all). is_connected() is refuted: it is true after a close_notify received before any hello."
  },
  {
   "property": "C19",
   "status": "proved",
   "theorems": [
    "c19_settled",
    "c19_hello_refused",
    "c19_extensions_refused"
   ],
   "note": "Every reachable settled client state holds parameters of the client's own configuration, tied to the bytes of the ServerHello, EncryptedExtensions and CertificateVerify it handled; other choices raise, which c10_alert_partial turns into an alert."
  },
  {
   "property": "C20",
   "status": "proved",
   "theorems": [
    "c20_settled",
    "c20_no_suite",
    "c20_refused"
   ],
   "note": "Parameters are the first of the server's own lists that the hello offers; each missing common parameter gives its alert."
  },
  {
   "property": "C21",
   "status": "proved",
   "theorems": [
    "c21_one_retry",
    "c21_no_suite",
    "c21_other_random",
    "c21_no_share",
    "c21_refused"
   ],
   "note": "At most one HelloRetryRequest along any history; second hellos without the suite, with another random, without a usable share or with refused extensions are turned down."
  },
  {
   "property": "C22",
   "status": "partial",
   "theorems": [
    "c22_one_retry_partial",
    "c22_one_retry_refuted"
   ],
   "note": "False of the code: a second HelloRetryRequest naming the same suite and group is accepted (c22_one_retry_refuted). Proved: any other second one is refused."
  },
  {
   "property": "C23",
   "status": "partial",
   "theorems": [
    "c23_server",
    "c23_client_partial",
    "c23_client_refuted"
   ],
   "note": "Server: full (fewer sealed records than the smallest usage limit). Client: prefix of a word with n retries; refuted for n <= 1, a client accepts two HelloRetryRequests."
  },
  {
   "property": "C24",
   "status": "partial",
   "theorems": [
    "c24_server",
    "c24_client_partial",
    "c24_same_partial",
    "c24_client_refuted"
   ],
   "note": "Server: equals the RFC 8446 hash, retries included. Client: equal without retry; refuted with one, the client does not hash the HelloRetryRequest."
  },
  {
   "property": "C25",
   "status": "partial",
   "theorems": [
    "c25_client_keys",
    "c25_server_keys",
    "c25_handshake_keys",
    "c25_application_keys",
    "c25_handshake_match",
    "c25_application_match",
    "c25_derivable_partial",
    "c25_derivable_refuted"
   ],
   "note": "Proved: the keys, ivs and Finished keys of both stages equal the RFC 8446 7.1 schedule and match across sides, and are derivable for the GCM and ChaCha20 suites. Refuted: with a CCM suite the derivation raises TypeError. That the connection passes equal transcript hashes is C24."
  },
  {
   "property": "C26",
   "status": "proved",
   "theorems": [
    "c26_forward",
    "c26_once",
    "c26_no_assertion"
   ],
   "note": "For every history of calls and inputs, client or server. Hypotheses: sizes of AEAD, HMAC and hash outputs, external code raises no AssertionError itself, a server does not draw the HelloRetryRequest random."
  },
  {
   "property": "C27",
   "status": "partial",
   "theorems": [
    "c27_ccm_client",
    "c27_ccm_server",
    "c27_honest_partial",
    "c27_in_pieces",
    "c27_then_delivered",
    "c27_raw_client",
    "c27_mfl_refuted",
    "c27_retry_refuted",
    "c27_ccm_refuted",
    "c27_real"
   ],
   "note": "Proved from any two compatible configurations (certificate authentication of the server, any primitives that behave) whose client has a max_fragment_length of 4096 or 16384 and offers a share for the server's preferred group, suite not CCM: every call returns, both connected, keys match, ALPN agreed, later traffic is delivered, and the flights may arrive in any pieces. The three restrictions are needed (refuted theorems); client authentication, raw keys and Certificate messages longer than a record cannot work (c18, c27_raw_client, c04). c27_ccm_client and c27_ccm_server: no connected endpoint, whatever its peer, negotiated a CCM suite. c27_real: SHA-2, HMAC and the AEADs of the RFCs, written out in Gallina, meet the hypotheses on primitives."
  },
  {
   "property": "C28",
   "status": "proved",
   "theorems": [
    "c28_int",
    "c28_var",
    "c28_listint",
    "c28_listvar",
    "c28_int_range",
    "c28_var_range",
    "c28_listint_range",
    "c28_listvar_range"
   ],
   "note": "Round trips for integers, vectors, lists of integers and lists of vectors at any position under any limits, and the exact range in which writing succeeds (OverflowError otherwise)."
  },
  {
   "property": "C29",
   "status": "proved",
   "theorems": [
    "c29_reads_stay_inside",
    "c29_limit_is_exact"
   ],
   "note": "For every program of reads with nested limits: the position stays inside the data and the innermost limit, what is handed out is exactly the bytes between the old and the new position, and a limited element is consumed exactly."
  },
  {
   "property": "C30",
   "status": "partial",
   "theorems": [
    "c30_roundtrip",
    "c30_message",
    "c30_client_hello",
    "c30_idna_refuted",
    "c30_alpn_refuted",
    "c30_psk_refuted"
   ],
   "note": "c30_roundtrip: every well formed message of each kind with any combination of extensions, plus alerts, change_cipher_spec and application data; c30_client_hello: the hello the library builds is such a message. Not for a host name longer once IDNA encoded (c30_idna_refuted), an unprintable ALPN name (c30_alpn_refuted) or pre_shared_key (c30_psk_refuted): there the statement is false of the code."
  },
  {
   "property": "C31",
   "status": "partial",
   "theorems": [
    "c31_partial",
    "c31_told",
    "c31_refuted",
    "c31_table_met",
    "c31_external_refuted",
    "c31_connection_refuted"
   ],
   "note": "c31_partial classifies every error of every parser, for all bytes: an alert other than internal_error, or an entry of a table per message type, or an error of an external decoder. The full statement is false: c31_refuted, c31_external_refuted and c31_connection_refuted give witnesses, c31_table_met shows that every entry of the table occurs."
  },
  {
   "property": "C32",
   "status": "partial",
   "theorems": [
    "c32_layout",
    "c32_allowed_partial",
    "c32_allowed_refuted",
    "c32_table"
   ],
   "note": "c32_layout is complete (layout, lengths, one extension per type, each read from its own bytes); allowed-ness holds but for a cookie in a ServerHello, which the code allows and RFC 8446 does not (c32_allowed_refuted)."
  },
  {
   "property": "C33",
   "status": "proved",
   "theorems": [
    "c33_expand",
    "c33_expand_length",
    "c33_expand_too_long",
    "c33_extract"
   ],
   "note": "Against an independent RFC 5869 specification, HMAC an oracle assumed only to return digests of the right size."
  },
  {
   "property": "C34",
   "status": "proved",
   "theorems": [
    "c34_injective",
    "c34_used",
    "c34_layout",
    "c34_over"
   ],
   "note": "Encoding injective, layout of RFC 8446 7.1, over-long inputs raise."
  },
  {
   "property": "C35",
   "status": "proved",
   "theorems": [
    "c35_agree",
    "c35_refused",
    "c35_accepted",
    "c35_small",
    "c35_numbers"
   ],
   "note": "Agreement, the exact set of refused peer values, the accepted ones, the small-subgroup bound and the constants against RFC 7919 (primes as 2^b - 2^(b-64) + (floor(2^(b-130) e)+X)2^64 - 1; digits of e checked on the first 2942 bits). Primality of p and q is not proved; the elliptic groups are an oracle."
  },
  {
   "property": "C36",
   "status": "proved",
   "theorems": [
    "c36_valid",
    "c36_client",
    "c36_server"
   ],
   "note": "The issuer itself must have signed the answer (stronger than asked: answers of delegated responders are refused)."
  },
  {
   "property": "C37",
   "status": "proved",
   "theorems": [
    "c37_bounded",
    "c37_fresh",
    "c37_forgets",
    "c37_served"
   ],
   "note": "Including the heap of deadlines. Threads sharing the module-level cache are not modelled."
  },
  {
   "property": "C38",
   "status": "proved",
   "theorems": [
    "c38_path",
    "c38_over"
   ],
   "note": "every call from every reachable state follows the edges of the RFC 8446 appendix A diagrams (plus closed/failed); the handshake is never re-entered"
  },
  {
   "property": "C39",
   "status": "proved",
   "theorems": [
    "c39_peekable"
   ],
   "note": "Simulation with a plain list for every interleaving."
  },
  {
   "property": "C40",
   "status": "proved",
   "theorems": [
    "c40_config",
    "c40_value_error"
   ],
   "note": "Exact characterisation of accepted configurations; every refusal is a ValueError."
  },
  {
   "property": "C41",
   "status": "proved",
   "theorems": [
    "c41_aligned",
    "c41_hexdump",
    "c41_text"
   ],
   "note": "An independent reader of dumps, which checks offsets and line lengths, is a left inverse of hexdump."
  },
  {
   "property": "C42",
   "status": "partial",
   "theorems": [
    "c42_write_partial",
    "c42_close_partial",
    "c42_read_partial",
    "c42_handshake_partial",
    "c42_write_refuted"
   ],
   "note": "Proved for sockets whose send takes everything; refuted for partial sends: the rest is neither sent nor kept."
  },
  {
   "property": "C43",
   "status": "partial",
   "theorems": [
    "c43_forged_partial",
    "c43_forged_refuted"
   ],
   "note": "The record is refused and nothing delivered, but with decrypt_error instead of bad_record_mac (refuted)."
  },
  {
   "property": "C44",
   "status": "partial",
   "theorems": [
    "c44_fatal_partial",
    "c44_sealed_partial",
    "c44_silent_refuted"
   ],
   "note": "The connection fails, but sends the received alert back (refuted). The positive part covers alerts received in the clear and encrypted."
  },
  {
   "property": "C45",
   "status": "partial",
   "theorems": [
    "c45_size_partial",
    "c45_bounded_partial",
    "c45_size_refuted"
   ],
   "note": "Full statement refuted: Content-Length: -1 reads everything (c45_size_refuted). Proved: the size passed to read is at most 20480 and negative only when the header is, so a reply without or with a non-negative Content-Length reads at most 20480 bytes, also when the cache holds an expired answer."
  },
  {
   "property": "C46",
   "status": "partial",
   "theorems": [
    "c46_stapled_partial",
    "c46_stapled_refuted"
   ],
   "note": "Proved for every certificate followed by its issuer in the list; refuted for the last one, whose status is never looked at."
  },
  {
   "property": "C47",
   "status": "proved",
   "theorems": [
    "c47_schedules",
    "c47_finishes",
    "c47_wrapped"
   ],
   "note": "All schedules of two do_handshake loops over a lossless network: no exception, no deadlock, a bound on the number of turns, the same final state (that of C27) under every schedule; also stated for the two calls of do_handshake with scripted sockets. Restricted, like the statement, to the configurations of C27; the theorems c27_*_refuted show that the restrictions are needed."
  },
  {
   "property": "C48",
   "status": "proved",
   "theorems": [
    "c48_spliced"
   ],
   "note": "Unforgeability of the AEAD is a hypothesis (unforgeable, S_Integrity.v), shown satisfiable by the strict toy cipher. Both endpoints run arbitrary histories; the receiver is given arbitrary bytes."
  },
  {
   "property": "C49",
   "status": "partial",
   "theorems": [
    "c49_prefix_partial",
    "c49_gap_refuted",
    "c49_heeded"
   ],
   "note": "c49_heeded has no restriction on the receiver for a caller that does not call receive_data again once it has raised. Missing otherwise: a receiver that has closed its sending end, or has exhausted its write key, cannot send the alert and is left connected with an advanced sequence number. The full statement is refuted (c49_gap_refuted)."
  },
  {
   "property": "C50",
   "status": "proved",
   "theorems": [
    "c50_same_keys_partial",
    "c50_same_keys"
   ],
   "note": "c50_same_keys: with and without HelloRetryRequest, the matching keys of RFC 8446 or an exhibited collision of HMAC or hash, or a digest taken for messages (reduction, no cryptographic assumption). c50_same_keys_partial: without HelloRetryRequest the keys match outright. After a HelloRetryRequest the client's transcript is wrong (c24_client_refuted), so only collisions are left. External key exchanges are assumed to commute (hypothesis dh_commutes)."
  },
  {
   "property": "C51",
   "status": "proved",
   "theorems": [
    "c51_bound",
    "c51_keys"
   ],
   "note": "The alternative names the inputs of the collision: those from which the two endpoints computed the Finished."
  },
  {
   "property": "C52",
   "status": "proved",
   "theorems": [
    "c52_veil",
    "c52_hidden"
   ],
   "note": "Relational proof over every method of the connection; the first theorem holds for every AEAD, the second for the ideal one. Before there are keys nothing is claimed: C09 has the case where send_data works without keys."
  },
  {
   "property": "C53",
   "status": "partial",
   "theorems": [
    "c53_spliced",
    "c53_prefix_partial",
    "c53_early_refuted",
    "c53_server_partial",
    "c53_client_partial",
    "c53_heeded",
    "c53_heeded_server",
    "c53_heeded_client"
   ],
   "note": "Both directions from creation to any later point, including the call that ends the handshake. Missing: what the server writes before it has the client's Finished (refuted: those records are sent under the handshake keys and can be removed), and a reader that closed its sending end or used up its write key and goes on after an exception (c53_heeded* cover every reader that stops)."
  },
  {
   "property": "C54",
   "status": "partial",
   "theorems": [
    "c54_clear_partial",
    "c54_sealed_partial",
    "c54_warning_ignored",
    "c54_level_refuted"
   ],
   "note": "Proved for every level byte but warning, in the clear and encrypted, whenever the answer can be encrypted (as C10). Refuted for level warning: the alert is ignored."
  },
  {
   "property": "C55",
   "status": "proved",
   "theorems": [
    "c55_server",
    "c55_client",
    "c55_again_partial",
    "c55_again_refuted"
   ],
   "note": "Up to the first read that raises, in both directions. Beyond the statement: a user that reads again after an exception on a closed socket can miss a record (c55_again_refuted; the part that holds is c55_again_partial)."
  },
  {
   "property": "C56",
   "status": "proved",
   "theorems": [
    "c56_prefix",
    "c56_read",
    "c56_write",
    "c56_wrapped"
   ],
   "note": "Proved for payloads that fit a record without reaching the size of C04, over a network that loses nothing; c56_wrapped starts from the calls of do_handshake (hypotheses of C27)."
  },
  {
   "property": "C57",
   "status": "partial",
   "theorems": [
    "c57_eof_partial",
    "c57_truncation_refuted",
    "c57_waits_refuted",
    "c57_after_refuted"
   ],
   "note": "c57_eof_partial: on a connected socket the empty string is returned only after recv returned it. That the peer announced it is refuted (c57_truncation_refuted), as is that a close_notify ends the stream (c57_waits_refuted) and that later data is ignored (c57_after_refuted)."
  },
  {
   "property": "C58",
   "status": "proved",
   "theorems": [
    "c58_vouched",
    "c58_entire"
   ],
   "note": "Hypotheses of c49_heeded, and the reader has not closed its own sending end (its state then says nothing about the peer). The wrapper does not tell its caller of the close_notify: C57."
  },
  {
   "property": "C59",
   "status": "partial",
   "theorems": [
    "c59_served",
    "c59_cache_fine",
    "c59_limits",
    "c59_alone",
    "c59_keyerror_refuted",
    "c59_bound_refuted"
   ],
   "note": "Proved for every interleaving: what is served (c59_served), no failure of cache and uncache with up to 64 threads (c59_cache_fine), the bound on the heap (c59_limits), and that an uninterrupted call is the sequential function (c59_alone). That request raises only what asking the responder raises, and the bound on the dictionary, are refuted (c59_keyerror_refuted, c59_bound_refuted)."
  },
  {
   "property": "C60",
   "status": "partial",
   "theorems": [
    "c60_sequential",
    "c60_threads_partial",
    "c60_settled",
    "c60_bounded",
    "c60_race_refuted"
   ],
   "note": "Proved in full for one thread (c60_sequential) and the bound for any threads (c60_bounded). With threads the statement is refuted (c60_race_refuted); proved instead: the only other outcome is AttributeError for a type without a class (c60_threads_partial), and never once a call for the same type has ended (c60_settled)."
  },
  {
   "property": "C61",
   "status": "partial",
   "theorems": [
    "c61_kept_partial",
    "c61_app",
    "c61_unbounded_refuted"
   ],
   "note": "Proved: the reassembly buffer is shorter than a handshake message, what waits for the caller is not longer than what was received (c61_app), and the unread input is shorter than a record unless fewer than four bytes are being reassembled (c61_kept_partial). In that case it is refuted: empty handshake records make it grow without bound (c61_unbounded_refuted)."
  },
  {
   "property": "C62",
   "status": "proved",
   "theorems": [
    "c62_sealed",
    "c62_in_use",
    "c62_client",
    "c62_server",
    "c62_honest",
    "c62_off"
   ],
   "note": "Every sealed record and the keys in use are opened by the filed lines; a connected client and server filed exactly the five secrets; two honest endpoints file the same lines, for the random on the wire; nothing without log_keys."
  },
  {
   "property": "C63",
   "status": "partial",
   "theorems": [
    "c63_split_partial",
    "c63_together",
    "c63_together_refuted",
    "c63_between",
    "c63_boundary"
   ],
   "note": "A message cut over records is put together again when its first piece has at least 4 bytes (a shorter first piece stops the reading: c02_split_refuted); a foreign record in between is refused; no message spans a key change. Messages that share a record: false of the code, c63_together proves that they always fail the connection and c63_together_refuted gives a witness."
  },
  {
   "property": "C64",
   "status": "partial",
   "theorems": [
    "c64_fails",
    "c64_ticket",
    "c64_key_update",
    "c64_ticket_refuted",
    "c64_sends"
   ],
   "note": "No handshake message is sent after the handshake (c64_sends). Processing the peer's: false of the code, every complete handshake message fails a connected endpoint (c64_fails), NewSessionTicket and KeyUpdate with decode_error."
  },
  {
   "property": "C65",
   "status": "partial",
   "theorems": [
    "c65_server_partial",
    "c65_retry_refuted",
    "c65_client_unread",
    "c65_hello_unread",
    "c65_client_refuted"
   ],
   "note": "proved for a server, but for the key_share of a HelloRetryRequest (refuted with a witness); the client's half is refuted: it accepts unasked answers"
  },
  {
   "property": "C66",
   "status": "partial",
   "theorems": [
    "c66_accepted_partial",
    "c66_session_refuted",
    "c66_same_group_refuted",
    "c66_version_refuted"
   ],
   "note": "suite, version and group are proved; session id, unchanged group and version of a retry are refuted with witnesses"
  },
  {
   "property": "C67",
   "status": "partial",
   "theorems": [
    "c67_wellformed_partial",
    "c67_second_refuted"
   ],
   "note": "well-formedness is proved for all histories; that the second ClientHello equals the first is refuted: cipher_suites and supported_groups change"
  },
  {
   "property": "C68",
   "status": "partial",
   "theorems": [
    "c68_offer_partial",
    "c68_unknown_read",
    "c68_authorities_refuted",
    "c68_status_refuted"
   ],
   "note": "The offer as read: full. Reading: unknown extension types and suites. Refuted for certificate_authorities and unknown status types."
  },
  {
   "property": "C69",
   "status": "partial",
   "theorems": [
    "c69_enter_partial",
    "c69_eof_refuted",
    "c69_stranger_refuted",
    "c69_exit",
    "c69_exit_quiet"
   ],
   "note": "Entering: full but for a received close_notify and the end of the stream, both refuted; leaving: full, for every body."
  },
  {
   "property": "C70",
   "status": "partial",
   "theorems": [
    "c70_utf8",
    "c70_encode",
    "c70_code",
    "c70_response_partial",
    "c70_request_partial",
    "c70_length_refuted",
    "c70_answer_partial",
    "c70_garbage_refuted"
   ],
   "note": "Decoding, status and shape of the messages proved for all inputs. Refuted: the announced length for bodies that are not ASCII, the end without exception for a request that is no UTF-8."
  },
  {
   "property": "C71",
   "status": "partial",
   "theorems": [
    "c71_dropped",
    "c71_alone",
    "c71_other",
    "c71_protected",
    "c71_late_refuted",
    "c71_early_refuted"
   ],
   "note": "Dropping, refusing other values and refusing protected ones are proved for all states; refuted: records are dropped also after the peer's Finished and before the first ClientHello."
  },
  {
   "property": "C72",
   "status": "partial",
   "theorems": [
    "c72_long_partial",
    "c72_overflow_refuted",
    "c72_version",
    "c72_inner",
    "c72_inner_refuted",
    "c72_outer_refuted",
    "c72_empty_refuted"
   ],
   "note": "Refused at once is proved, but with internal_error instead of record_overflow; contents longer than the limit inside protected records, wrong outer types and empty protected handshake records are accepted (refuted)."
  },
  {
   "property": "C73",
   "status": "partial",
   "theorems": [
    "c73_talk",
    "c73_verified_partial",
    "c73_verified_refuted",
    "c73_store",
    "c73_platform",
    "c73_served",
    "c73_ends",
    "c73_exit",
    "c73_keylog",
    "c73_keylog_refuted",
    "c73_client_cert",
    "c73_same_path"
   ],
   "note": "c73_talk covers both programs end to end, whatever the pieces in which the bytes come. Verification holds unless the connection is closed before the end of the handshake (c73_verified_partial), and is refuted for that case (c73_verified_refuted). --keylogfile writes nothing (c73_keylog, c73_keylog_refuted)."
  },
  {
   "property": "C74",
   "status": "proved",
   "theorems": [
    "c74_prefix",
    "c74_arrived",
    "c74_told",
    "c74_writes",
    "c74_closes"
   ],
   "note": "Between two connected endpoints, with AEAD correctness as hypothesis and payloads that fit one record (as C01). An endpoint that closed writes nothing more: the library does not enforce it once a close_notify was received (c12_silent_refuted, c57_after_refuted)."
  },
  {
   "property": "C75",
   "status": "partial",
   "theorems": [
    "c75_agree_partial",
    "c75_fixed",
    "c75_client_knows",
    "c75_server_knows",
    "c75_client_silent",
    "c75_server_silent",
    "c75_silence_refuted"
   ],
   "note": "Agreement between honest ends, completeness and immutability are proved for all states and later inputs. The client never reports the group (it assigns the misspelt key_exchanges) and the server never reports its signature algorithm: c75_silence_refuted."
  },
  {
   "property": "C76",
   "status": "proved",
   "theorems": [
    "c76_same_messages",
    "c76_no_downgrade",
    "c76_right_peer"
   ],
   "note": "for all histories of both endpoints; the alternative is a collision of the Finished (C51); the suite hash mix-up after a retry is the digest_mixup case"
  },
  {
   "property": "C77",
   "status": "partial",
   "theorems": [
    "c77_lasts_partial",
    "c77_tired",
    "c77_worn",
    "c77_mute",
    "c77_wears",
    "c77_honest",
    "c77_rekey_refuted",
    "c77_close_refuted"
   ],
   "note": "Proved while the receiver has written 1024 records less than the limit of its key (c77_lasts_partial). False afterwards: every receive_data raises (c77_tired, c77_worn), nothing can be sent or closed at the limit (c77_mute), every linked pair can get there (c77_wears), also those of an honest handshake (c77_honest); witnesses c77_rekey_refuted and c77_close_refuted."
  },
  {
   "property": "C78",
   "status": "proved",
   "theorems": [
    "c78_alone",
    "c78_model",
    "c78_kept",
    "c78_small"
   ],
   "note": "All interleavings; creating a class and storing it is taken as one step."
  },
  {
   "property": "C79",
   "status": "proved",
   "theorems": [
    "c79_hidden",
    "c79_real",
    "c79_fresh"
   ],
   "note": "c79_hidden: two executions whose private keys agree on public values, shared secrets and CertificateVerify signatures have the same outcomes, bytes, reports and key log. c79_real: the other connection is one the library makes. c79_fresh: the key shares of the ClientHellos of a connection come from different draws. Private keys are opaque bytes given to the primitives."
  },
  {
   "property": "C80",
   "status": "partial",
   "theorems": [
    "c80_early",
    "c80_history",
    "c80_nonces_partial",
    "c80_keys",
    "c80_flow",
    "c80_ccm",
    "c80_nonces_refuted"
   ],
   "note": "The key schedule with pre-shared keys is proved for every history of calls. That no key meets a nonce twice needs the derived keys to differ and is refuted when derive_master_secrets is called twice (c80_nonces_refuted)."
  },
  {
   "property": "C81",
   "status": "proved",
   "theorems": [
    "c81_one_store",
    "c81_same_view",
    "c81_no_leak"
   ],
   "note": "Simulation of a single store by the delegation of State. The tables of assigned names and the two nested calls are read off the code."
  },
  {
   "property": "C82",
   "status": "partial",
   "theorems": [
    "c82_reads",
    "c82_limit_block",
    "c82_writes",
    "c82_written_read",
    "c82_read_only",
    "c82_lookahead",
    "c82_limit_end",
    "c82_limits_partial",
    "c82_limits_grow_partial",
    "c82_limits_refuted"
   ],
   "note": "The object refines the pure codec functions, for reads, limits and writes; data, positions and look-aheads as stated for all programs. Only the last sentence is partial: limits are restored when no exception is caught inside (c82_limits_partial), otherwise limits are left on top (c82_limits_grow_partial, c82_limits_refuted)."
  },
  {
   "property": "C83",
   "status": "proved",
   "theorems": [
    "c83_frozen",
    "c83_record",
    "c83_flag_refuted"
   ],
   "note": "c83_frozen: after freeze, for all sequences of operations. c83_record: before, simulation by a record with a seal. c83_flag_refuted shows that the restriction on the flag is needed."
  },
  {
   "property": "C84",
   "status": "partial",
   "theorems": [
    "c84_by_id",
    "c84_by_sign",
    "c84_by_pubkey",
    "c84_tables",
    "c84_more",
    "c84_reached_partial",
    "c84_reached_refuted",
    "c84_failed_refuted",
    "c84_ocsp_refuted"
   ],
   "note": "All but the last sentence proved for every list of class statements. The last sentence holds exactly when no later class declares the same OID (c84_reached_partial); it fails for the RSASSA-PSS suites (c84_reached_refuted, c84_ocsp_refuted)."
  },
  {
   "property": "C85",
   "status": "proved",
   "theorems": [
    "c85_process",
    "c85_block",
    "c85_read",
    "c85_refused",
    "c85_same",
    "c85_twice_refuted"
   ],
   "note": "for messages where no extension type comes twice, as the statement says; with a type twice the order matters (c85_twice_refuted). Reading of a Certificate in another order is covered block by block (c85_block)"
  },
  {
   "property": "C86",
   "status": "partial",
   "theorems": [
    "c86_order_partial",
    "c86_digest",
    "c86_end",
    "c86_retry",
    "c86_total",
    "c86_refused_partial",
    "c86_loose_refuted",
    "c86_moved_refuted",
    "c86_early_refuted"
   ],
   "note": "the order of the optional messages of a client, the place after a refused message, digest() before post_init() and clone() are not as stated (c86_loose_refuted, c86_moved_refuted, c86_early_refuted, c86_total); the rest is proved"
  },
  {
   "property": "C87",
   "status": "partial",
   "theorems": [
    "c87_url",
    "c87_client_partial",
    "c87_server_partial",
    "c87_server_stops",
    "c87_client_refuted",
    "c87_server_refuted"
   ],
   "note": "Which responder is asked, when a client accepts and what a server sends are proved for all descriptions and answers. Missing: a certificate without authorityInfoAccess stops both endpoints (c87_client_refuted, c87_server_refuted) and a responder that does not answer stops the server (c87_server_stops)."
  },
  {
   "property": "C88",
   "status": "partial",
   "theorems": [
    "c88_list_partial",
    "c88_exact",
    "c88_same",
    "c88_never",
    "c88_refuted"
   ],
   "note": "No chain with a revoked certificate is accepted, for all lists, chains and histories. Missing: chains without one are refused as well and the alert is internal_error, because the certificate is passed instead of its serial number (c88_refuted, c88_never)."
  },
  {
   "property": "C89",
   "status": "partial",
   "theorems": [
    "c89_exact",
    "c89_one",
    "c89_named_partial",
    "c89_store",
    "c89_ascii",
    "c89_international",
    "c89_unnamed_refuted",
    "c89_international_refuted"
   ],
   "note": "Connected clients have verified the leaf for the name given, for all histories. Missing: without a name no name is verified (c89_unnamed_refuted); a name outside of ASCII never connects (c89_international_refuted, c89_ascii)."
  },
  {
   "property": "C90",
   "status": "partial",
   "theorems": [
    "c90_silent_partial",
    "c90_enters",
    "c90_never",
    "c90_unasked",
    "c90_refuted"
   ],
   "note": "It never becomes connected leaving the request unanswered, for all histories, and sends nothing instead. Missing: it never becomes connected at all (c90_never, c90_refuted)."
  },
  {
   "property": "C91",
   "status": "partial",
   "theorems": [
    "c91_exact",
    "c91_accepts_partial",
    "c91_raises_partial",
    "c91_stapled_partial",
    "c91_undated_refuted",
    "c91_algorithm_refuted",
    "c91_signature_refuted",
    "c91_client_refuted"
   ],
   "note": "c91_exact gives the exact condition of acceptance. Partial: good answers need a next_update and the algorithm of the issuer's certificate, errors are ValueErrors only for dated answers and an InvalidSignature with a text; the other cases are refuted."
  },
  {
   "property": "C92",
   "status": "partial",
   "theorems": [
    "c92_authorities",
    "c92_authorities_back",
    "c92_srtp_partial",
    "c92_srtp_back_partial",
    "c92_srtp_long_partial",
    "c92_srtp_read",
    "c92_unbuilt",
    "c92_srtp_refuted",
    "c92_unbuilt_refuted",
    "c92_srtp_long_refuted"
   ],
   "note": "certificate_authorities is proved in full. use_srtp is written rightly exactly when there are as many profiles as bytes in the mki (c92_srtp_refuted otherwise), and too many profiles raise nothing (c92_srtp_long_refuted); objects of both classes cannot be built, so that messages with them are refused (c92_unbuilt_refuted)."
  },
  {
   "property": "C93",
   "status": "partial",
   "theorems": [
    "c93_taken_partial",
    "c93_quiet",
    "c93_cached",
    "c93_others",
    "c93_type_refuted"
   ],
   "note": "The condition under which an answer is taken is exact. Missing: an answer whose media type is written in other letters is refused (c93_type_refuted)."
  }
 ]
}