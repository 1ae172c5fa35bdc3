{"id": "C01", "title": "Application data is delivered exactly, in order, whatever the network segmentation", "statement": "If one endpoint's sending keys are the other endpoint's receiving keys, then after any sequence of send_data calls (whose records are not of the over-long kind described in C04), feeding the bytes of data_to_send to the peer's receive_data in arbitrary non-empty pieces makes the peer's data_to_read return exactly the concatenation of the data sent, in order, with no byte lost, duplicated or altered, and both endpoints stay connected.", "quantifier": "every sequence of payloads, every cipher suite with an AEAD that decrypts what it encrypted, every key/iv/sequence state, every split of the byte stream into pieces", "why_tests_cant": "The payloads, key states and splits of the byte stream are unbounded; a test exercises a handful of splits of a handful of payloads.", "anchors": ["src/siotls/connection.py:TLSConnection.send_data", "src/siotls/connection.py:TLSConnection.receive_data", "src/siotls/connection.py:TLSConnection._encrypt", "src/siotls/connection.py:TLSConnection._read_next_record"]}
{"id": "C02", "title": "receive_data does not depend on how the input is split", "statement": "Feeding a byte string to receive_data in one call or in any number of consecutive non-empty pieces leaves the connection in the same state with the same output, readable data and error.", "quantifier": "every connection state reachable or not, every byte string, every split", "why_tests_cant": "There are exponentially many splits of every input; a test can only try some. (It is false in one situation: a first handshake fragment of fewer than 4 bytes stalls the loop even though more records are already buffered.)", "anchors": ["src/siotls/connection.py:TLSConnection.receive_data", "src/siotls/connection.py:TLSConnection._read_next_content"]}
{"id": "C03", "title": "Fragmentation of outgoing messages loses nothing", "statement": "Whenever a message is sent, the payloads of the records appended to the output concatenate to exactly the serialized message, every record is non-empty unless the message itself is empty, and no plaintext payload exceeds the fragment limit in force.", "quantifier": "every content, every connection state that may send, every fragment limit", "why_tests_cant": "Message length and fragment limit range over all naturals; boundary cases interact with the cipher overhead.", "anchors": ["src/siotls/connection.py:TLSConnection._send_content"]}
{"id": "C04", "title": "Every record sent respects the negotiated maximum record size", "statement": "No record that send_data (or any other call) emits has a length field greater than what a conforming peer accepts: the negotiated maximum fragment length for plaintext records, that plus 256 for encrypted ones; encrypted record lengths are always a multiple of the padding chunk.", "quantifier": "every payload length, every negotiated maximum fragment length, every tag length", "why_tests_cant": "It fails exactly when payload + 1 + tag is a multiple of the padding chunk that reaches the limit, which no random test of a few lengths hits; all lengths have to be considered.", "anchors": ["src/siotls/connection.py:TLSConnection._encrypt", "src/siotls/connection.py:TLSConnection._send_content"]}
{"id": "C05", "title": "Padding and inner content type are recovered exactly", "statement": "Stripping the padding of a decrypted record returns exactly the inner content and content type that were wrapped, for any amount of zero padding and any content, including content that itself ends with zero bytes; a record whose plaintext is all zeros is rejected.", "quantifier": "every content, every non-zero content type, every padding length", "why_tests_cant": "Contents and padding lengths are unbounded and the interesting case is contents that end in zero bytes.", "anchors": ["src/siotls/connection.py:TLSConnection._decrypt", "src/siotls/connection.py:TLSConnection._encrypt"]}
{"id": "C06", "title": "An AEAD nonce is never used twice with the same key", "statement": "Over the whole life of a connection, the successive records protected under one traffic key use pairwise distinct nonces, and the number of records protected under one key never exceeds the cipher's usage limit.", "quantifier": "every API call history, every cipher suite, every iv", "why_tests_cant": "Nonce reuse is a global property of unbounded histories (up to 2^64 records); tests see a few records.", "anchors": ["src/siotls/crypto/ciphers.py:TLSCipherSuite._next_write_nonce", "src/siotls/crypto/ciphers.py:TLSCipherSuite._next_read_nonce", "src/siotls/utils.py:peekable"]}
{"id": "C07", "title": "Reading and writing buffers are drained exactly once", "statement": "Along any history of API calls, the concatenation of everything returned by data_to_send is a prefix of everything the connection ever emitted and the remainder is what the next data_to_send returns; the same for data_to_read; no other call shrinks either buffer.", "quantifier": "every history of API calls", "why_tests_cant": "Histories are unbounded.", "anchors": ["src/siotls/connection.py:TLSConnection.data_to_read", "src/siotls/connection.py:TLSConnection.data_to_send"]}
{"id": "C08", "title": "Application data is only handed to the user from an established connection", "statement": "The readable data buffer grows only while processing an application data record in the connected or half-closed state, by exactly the content of that record; during the handshake and after a failure it never grows.", "quantifier": "every connection state, every input byte string", "why_tests_cant": "Must hold for adversarial inputs of any length and shape.", "anchors": ["src/siotls/states/connected.py:Connected.process", "src/siotls/connection.py:TLSConnection.receive_data"]}
{"id": "C09", "title": "Application data never leaves the machine unencrypted", "statement": "Whenever send_data succeeds, the bytes it appends to the output are records produced by the AEAD under the current write key; it never emits application data as plaintext records.", "quantifier": "every history of API calls and every peer input", "why_tests_cant": "Depends on every possible peer behaviour before send_data is called. (It is false: a plaintext close_notify during the handshake makes send_data emit plaintext.)", "anchors": ["src/siotls/connection.py:TLSConnection.send_data", "src/siotls/states/__init__.py:State.process", "src/siotls/states/closed.py:Closed"]}
{"id": "C10", "title": "Any processing error fails the connection with one fatal alert", "statement": "When processing received bytes raises an error while the connection may still send, the connection ends in the failed state and the last record emitted by that call is a single fatal alert describing the error (internal_error for anything that is not a TLS alert).", "quantifier": "every connection state that may send, every input byte string", "why_tests_cant": "All malformed inputs of any length must be considered.", "anchors": ["src/siotls/connection.py:TLSConnection.receive_data", "src/siotls/connection.py:TLSConnection._fail"]}
{"id": "C11", "title": "A failed connection stays failed and silent", "statement": "After a connection failed, no API call produces output bytes or readable data and the connection stays failed.", "quantifier": "every history of API calls following a failure", "why_tests_cant": "Unbounded histories of calls and inputs. (It is false: close_receiving_end moves a failed connection to closed, after which data can be sent again.)", "anchors": ["src/siotls/connection.py:TLSConnection.close_receiving_end", "src/siotls/states/failed.py:Failed"]}
{"id": "C12", "title": "Nothing is sent after close_sending_end", "statement": "Once close_sending_end returned, no later API call emits another record.", "quantifier": "every history of API calls and peer inputs after close_sending_end", "why_tests_cant": "Depends on what the peer sends afterwards. (It is false: the peer's close_notify re-creates the closed state with sending enabled.)", "anchors": ["src/siotls/connection.py:TLSConnection.close_sending_end", "src/siotls/states/__init__.py:State.process"]}
{"id": "C13", "title": "Nothing is accepted after close_receiving_end", "statement": "Once close_receiving_end was called on an established connection, every receive_data call raises and changes nothing: no bytes buffered, no output, no readable data.", "quantifier": "every history of API calls after close_receiving_end", "why_tests_cant": "Unbounded histories and inputs.", "anchors": ["src/siotls/connection.py:TLSConnection.close_receiving_end", "src/siotls/connection.py:TLSConnection.receive_data"]}
{"id": "C14", "title": "Truncation by the peer is not mistaken for a completed handshake", "statement": "close_receiving_end before the handshake completed fails the connection; is_connected is false afterwards and no application data can be sent.", "quantifier": "every connection reachable before the handshake completed", "why_tests_cant": "Every partial handshake prefix is a distinct case.", "anchors": ["src/siotls/connection.py:TLSConnection.close_receiving_end", "src/siotls/connection.py:TLSConnection.is_connected"]}
{"id": "C15", "title": "receive_data always terminates and consumes every complete record", "statement": "For every input the receive loop terminates, each iteration consuming at least one record; when it returns without error outside a handshake reassembly, fewer bytes than one complete record remain buffered.", "quantifier": "every connection state, every input byte string", "why_tests_cant": "Termination for all inputs cannot be tested.", "anchors": ["src/siotls/connection.py:TLSConnection.receive_data", "src/siotls/connection.py:TLSConnection._read_next_record"]}
{"id": "C16", "title": "A connected client has authenticated its server", "statement": "If a client configured to authenticate its peer becomes connected (without having received a close_notify), then along its history a non-empty certificate chain passed the verifier for the requested host name, the CertificateVerify signature verified under the leaf's public key with an offered algorithm over the transcript, and the server's Finished MAC verified.", "quantifier": "every client configuration, every history of API calls, every byte string received", "why_tests_cant": "An adversary chooses all bytes; only a proof covers all of them.", "anchors": ["src/siotls/states/client/wait_certificate.py:ClientWaitCertificate.process", "src/siotls/states/client/wait_certificate_verify.py:ClientWaitCertificateVerify.process", "src/siotls/states/client/wait_finished.py:ClientWaitFinished.process"]}
{"id": "C17", "title": "A connected server has verified its client's Finished", "statement": "If a server becomes connected, then the client's Finished matched the HMAC over the transcript up to the server's Finished, under a key derived from the negotiated shared secret.", "quantifier": "every server configuration, every history of API calls, every byte string received", "why_tests_cant": "An adversary chooses all bytes.", "anchors": ["src/siotls/states/server/wait_finished.py:ServerWaitFinished.process"]}
{"id": "C18", "title": "A server asked to authenticate clients never connects to an unauthenticated one", "statement": "A server whose configuration has a trust store or trusted public keys never becomes connected to a client whose certificate was not verified.", "quantifier": "every server configuration requiring peer authentication, every history", "why_tests_cant": "Adversarial inputs of any shape. (As implemented such a server never connects at all.)", "anchors": ["src/siotls/states/server/wait_client_hello.py:ServerWaitClientHello.process", "src/siotls/states/server/wait_flight2.py:ServerWaitFlight2"]}
{"id": "C19", "title": "The client only settles on parameters it offered", "statement": "When a client completes negotiation, the cipher suite, key exchange group, protocol version, application protocol, fragment length, certificate type and signature algorithm in force were all offered by its own configuration; any other choice by the server ends in a fatal alert.", "quantifier": "every client configuration, every server message", "why_tests_cant": "All server messages must be considered, including contradictory ones.", "anchors": ["src/siotls/states/client/wait_server_hello.py:ClientWaitServerHello", "src/siotls/states/client/wait_encrypted_extensions.py:ClientWaitEncryptedExtensions"]}
{"id": "C20", "title": "The server picks its most preferred parameter among those the client offered", "statement": "The cipher suite, key exchange group, signature algorithm, application protocol and certificate type a server selects are each the first in its own preference order that the client offered (and, for signatures, that fits its certificate's key); when there is no common one, the handshake fails with the documented alert.", "quantifier": "every server configuration and every ClientHello", "why_tests_cant": "All pairs of preference lists.", "anchors": ["src/siotls/states/server/wait_client_hello.py:ServerWaitClientHello._find_common_cipher_suite", "src/siotls/states/server/wait_client_hello.py:ServerWaitClientHello._negociate"]}
{"id": "C21", "title": "A server sends at most one HelloRetryRequest", "statement": "Along any history a server emits at most one HelloRetryRequest; a second ClientHello without a usable key share, with another random or without the selected cipher suite is refused with a fatal alert.", "quantifier": "every server configuration and history", "why_tests_cant": "Unbounded histories.", "anchors": ["src/siotls/states/server/wait_client_hello.py:ServerWaitClientHello._send_hello_retry_request"]}
{"id": "C22", "title": "A client accepts at most one HelloRetryRequest", "statement": "After answering one HelloRetryRequest a client refuses another one with unexpected_message (RFC 8446 4.1.4).", "quantifier": "every client configuration and every sequence of server messages", "why_tests_cant": "Needs all sequences. (It is false: the client answers any number of them.)", "anchors": ["src/siotls/states/client/wait_server_hello.py:ClientWaitServerHello.process"]}
{"id": "C23", "title": "Handshake messages are only accepted in the order of the protocol", "statement": "The sequence of handshake message types sent and received by a connection that did not fail is always a prefix of a word of the TLS 1.3 handshake grammar (ClientHello [HelloRetryRequest ClientHello] ServerHello EncryptedExtensions [CertificateRequest] Certificate CertificateVerify Finished [client auth] Finished).", "quantifier": "every history of API calls and inputs", "why_tests_cant": "All interleavings of message types.", "anchors": ["src/siotls/transcript.py:Transcript.update", "src/siotls/transcript.py:ORDER"]}
{"id": "C24", "title": "Both sides hash the same transcript", "statement": "Client and server that exchange the same handshake messages compute the same transcript hash, equal to the hash of the concatenated messages, with the RFC 8446 4.4.1 synthetic message replacing the first ClientHello after a HelloRetryRequest.", "quantifier": "every sequence of handshake messages, both sides, every negotiated hash", "why_tests_cant": "All sequences and message contents. (It is false for the client after a HelloRetryRequest.)", "anchors": ["src/siotls/transcript.py:Transcript.do_hrr_dance", "src/siotls/transcript.py:Transcript.update"]}
{"id": "C25", "title": "Both sides derive the same traffic keys, equal to the RFC 8446 key schedule", "statement": "With the same shared secret and transcript hashes, the client's write keys are the server's read keys and vice versa, for handshake and application traffic, and they equal the key schedule of RFC 8446 7.1.", "quantifier": "every shared secret, transcript hash, and cipher suite", "why_tests_cant": "All secrets; a test checks one vector.", "anchors": ["src/siotls/crypto/ciphers.py:TLSCipherSuite.derive_handshake_secrets", "src/siotls/crypto/ciphers.py:TLSCipherSuite.derive_master_secrets"]}
{"id": "C26", "title": "The key schedule is only ever used in order", "statement": "Along any history the key schedule goes early, handshake, application, never backwards, and a traffic key is installed at most once per stage, so no assertion of the key schedule can fail.", "quantifier": "every history of API calls and inputs", "why_tests_cant": "Unbounded histories.", "anchors": ["src/siotls/crypto/ciphers.py:_TLSSecrets"]}
{"id": "C27", "title": "An honest handshake succeeds", "statement": "For every compatible pair of configurations, running the two endpoints against each other over a faithful network ends with both connected and holding matching traffic keys.", "quantifier": "every pair of compatible client and server configurations, every randomness", "why_tests_cant": "The configuration space is infinite.", "anchors": ["src/siotls/states/client/", "src/siotls/states/server/", "src/siotls/connection.py:TLSConnection"]}
{"id": "C28", "title": "Integers and vectors survive serialization", "statement": "Writing an integer, a byte vector, a list of integers or a list of vectors and reading it back yields the original value and leaves the stream just after it; a value too large for its field raises instead of being truncated.", "quantifier": "every value, every field width, every surrounding bytes", "why_tests_cant": "All values and widths.", "anchors": ["src/siotls/serial.py:SerialIO"]}
{"id": "C29", "title": "A parser never reads outside the element it is parsing", "statement": "Inside a length-limited element no read returns bytes beyond the limit: the stream position never exceeds the innermost limit and what is returned is exactly the bytes between the old and the new position.", "quantifier": "every stream, every nesting of limits, every sequence of reads", "why_tests_cant": "All streams and nestings.", "anchors": ["src/siotls/serial.py:SerialIO.limit", "src/siotls/serial.py:SerialIO.read"]}
{"id": "C30", "title": "Handshake messages survive serialization", "statement": "Parsing the serialization of any message this library builds (ClientHello, ServerHello, HelloRetryRequest, EncryptedExtensions, CertificateRequest, Certificate, CertificateVerify, Finished, alerts) returns an equal message and consumes all bytes.", "quantifier": "every well-formed message of each kind with every combination of extensions", "why_tests_cant": "Infinite set of messages and extension combinations.", "anchors": ["src/siotls/contents/handshakes/", "src/siotls/contents/handshakes/extensions/", "src/siotls/contents/alerts.py"]}
{"id": "C31", "title": "Malformed input is answered with a protocol alert, not an internal error", "statement": "Whatever bytes a peer sends, parsing either succeeds or raises an error that the connection reports as a TLS alert other than internal_error.", "quantifier": "every byte string in every state", "why_tests_cant": "All byte strings. (It is false in several places, each shown by a concrete witness.)", "anchors": ["src/siotls/contents/handshakes/__init__.py:Handshake.parse", "src/siotls/contents/handshakes/extensions/__init__.py:Extension.parse", "src/siotls/connection.py:TLSConnection.receive_data"]}
{"id": "C32", "title": "Every extension found in a message is one allowed there", "statement": "A parsed handshake message only contains extensions of types allowed in that message (or unknown to the library), at most one per type, each parsed from exactly its declared bytes.", "quantifier": "every byte string", "why_tests_cant": "All byte strings.", "anchors": ["src/siotls/contents/handshakes/extensions/__init__.py:Extension.parse", "src/siotls/contents/handshakes/client_hello.py:ClientHello.parse_body"]}
{"id": "C33", "title": "HKDF matches RFC 5869", "statement": "hkdf_expand returns, for every requested length up to 255 blocks, exactly the prefix of that length of T(1)|T(2)|...; longer requests raise; extract with an empty salt uses a block of zeros.", "quantifier": "every key, info, length and hash", "why_tests_cant": "All lengths; the implementation has a shortcut when the length equals the digest size.", "anchors": ["src/siotls/crypto/hkdf.py:hkdf_expand", "src/siotls/crypto/hkdf.py:hkdf_extract"]}
{"id": "C34", "title": "Distinct key derivations use distinct inputs", "statement": "hkdf_expand_label encodes (length, label, context) injectively: two derivations that differ in length, label or context never feed the same info to HKDF; over-long labels, contexts and lengths raise.", "quantifier": "every pair of (length, label, context)", "why_tests_cant": "All pairs.", "anchors": ["src/siotls/crypto/hkdf.py:hkdf_expand_label"]}
{"id": "C35", "title": "Finite-field Diffie-Hellman is sound", "statement": "Both sides of an FFDHE exchange compute the same shared secret of exactly the group's byte length; public values outside 2..p-2 are refused.", "quantifier": "every private exponent, every peer value, each of the five groups", "why_tests_cant": "Numbers of up to 8192 bits.", "anchors": ["src/siotls/crypto/key_exchanges.py", "src/siotls/crypto/ffdhe.py"]}
{"id": "C36", "title": "An OCSP answer is only trusted if it answers the question, is fresh, good and signed", "statement": "validate_ocsp returns only if the response is successful, answers the request, reports the certificate as good, is valid at the current time, and its signature verifies under the issuer or a delegated responder issued by it.", "quantifier": "every request, response and clock", "why_tests_cant": "All combinations of response fields and times.", "anchors": ["src/siotls/crypto/ocsp.py:validate_ocsp"]}
{"id": "C37", "title": "The OCSP cache is bounded and never serves stale answers", "statement": "Along any history of request/cache/uncache the cache never holds more than 64 entries, request returns a cached answer only if it was cached for the same request and its validity has not passed, and uncache makes it forget.", "quantifier": "every history of cache operations and clock readings", "why_tests_cant": "Unbounded histories mixing a dictionary and a heap that can get out of sync.", "anchors": ["src/siotls/ocsp_over_http.py"]}
{"id": "C38", "title": "The state machine only moves forward", "statement": "Along any history a connection never returns from connected, closed or failed to a handshake state, and each handshake state is followed only by its successors in the RFC 8446 appendix A diagrams (or by failed/closed).", "quantifier": "every history", "why_tests_cant": "Unbounded histories.", "anchors": ["src/siotls/states/"]}
{"id": "C39", "title": "Peeking never changes what iteration yields", "statement": "A peekable iterator yields exactly the elements of the underlying iterable, in order, whatever peeks are interleaved; peek returns the element the next call to next will yield.", "quantifier": "every iterable and every interleaving of peek and next", "why_tests_cant": "All interleavings.", "anchors": ["src/siotls/utils.py:peekable"]}
{"id": "C40", "title": "Invalid configurations are refused", "statement": "A TLSConfiguration is constructed only if it has at least one cipher suite, key exchange and signature algorithm, and, on the server, a private key with a certificate or public key and the default fragment length; on the client no server_hostnames.", "quantifier": "every combination of settings", "why_tests_cant": "All combinations.", "anchors": ["src/siotls/configuration.py:TLSConfiguration.__post_init__"]}
{"id": "C41", "title": "hexdump shows every byte", "statement": "From the hexadecimal columns of hexdump(data) the data can be read back: the dump determines the data, each line covers 16 bytes and offsets are right. The text beside them shows one printable character per byte, the byte itself when it is printable. The offsets are all as wide, in the least multiple of four digits that the length fits in.", "quantifier": "every byte string", "why_tests_cant": "All byte strings.", "anchors": ["src/siotls/utils.py:hexdump"]}
{"id": "C42", "title": "A wrapped socket sends everything the connection emits", "statement": "WrappedSocket.write/do_handshake/close hand every byte emitted by the connection to the socket.", "quantifier": "every behaviour of the socket, including partial sends", "why_tests_cant": "The socket may accept any prefix. (It is false: sock.send's return value is ignored.)", "anchors": ["src/siotls/wrapper.py:WrappedSocket"]}
{"id": "C43", "title": "A record that does not authenticate is refused with bad_record_mac", "statement": "When a protected record fails the AEAD check, none of it is handed to the user and the connection ends with a fatal bad_record_mac alert (RFC 8446 5.2).", "quantifier": "for every reachable connection with a read key and every forged record", "why_tests_cant": "there are too many forged records and states; a test only shows a few of them are refused", "anchors": ["src/siotls/crypto/ciphers.py:TLSCipherSuite.decrypt", "src/siotls/connection.py:TLSConnection._read_next_record"]}
{"id": "C44", "title": "A fatal alert is not answered", "statement": "On receipt of a fatal alert the connection fails at once and emits nothing more (RFC 8446 6.2).", "quantifier": "for every reachable connection and every alert", "why_tests_cant": "the alert may arrive in any state", "anchors": ["src/siotls/states/__init__.py:State.process", "src/siotls/connection.py:TLSConnection.receive_data"]}
{"id": "C45", "title": "Downloading an OCSP answer reads a bounded amount", "statement": "A request that is not answered from the cache reads at most 20480 bytes of the HTTP response body.", "quantifier": "every request, cache state and HTTP response, with every Content-Type and Content-Length header", "why_tests_cant": "The header is chosen by the remote server; tests use a few sane values.", "anchors": ["src/siotls/ocsp_over_http.py:request"]}
{"id": "C46", "title": "A client never ignores a stapled OCSP answer", "statement": "A client that authenticates the server is only connected if every OCSP response the server stapled to a certificate of its chain says that the certificate is good.", "quantifier": "every history, every certificate list, every stapled response", "why_tests_cant": "Needs every chain shape, including chains that end with the stapled certificate.", "anchors": ["src/siotls/states/client/wait_certificate.py:ClientWaitCertificate._verify_statuses"]}
{"id": "C47", "title": "Two wrapped sockets finish their handshake under every schedule", "statement": "When a client and a server with configurations for which an exchange of whole flights succeeds (C27: compatible, default max_fragment_length, the preferred group guessed, no CCM) both run do_handshake over a network that loses nothing but cuts and delays the two byte streams as it likes, then no call of receive_data raises, at any time before both are done one of them can go on (no deadlock), both are done after at most as many turns of their loops as bytes were sent, and they end in the same state under every schedule: connected, with matching keys, nothing left under way.", "quantifier": "every such pair of configurations, every way to cut the streams, every interleaving of the two loops", "why_tests_cant": "The number of interleavings is exponential in the number of bytes; a test fixes one.", "anchors": ["src/siotls/wrapper.py:WrappedSocket.do_handhskake", "src/siotls/connection.py:TLSConnection.receive_data", "src/siotls/connection.py:TLSConnection.is_post_handshake"]}
{"id": "C48", "title": "An active attacker cannot forge, replay or reorder application data", "statement": "Once two endpoints are connected with matching keys, whatever bytes the network gives to one of them, in whatever pieces, and whatever calls both users make, what this endpoint delivers is the concatenation of the contents of some of the application data records that the other one sealed, each at most once and in the order in which they were written. The AEAD is assumed unforgeable: under the sender's key only what the sender sealed opens.", "quantifier": "every pair of histories of the two endpoints, every input chosen by the attacker, every unforgeable AEAD", "why_tests_cant": "An attacker may replace, drop, duplicate, split or reorder any bytes; a test tries a few of them.", "anchors": ["src/siotls/crypto/ciphers.py:TLSCipherSuite.decrypt", "src/siotls/crypto/ciphers.py:TLSCipherSuite.encrypt", "src/siotls/connection.py:TLSConnection._read_next_record", "src/siotls/connection.py:TLSConnection._send_content", "src/siotls/connection.py:TLSConnection.receive_data"]}
{"id": "C49", "title": "An active attacker cannot cut a record out of the middle", "statement": "In the situation of C48, what the endpoint obtains is a prefix of what the other one wrote: removing a record, or replacing it by a forged one, ends the delivery of data.", "quantifier": "every pair of histories of the two endpoints, every input chosen by the attacker, every unforgeable AEAD", "why_tests_cant": "The sequence number advances also when a record does not open; whether a later record can then be delivered depends on the state of the connection when the forged record arrives.", "anchors": ["src/siotls/crypto/ciphers.py:TLSCipherSuite.decrypt", "src/siotls/connection.py:TLSConnection.receive_data", "src/siotls/connection.py:TLSConnection._fail", "src/siotls/connection.py:TLSConnection.close_sending_end"]}
{"id": "C50", "title": "Matching conversations give matching keys", "statement": "When a client and a server are both connected and saw the same handshake messages up to the server's Finished, then the keys with which each of them encrypts and decrypts application data are those of RFC 8446 7.1 for one and the same shared secret and transcript, so that each reads what the other writes.", "quantifier": "every pair of histories that leads to two connected endpoints with the same messages, whatever the network did, every cipher suite and group", "why_tests_cant": "A test completes a handshake with fixed messages; the claim is about every way in which both may reach the connected state.", "anchors": ["src/siotls/crypto/ciphers.py:TLSCipherSuite.derive_master_secrets", "src/siotls/crypto/ciphers.py:TLSCipherSuite.derive_handshake_secrets", "src/siotls/states/client/wait_server_hello.py:ClientWaitServerHello.process", "src/siotls/states/server/wait_client_hello.py:ServerWaitClientHello.process"]}
{"id": "C51", "title": "The Finished binds the whole handshake: no downgrade, no tampering", "statement": "When a client has accepted the same Finished message that a server of the library has sent, and both are connected, then both saw exactly the same messages before it (the hellos with all offered suites, groups, versions and extensions, the EncryptedExtensions, Certificate and CertificateVerify) and they hold the same keys; otherwise the two have computed the same HMAC from different inputs, or the same hash from different messages, and these inputs are the ones they computed. A client that saw a HelloRetryRequest never gets there without such a collision (or, when its suites use two hash functions, a digest that happens to read as the beginning of the server's messages).", "quantifier": "every pair of histories of the two endpoints, every input an attacker gives them, every hash and HMAC", "why_tests_cant": "An attacker may alter any message in any way that still parses; a test alters a few bytes.", "anchors": ["src/siotls/crypto/ciphers.py:TLSCipherSuite.verify_finish", "src/siotls/crypto/ciphers.py:TLSCipherSuite.sign_finish", "src/siotls/transcript.py:Transcript.update", "src/siotls/transcript.py:Transcript.do_hrr_dance", "src/siotls/states/client/wait_finished.py:ClientWaitFinished.process"]}
{"id": "C52", "title": "What is written does not show on the network, except for its padded length", "statement": "Two histories of a connection that differ only in the bytes given to send_data once write keys are installed, of lengths that need the same number of records and the same number of padding blocks in the last one, put the same parts on the network: every byte in clear is the same, every sealed record differs only in the plaintext handed to the AEAD, under the same key, nonce and header and with the same length; and every call other than data_to_send returns or raises the same. With an AEAD whose output depends only on the length of the plaintext, the bytes on the network are identical.", "quantifier": "every configuration, every pair of such histories, every input from the network, every AEAD", "why_tests_cant": "It compares all pairs of executions; a test compares two.", "anchors": ["src/siotls/connection.py:TLSConnection._send_content", "src/siotls/connection.py:TLSConnection._encrypt", "src/siotls/crypto/ciphers.py:TLSCipherSuite.encrypt"]}
{"id": "C53", "title": "Integrity from the creation of the connections to any later point", "statement": "Take a client and a server from their creation, each driven by any calls and given any bytes by the network, that both reach the connected state having the same server Finished. Then all that one of them ever reads, including what arrives in the very call that ends its handshake, is the beginning of all that the other ever writes; nothing is altered, invented, repeated, reordered or left out.", "quantifier": "every pair of configurations and histories, every input from the network, before and after the handshake, every split of the input into calls", "why_tests_cant": "The attacker may inject at any point of the handshake and afterwards; a test tries a few orders.", "anchors": ["src/siotls/connection.py:TLSConnection.receive_data", "src/siotls/connection.py:TLSConnection.send_data", "src/siotls/connection.py:TLSConnection.data_to_read", "src/siotls/states/server/wait_finished.py:ServerWaitFinished.process", "src/siotls/states/client/wait_finished.py:ClientWaitFinished.process", "src/siotls/crypto/ciphers.py:TLSCipherSuite.derive_master_secrets"]}
{"id": "C54", "title": "Every error alert ends the connection", "statement": "An alert other than close_notify and user_canceled, received in the clear or encrypted in any state that can receive, ends the connection: receive_data raises and the state is Failed, whatever the level byte says (RFC 8446 section 6).", "quantifier": "every reachable connection that may receive and send, every level byte and description byte, every AEAD", "why_tests_cant": "Every combination of state, level and description has to be covered; a peer of the library itself never sends a level other than the usual one.", "anchors": ["src/siotls/states/__init__.py:State.process", "src/siotls/contents/alerts.py:Alert.parse", "src/siotls/connection.py:TLSConnection._fail"]}
{"id": "C55", "title": "Integrity through the wrapped socket", "statement": "Two sockets wrapped by the library finish their handshake with the same server Finished. After that, whatever the order of the calls of read, write and close on both sides and whatever the network delivers, what the calls of read return on one side is the beginning of what write was given on the other, up to the first read that raises.", "quantifier": "every pair of configurations, every sequence of calls on both wrapped sockets, every sequence of results of recv and send", "why_tests_cant": "The attacker chooses every chunk that recv returns, during the handshake and after it, and the calls on both sides interleave freely.", "anchors": ["src/siotls/wrapper.py:WrappedSocket.do_handhskake", "src/siotls/wrapper.py:WrappedSocket.read", "src/siotls/wrapper.py:WrappedSocket.write", "src/siotls/wrapper.py:WrappedSocket.close", "src/siotls/connection.py:TLSConnection.receive_data"]}
{"id": "C56", "title": "Two wrapped sockets deliver what is written to them", "statement": "After their handshake two wrapped sockets talk over a network that loses nothing and cuts the streams anywhere. Whatever the order of the calls of write and read on both sides, the data returned by the calls of read on one side is the beginning of the data given to write on the other; a call of read returns at least one byte, never the empty string that means the end of the stream; it waits only when the network still holds bytes back or everything written was read; and it raises only when the key it writes with is nearly used up.", "quantifier": "every sequence of calls of read and write on both sides, every segmentation of the bytes by recv, every payload that fits a record, every AEAD that opens what it seals", "why_tests_cant": "The calls interleave freely and recv may return any piece of the stream, also pieces that end inside a record header or hold many records.", "anchors": ["src/siotls/wrapper.py:WrappedSocket.read", "src/siotls/wrapper.py:WrappedSocket.write", "src/siotls/connection.py:TLSConnection.receive_data", "src/siotls/connection.py:TLSConnection.data_to_read"]}
{"id": "C57", "title": "The end of the stream is told by the peer", "statement": "A connected wrapped socket reports the end of the stream (read returns the empty string) when and only when the peer has sent a close_notify, so that an attacker who closes the TCP connection cannot pass a truncated stream off as a complete one, and data received after a close_notify is ignored (RFC 8446 section 6.1).", "quantifier": "every connected connection, every sequence of results of recv", "why_tests_cant": "That no record whatever ends the stream by itself is a statement about all records and all segmentations; that the end is authentic is a statement about an attacker.", "anchors": ["src/siotls/wrapper.py:WrappedSocket.read", "src/siotls/connection.py:TLSConnection.close_receiving_end", "src/siotls/states/__init__.py:State.process", "src/siotls/states/closed.py:Closed"]}
{"id": "C58", "title": "A close_notify vouches for all that came before it", "statement": "An attacker gives any bytes to an endpoint whose caller stops calling receive_data once it has raised and has not closed its own sending end. If the endpoint accepted a close_notify, then its peer called close_sending_end (or failed), and the endpoint has obtained at least everything the peer had written before that call; if the peer wrote nothing afterwards, exactly what the peer wrote.", "quantifier": "every pair of reachable endpoints sharing a traffic key, every history of calls on both sides, every byte given to the reader, every AEAD that cannot be forged under that key", "why_tests_cant": "It is a statement about all attackers: any dropping, replaying, reordering and cutting of the records must leave the reader without a close_notify or with all the data.", "anchors": ["src/siotls/states/__init__.py:State.process", "src/siotls/connection.py:TLSConnection.receive_data", "src/siotls/connection.py:TLSConnection.close_sending_end", "src/siotls/connection.py:TLSConnection._send_content", "src/siotls/crypto/ciphers.py:TLSCipherSuite.decrypt"]}
{"id": "C59", "title": "The OCSP cache shared by threads", "statement": "Any number of threads call request, cache and uncache of the module, interleaved between any two operations on the dictionary and the heap. An answer served by request is what the responder just gave or an answer cached for this very request whose limit has not passed; up to 64 threads never make cache or uncache raise, request raises only what asking the responder raises, and the cache stays bounded by 64 entries and one per thread.", "quantifier": "every number of threads, every calls, every interleaving, every network behaviour and clock", "why_tests_cant": "A race needs a thread switch between two given bytecodes; tests meet a handful of the interleavings.", "anchors": ["src/siotls/ocsp_over_http.py:request", "src/siotls/ocsp_over_http.py:cache", "src/siotls/ocsp_over_http.py:uncache"]}
{"id": "C60", "title": "The registry of extension classes is not observable", "statement": "Extension.parse adds a class to a process-wide registry for every extension type it does not know. Whatever was parsed before, by any connection and any thread, an extension is parsed as in a process that has just started, and the registry holds at most 65536 such classes.", "quantifier": "every number of threads, every sequence of parse calls on any bytes, every interleaving of the operations on the registry", "why_tests_cant": "The outcome depends on everything the process parsed before and on thread switches between two dictionary operations.", "anchors": ["src/siotls/contents/handshakes/extensions/__init__.py:Extension.parse", "src/siotls/contents/handshakes/extensions/__init__.py:Extension.__init_subclass__"]}
{"id": "C61", "title": "What a peer can make a connection keep is bounded", "statement": "When receive_data returns, the connection keeps less than one record of unread input and less than one handshake message being reassembled, and what waits for the caller is not longer than what the peer sent.", "quantifier": "every connection created from a valid configuration, every history of calls in which no receive_data raised, every input bytes, every AEAD whose plaintexts are not longer than their ciphertexts", "why_tests_cant": "It bounds a buffer over all sequences of calls; the input that grows it is legal record by record and no call raises.", "anchors": ["src/siotls/connection.py:TLSConnection.receive_data", "src/siotls/connection.py:TLSConnection._read_next_record", "src/siotls/connection.py:TLSConnection._read_next_content"]}
{"id": "C62", "title": "The key log opens the traffic", "statement": "With log_keys, what a connection passes to key_logger is a key log file in the NSS format from which every record it ever sealed, and every record it can read, is opened: the keys of each direction are those of a secret filed for the session under the right label. A connected endpoint has filed the five secrets of RFC 8446 under their labels, once each, and nothing else; the two ends of an honest handshake file the same lines, for the random found in the ClientHello on the wire. Without log_keys nothing is filed.", "quantifier": "every reachable connection, every history, every configuration and peer", "why_tests_cant": "A test compares one session with another implementation's log; a key used but not filed shows only in the sessions where it happens.", "anchors": ["src/siotls/crypto/ciphers.py:TLSCipherSuite.__init__", "src/siotls/crypto/ciphers.py:TLSCipherSuite.derive_handshake_secrets", "src/siotls/crypto/ciphers.py:TLSCipherSuite.derive_master_secrets"]}
{"id": "C63", "title": "Handshake messages may share a record or be cut over several", "statement": "As RFC 8446 5.1 allows, a peer may cut a handshake message over several consecutive records, put several messages in one record, and no other choice of records changes what is read; a record of another type in the middle of a message ends the connection with unexpected_message; no message spans a change of keys.", "quantifier": "every reachable connection, every message, every way to cut or join it over records, in clear or protected, every AEAD", "why_tests_cant": "The tests feed the records that siotls itself makes, one message each; the property is about every division another implementation may choose.", "anchors": ["src/siotls/connection.py:TLSConnection._read_next_content", "src/siotls/connection.py:TLSConnection._read_next_record", "src/siotls/connection.py:TLSConnection.receive_data"]}
{"id": "C64", "title": "Messages after the handshake", "statement": "Once connected, an endpoint processes the messages that the peer may send unprompted by RFC 8446 4.6 (NewSessionTicket, KeyUpdate) and stays connected; itself it sends no further handshake message.", "quantifier": "every reachable connected endpoint with nothing left to process, every handshake message, every way to cut it over records, every history for what is sent", "why_tests_cant": "It quantifies over every message and every state in which it can come.", "anchors": ["src/siotls/contents/handshakes/new_session_ticket.py:NewSessionTicket", "src/siotls/contents/handshakes/key_update.py:KeyUpdate", "src/siotls/states/connected.py:Connected.process", "src/siotls/connection.py:TLSConnection.receive_data", "src/siotls/contents/handshakes/__init__.py:Handshake.parse"]}
{"id": "C65", "title": "Extensions of the server answer those of the client", "statement": "As RFC 8446 4.2 demands, a server sends in ServerHello, EncryptedExtensions and Certificate only extensions of types that the last ClientHello offered (a cookie in a HelloRetryRequest excepted), and a client that receives an answer it did not ask for aborts with unsupported_extension.", "quantifier": "every reachable server and every ClientHello it was sent; every client and every list of extensions", "why_tests_cant": "The set of offered extensions, and of answers, is unbounded; a test fixes both.", "anchors": ["src/siotls/states/server/wait_client_hello.py:ServerWaitClientHello.process", "src/siotls/states/server/wait_client_hello.py:ServerWaitClientHello._negociate", "src/siotls/states/server/wait_client_hello.py:ServerWaitClientHello._negociate_key_share", "src/siotls/states/client/wait_encrypted_extensions.py:ClientWaitEncryptedExtensions.process", "src/siotls/states/client/wait_server_hello.py:ClientWaitServerHello.process"]}
{"id": "C66", "title": "A ServerHello that contradicts the ClientHello is refused", "statement": "A client goes on after a ServerHello or a HelloRetryRequest only when it echoes the session id of its last ClientHello, selects one of its suites, TLS 1.3, and the group of its key share or, for a retry, another group among those it supports.", "quantifier": "every reachable client that waits for a ServerHello, every ServerHello and HelloRetryRequest", "why_tests_cant": "Every state and every message of the server are concerned.", "anchors": ["src/siotls/states/client/wait_server_hello.py:ClientWaitServerHello.process", "src/siotls/states/client/wait_server_hello.py:ClientWaitServerHello._process_hello_retry_request", "src/siotls/states/client/wait_server_hello.py:ClientWaitServerHello._negociate_extensions"]}
{"id": "C67", "title": "Every ClientHello is well formed, the second one like the first", "statement": "Every ClientHello that a client sends carries its random, a non-empty part of its suites, extensions of distinct types among which supported_versions with TLS 1.3 alone, its signature_algorithms, a part of its supported_groups and a key_share for one of these; after a HelloRetryRequest it sends the same ClientHello but for key_share, cookie, early_data, pre_shared_key and padding.", "quantifier": "every client configuration, every history", "why_tests_cant": "It quantifies over all configurations and over what any server may answer.", "anchors": ["src/siotls/states/client/start.py:ClientStart.initiate_connection", "src/siotls/states/client/wait_server_hello.py:ClientWaitServerHello._process_hello_retry_request", "src/siotls/contents/handshakes/client_hello.py:ClientHello"]}
{"id": "C68", "title": "A server ignores what it does not know in a ClientHello", "statement": "Cipher suites, versions, groups, key shares, signature schemes, certificate types, protocols and extensions that a server does not support or does not read, and the order in which a client lists what it offers, do not change how the server goes on with a ClientHello; a ClientHello with an extension of an unknown type is read as it was written.", "quantifier": "every server connection waiting for a ClientHello, every pair of ClientHellos that offer the same to its configuration", "why_tests_cant": "It relates two arbitrary messages; tests try a few reserved values.", "anchors": ["src/siotls/states/server/wait_client_hello.py:ServerWaitClientHello.process", "src/siotls/states/server/wait_client_hello.py:ServerWaitClientHello._negociate", "src/siotls/contents/handshakes/extensions/__init__.py:Extension.parse"]}
{"id": "C69", "title": "The body of a with statement runs over a connected connection and is left closed", "statement": "When `with conn.wrap(sock)` enters its body the handshake is complete and the connection is connected; when it leaves, the result or the exception of the body is kept, the sending end is closed and everything was handed to the socket.", "quantifier": "every configuration, everything a socket may return, every body", "why_tests_cant": "It ranges over all inputs of the network and all programs that may stand in the body.", "anchors": ["src/siotls/wrapper.py:WrappedSocket.__enter__", "src/siotls/wrapper.py:WrappedSocket.__exit__", "src/siotls/wrapper.py:WrappedSocket.do_handhskake", "src/siotls/states/__init__.py:State.process", "src/siotls/examples/simple_client.py:connect"]}
{"id": "C70", "title": "The example server judges requests and answers them with well-formed messages", "statement": "The bytes of a request are decoded exactly when they are UTF-8; the first line of the request decides the status (400 unless three words, 405 unless GET, 404 unless /, else 200); requests and responses announce the length of the body they carry; every request is answered and then the connection is closed without an exception.", "quantifier": "every byte string received, every body, host, path and date", "why_tests_cant": "All byte strings, all texts.", "anchors": ["src/siotls/examples/simple_server.py:handle_one", "src/siotls/utils.py:make_http11_request", "src/siotls/utils.py:make_http11_response"]}
{"id": "C71", "title": "Compatibility records are dropped, other change_cipher_spec records are refused", "statement": "Unprotected change_cipher_spec records holding the single byte 1, put anywhere between the records a peer sends, do not change what a connection does with them; any other change_cipher_spec record, and a protected one, is refused with unexpected_message and ends the connection; such records are accepted only between the first ClientHello and the Finished of the peer.", "quantifier": "every connection, every sequence of records, every place where such records are put in", "why_tests_cant": "It compares two arbitrary streams of records in every state.", "anchors": ["src/siotls/connection.py:TLSConnection._read_next_record", "src/siotls/connection.py:TLSConnection._read_next_content", "src/siotls/connection.py:TLSConnection.receive_data"]}
{"id": "C72", "title": "Records that break the limits and the types of the record layer are refused", "statement": "A record whose header announces more than the maximum length is refused at once with record_overflow, whatever follows; a protected record whose content is longer than the limit is refused; a protected record has the outer type application_data; empty handshake records are refused; the version in the header is ignored.", "quantifier": "every connection, every header, every content", "why_tests_cant": "All lengths, all types, all contents, all states.", "anchors": ["src/siotls/connection.py:TLSConnection._read_next_record", "src/siotls/connection.py:TLSConnection._read_next_content", "src/siotls/connection.py:TLSConnection.receive_data"]}
{"id": "C73", "title": "The command line client and server talk to each other, verify and log as asked", "statement": "The client of `python -m siotls` shows the page of the server of `python -m siotls` and exits with 0, in whatever pieces the network delivers, when the server's certificate is one the client accepts; without --insecure a client shows only what comes from a peer authenticated by the system's authorities for the host asked; no client can end the server or change how another one is served; --keylogfile writes the secrets of the connections; the exit status says whether a response was shown.", "quantifier": "every certificate, key, host, store and random number, every way of cutting what is sent, everything a network may return, every sequence of clients", "why_tests_cant": "It ranges over all networks, all peers and all sequences of clients, and over all ways of cutting the streams.", "anchors": ["src/siotls/__main__.py:main", "src/siotls/examples/simple_client.py:connect", "src/siotls/examples/simple_server.py:serve", "src/siotls/examples/simple_server.py:handle_one", "src/siotls/trust_store.py:get_system_store", "src/siotls/trust_store.py:get_ca_certificates_path"]}
{"id": "C74", "title": "Each endpoint may close its side while the other goes on", "statement": "After a handshake, each endpoint may close its sending end once, when it likes, and write nothing more; over a network that neither loses nor reorders bytes, in whatever pieces it delivers them: what is read is always the beginning of what was written; when all has arrived all of it was read or can be, and an endpoint that has not closed is told that its peer closed, exactly when everything the peer wrote has arrived; an endpoint that was told so can still write, and what it writes still arrives.", "quantifier": "every interleaving of writes, closes, flushes, deliveries in any pieces and reads by two endpoints, all data", "why_tests_cant": "It ranges over all interleavings and all ways of cutting the two streams, with a close at any point of each.", "anchors": ["src/siotls/connection.py:TLSConnection.close_sending_end", "src/siotls/connection.py:TLSConnection.receive_data", "src/siotls/connection.py:TLSConnection.send_data", "src/siotls/states/__init__.py:State.process", "src/siotls/states/closed.py:Closed"]}
{"id": "C75", "title": "Both ends report the same negotiated parameters, which no longer change", "statement": "Once two honest endpoints are connected, the negotiated configuration of both says the same of the cipher suite, the key exchange group, the signature algorithm, the application protocol, the fragment length, the certificate type and the heartbeats, namely what the server prefers among what the client offered; every connected endpoint knows all of them; and once the handshake is over nothing the peer, the network or the user do changes the negotiated configuration.", "quantifier": "all compatible configurations, all reachable states, all later sequences of calls and inputs", "why_tests_cant": "It ranges over all pairs of configurations and all later inputs, and the attribute that is never filled in is one no test reads.", "anchors": ["src/siotls/configuration.py:TLSNegotiatedConfiguration", "src/siotls/states/server/wait_client_hello.py:ServerWaitClientHello.process", "src/siotls/states/client/wait_server_hello.py:ClientWaitServerHello._negociate_key_share", "src/siotls/states/client/wait_encrypted_extensions.py:ClientWaitEncryptedExtensions.process", "src/siotls/states/client/wait_certificate.py:ClientWaitCertificate.process", "src/siotls/states/client/wait_certificate_verify.py:ClientWaitCertificateVerify.process"]}
{"id": "C76", "title": "Nobody on the network can talk two endpoints down to worse parameters", "statement": "When a connected client accepted the Finished that a connected server computed, then whatever was done to the messages in between, the cipher suite, the group, the signature algorithm, the application protocol and the certificate type are those that the server prefers among everything the client is configured for, the fragment length is the default one, heartbeats and stapling follow the two configurations, both endpoints report the same of each, and the client holds (and, when it authenticates, verified) the certificate chain or key this server is configured with; unless the two computed that Finished from different inputs.", "quantifier": "all pairs of configurations, all histories of both endpoints under any network, all crypto backends", "why_tests_cant": "It ranges over all manipulations of the messages by an attacker and over all pairs of configurations.", "anchors": ["src/siotls/states/server/wait_client_hello.py:ServerWaitClientHello.process", "src/siotls/states/client/start.py:ClientStart.initiate_connection", "src/siotls/states/client/wait_server_hello.py:ClientWaitServerHello.process", "src/siotls/states/client/wait_encrypted_extensions.py:ClientWaitEncryptedExtensions.process", "src/siotls/states/client/wait_finished.py:ClientWaitFinished.process"]}
{"id": "C77", "title": "A connection does not wear out", "statement": "Between two endpoints connected to each other by a network that delivers everything, no call of receive_data raises an exception, however much application data both have exchanged before, and both can go on sending and close.", "quantifier": "all linked pairs of endpoints, all exchanges of any length in both directions, cut anywhere", "why_tests_cant": "The exception first shows after 11862259 records written under one key, or never within the life of a test with ChaCha20; no test writes so many.", "anchors": ["src/siotls/connection.py:TLSConnection.receive_data", "src/siotls/connection.py:TLSConnection.rekey", "src/siotls/crypto/ciphers.py:TLSCipherSuite.should_rekey", "src/siotls/crypto/ciphers.py:TLSCipherSuite.encrypt", "src/siotls/utils.py:peekable.peek"]}
{"id": "C78", "title": "What an alert means does not depend on the alerts received before", "statement": "Parsing an alert of unknown description adds a class to a registry shared by the whole process. However many alerts were received before or are received meanwhile by other connections and threads, every received alert has exactly the effect it has in a fresh process; the classes of the package are never replaced, and the registry never has more than 256 entries.", "quantifier": "all interleavings of any number of threads, all streams", "why_tests_cant": "It ranges over all histories of a process and all interleavings of its threads.", "anchors": ["src/siotls/contents/alerts.py:Alert.parse", "src/siotls/contents/alerts.py:Alert.__init_subclass__", "src/siotls/utils.py:RegistryMeta.__getitem__", "src/siotls/states/__init__.py:State.process"]}
{"id": "C79", "title": "Private keys show only through public values, shared secrets and signatures, and are used once", "statement": "For every history of calls and received bytes, everything that an endpoint sends, returns, raises, reports and passes to the key log is a function of its ephemeral private keys only through their public values and the secrets shared with peers, and of the private key of its certificate only through signatures of the CertificateVerify content of RFC 8446 4.4.3: replacing the keys by others that agree on those changes nothing. Every ClientHello of a connection carries one key share whose private key is drawn for it and for no other.", "quantifier": "all configurations, keys, histories of API calls and received bytes", "why_tests_cant": "It compares two executions for all histories, and says that there is no other way for a key to show.", "anchors": ["src/siotls/crypto/key_exchanges.py:TLSKeyExchange.init", "src/siotls/states/client/start.py:ClientStart.initiate_connection", "src/siotls/states/client/wait_server_hello.py:ClientWaitServerHello._negociate_key_share", "src/siotls/states/server/wait_client_hello.py:ServerWaitClientHello._negociate_key_share", "src/siotls/states/server/wait_client_hello.py:ServerWaitClientHello._send_server_certificate"]}
{"id": "C80", "title": "The cipher object follows the key schedule of RFC 8446 with pre-shared keys, whatever is called", "statement": "For every sequence of calls of the methods of a TLSCipherSuite object, in any order and with any arguments, the calls that derive keys return only in the order of RFC 8446 7.1; the binder key and early exporter are those of the pre-shared key, and each direction uses the latest traffic secret derived so far (the early one in one direction only), all of which follow from the pre-shared key. What a client encrypts as early data a server with the same pre-shared key decrypts. No key encrypts twice with one nonce.", "quantifier": "every sequence of method calls and arguments, every suite, side and pre-shared key", "why_tests_cant": "The connection never calls derive_early_secrets, and the sequences of calls are unbounded.", "anchors": ["src/siotls/crypto/ciphers.py:TLSCipherSuite.derive_early_secrets", "src/siotls/crypto/ciphers.py:_TLSSecrets.derive_early_secrets", "src/siotls/crypto/ciphers.py:_TLSSecrets._make_deriver", "src/siotls/crypto/ciphers.py:TLSCipherSuite.derive_handshake_secrets", "src/siotls/crypto/ciphers.py:TLSCipherSuite.derive_master_secrets", "src/siotls/crypto/ciphers.py:TLSCipherSuite.encrypt"]}
{"id": "C81", "title": "Attributes read through a state object are those of the connection", "statement": "The state objects delegate to their connection: an assignment to an attribute that the connection has is stored both there and on the state object, and the latter hides the former. Nevertheless, whatever the methods of the connection and of its states read, assign and move to, every read gives the value that it would give if the connection's attributes existed once: no state object whose methods run, nor the current one, ever shows an outdated copy. Attributes that belong to a state never get to the connection.", "quantifier": "every sequence of reads, assignments, calls and changes of state that the methods contain, of any length, for clients and servers, all values", "why_tests_cant": "A test sees the sequences of one handshake; outdated copies do exist on the state objects that were replaced (after a retry), and the claim is that none is ever read.", "anchors": ["src/siotls/states/__init__.py:State.__getattr__", "src/siotls/states/__init__.py:State.__setattr__", "src/siotls/states/__init__.py:State.__init__", "src/siotls/connection.py:TLSConnection._move_to_state", "src/siotls/states/client/wait_server_hello.py:ClientWaitServerHello.process", "src/siotls/states/server/wait_client_hello.py:ServerWaitClientHello.process"]}
{"id": "C82", "title": "The stream object behaves as the codec assumes", "statement": "SerialIO is a mutable object: a buffer, a position that io.BytesIO moves, and a stack of limits. Each read method gives the value (or the exception) and the position that the pure functions of the codec give, and so does a block of limit around such code; each write method puts the bytes that the pure functions give at the position, overwriting or extending, or raises as they do. What was written is read back. Code that only reads, with exceptions caught anywhere, never changes the data, never goes back and never goes beyond a limit. lookahead comes back to where it was, whatever its block does. The stack of limits after some code is the one before.", "quantifier": "all streams (any data, position, limits), all lengths and values, all nestings of reads, writes, limit, lookahead and try blocks", "why_tests_cant": "Nestings of limit blocks, look-aheads and caught exceptions, and the positions at which a malformed length stops them, are unbounded.", "anchors": ["src/siotls/serial.py:SerialIO.read", "src/siotls/serial.py:SerialIO.read_exactly", "src/siotls/serial.py:SerialIO.read_listint", "src/siotls/serial.py:SerialIO.read_listvar", "src/siotls/serial.py:SerialIO.write_int", "src/siotls/serial.py:SerialIO.write_listvar", "src/siotls/serial.py:SerialIO.lookahead", "src/siotls/serial.py:SerialIO.limit", "src/siotls/serial.py:SerialIO.is_eof", "src/siotls/serial.py:SerialIO.assert_eof"]}
{"id": "C83", "title": "A frozen negotiated configuration cannot be changed", "statement": "Once freeze() has returned, every assignment to and deletion of an attribute of the negotiated configuration, and every further freeze(), raises TypeError and changes nothing; freeze() itself changes no parameter. Until then, as long as nobody assigns or deletes the flag, the object behaves as a plain record that starts with the twelve initial values.", "quantifier": "every sequence of assignments, deletions and freezes, all names and values", "why_tests_cant": "The names and the sequences of operations are unbounded, and the guard reads a flag that passes through the very methods it guards.", "anchors": ["src/siotls/configuration.py:TLSNegotiatedConfiguration.__init__", "src/siotls/configuration.py:TLSNegotiatedConfiguration.freeze", "src/siotls/configuration.py:TLSNegotiatedConfiguration.__setattr__", "src/siotls/configuration.py:TLSNegotiatedConfiguration.__delattr__"]}
{"id": "C84", "title": "The registries of signature suites hold what the class statements declare", "statement": "TLSSignatureSuite fills three dictionaries as subclasses are created. Whatever classes are declared in whatever order (by the module or by a user), also when the creation of some of them raises, a lookup by identifier, by signature OID or by public key OID gives the last direct subclass that declared the key, KeyError when there is none, and indirect subclasses never show; further classes only matter for the keys that they use. The tables used everywhere else are what importing the module makes. The OID of the signatures of a suite leads to that suite.", "quantifier": "every list of class statements, all keys", "why_tests_cant": "The dictionaries are shared and filled as a side effect of class creation, including by code outside of the library; the order and the classes are unbounded.", "anchors": ["src/siotls/crypto/signatures.py:TLSSignatureSuite.__init_subclass__", "src/siotls/crypto/signatures.py:TLSSignatureSuite.from_signature_oid", "src/siotls/crypto/signatures.py:TLSSignatureSuite.for_public_key_oid", "src/siotls/utils.py:RegistryMeta.__getitem__", "src/siotls/crypto/ocsp.py:validate_ocsp"]}
{"id": "C85", "title": "The order of the extensions does not matter", "statement": "Take a ClientHello, ServerHello, EncryptedExtensions or CertificateRequest in which no extension type comes twice and, for a ClientHello, no pre_shared_key. Written with its extensions in any other order it is read exactly when it was, as the same message but for the order, and processing it has the same effect on every connection in every state (the transcript takes the bytes as they are). The same holds for processing a Certificate whose entries list their extensions in another order.", "quantifier": "every message head, every list of extensions known or not, every permutation, every connection state", "why_tests_cant": "There are factorially many orders, and each extension is parsed from a shared stream with limits, so the place of one could change how the next is read.", "anchors": ["src/siotls/contents/handshakes/client_hello.py:ClientHello.parse_body", "src/siotls/contents/handshakes/server_hello.py:ServerHello.parse_body", "src/siotls/contents/handshakes/encrypted_extensions.py:EncryptedExtensions.parse_body", "src/siotls/contents/handshakes/certificate_request.py:CertificateRequest.parse_body", "src/siotls/contents/handshakes/extensions/__init__.py:Extension.parse"]}
{"id": "C86", "title": "A transcript in the hands of any caller", "statement": "Whatever methods of a Transcript are called in whatever order: it accepts the messages of a handshake in the order of RFC 8446 and no others; digest and hexdigest are the hash of the messages accepted since the beginning, or since the last HelloRetryRequest with the replacement of section 4.4.1 before them, whenever the algorithm gets known; messages after the last one are not hashed; a refused message changes nothing; update, post_init, do_hrr_dance, digest, hexdigest and clone raise nothing but unexpected_message and the ValueError of an algorithm that was not offered.", "quantifier": "every sequence of calls, all arguments, all orders of the set of algorithms", "why_tests_cant": "The histories of calls are unbounded; tests feed complete honest handshakes.", "anchors": ["src/siotls/transcript.py:Transcript.__init__", "src/siotls/transcript.py:Transcript.post_init", "src/siotls/transcript.py:Transcript.do_hrr_dance", "src/siotls/transcript.py:Transcript.update", "src/siotls/transcript.py:Transcript.digest", "src/siotls/transcript.py:Transcript.hexdigest", "src/siotls/transcript.py:Transcript.clone"]}
{"id": "C87", "title": "Certificates that name no OCSP responder", "statement": "The responder asked about a certificate is the first one that its authorityInfoAccess names. A client with an OCSP service accepts a trusted chain exactly when every stapled answer is good and every other certificate but the last names no responder or one that gives a good answer. A server with an OCSP service always sends its certificates, with an answer stapled to the first only if that answer is good; a responder that cannot help does not stop the handshake.", "quantifier": "all lists of access descriptions, all chains, all answers and failures of the responder", "why_tests_cant": "The tests use certificates made for them, that all name one responder that answers.", "anchors": ["src/siotls/crypto/ocsp.py:get_ocsp_url", "src/siotls/crypto/ocsp.py:validate_ocsp", "src/siotls/states/client/wait_certificate.py:ClientWaitCertificate._verify_statuses", "src/siotls/states/server/wait_client_hello.py:ServerWaitClientHello._send_server_certificate"]}
{"id": "C88", "title": "Revocation lists", "statement": "A client that is configured with a revocation list accepts a chain that it trusts exactly when no certificate of the chain is in the list, and answers bad_certificate when one is; whatever the server sends and the application calls, it never gets past the Certificate of a server whose certificate is revoked.", "quantifier": "all revocation lists, all chains, all histories of a client", "why_tests_cant": "Lists, chains and histories are unbounded; no test configures a list.", "anchors": ["src/siotls/states/client/wait_certificate.py:ClientWaitCertificate._verify_revocation", "src/siotls/states/client/wait_certificate.py:ClientWaitCertificate._process_x509", "src/siotls/configuration.py:TLSConfiguration"]}
{"id": "C89", "title": "For whom a certificate is verified", "statement": "A client that authenticates its peer becomes connected only if the first certificate that the server sent was verified, with the trust store and the depth of the configuration, for exactly the DNS name or the IP address that the application gave; and the name given does not make a valid certificate be refused.", "quantifier": "all histories of a client, all host names, all verifiers", "why_tests_cant": "Tests check a few names against a few certificates; a connection that was not verified for the right name looks the same.", "anchors": ["src/siotls/states/client/wait_certificate.py:ClientWaitCertificate._verify_chain", "src/siotls/states/client/wait_certificate.py:ClientWaitCertificate._get_verifier", "src/siotls/configuration.py:TLSConfiguration.policy_builder"]}
{"id": "C90", "title": "A client that is asked for a certificate", "statement": "A client that received a CertificateRequest answers the Finished of the server with a Certificate, empty when it has none, and a Finished, and is connected. It never becomes connected leaving the request unanswered.", "quantifier": "all histories of a client, all later messages of the server and calls of the application", "why_tests_cant": "What may follow the request is unbounded; the tests have no server that sends one.", "anchors": ["src/siotls/states/client/wait_cert_cr.py:ClientWaitCertCr.process", "src/siotls/states/client/wait_finished.py:ClientWaitFinished.process", "src/siotls/states/client/wait_finished.py:ClientWaitFinished._send_certificate"]}
{"id": "C91", "title": "The exact verdict on an OCSP answer", "statement": "validate_ocsp accepts every answer that RFC 6960 calls good for the request (successful, good, about the certificate asked, current, signed by the issuer), and raises ValueError for every other one; a client takes a certificate with a good answer stapled to it, and answers bad_certificate when the stapled answer is not good.", "quantifier": "all requests, answers, issuers and times; every cryptographic library", "why_tests_cant": "Answers are unbounded; the tests have no answer without a next_update, none signed otherwise than the certificate of the issuer and none with a wrong signature.", "anchors": ["src/siotls/crypto/ocsp.py:validate_ocsp", "src/siotls/states/client/wait_certificate.py:ClientWaitCertificate._verify_revocation"]}
{"id": "C92", "title": "Bodies of use_srtp and certificate_authorities", "statement": "The serialize methods of UseSRTP and CertificateAuthorities write the bytes of RFC 5764 and RFC 8446, which their parse_body reads back as the same values whatever follows, and raise OverflowError for values that do not fit; well-formed extensions of both types in a message can be read.", "quantifier": "all lists of profiles, all mki, all lists of names, all surrounding bytes", "why_tests_cant": "The lists are unbounded, and no test builds either class.", "anchors": ["src/siotls/contents/handshakes/extensions/use_srtp.py:UseSRTP.parse_body", "src/siotls/contents/handshakes/extensions/use_srtp.py:UseSRTP.serialize", "src/siotls/contents/handshakes/extensions/certificate_authorities.py:CertificateAuthorities.parse_body", "src/siotls/contents/handshakes/extensions/certificate_authorities.py:CertificateAuthorities.serialize"]}
{"id": "C93", "title": "What is taken from an OCSP responder", "statement": "A request that the cache does not answer takes from the responder exactly the answers of the media type application/ocsp-response, or of none, that announce at most 20480 bytes, and reads as many bytes as announced; the network is used only for a URL of HTTP with an authority and a request that is not empty, and never for an answer that is in the cache; forgetting an answer leaves the others.", "quantifier": "all URLs, requests, headers, bodies, clocks and states of the cache", "why_tests_cant": "Headers and bodies are chosen by the responder; the tests have no responder.", "anchors": ["src/siotls/ocsp_over_http.py:request", "src/siotls/ocsp_over_http.py:uncache"]}
