# Formal model of siotls in Rocq (Coq 8.16.1)

Source under study: `/repo` (Julien00859/siotls, pinned commit), read as text only.
Properties: `properties.jsonl` (C01 ...). Status per property: `MANIFEST.json`.
Mutation log: `seeded/LOG.jsonl`.

## 1. How the code is modelled

* Total, computable Gallina functions, one per Python function, each with a
  comment `(* file:lines *)`.
* A Python exception is a value: `res A := Ok a | Err e`, with one constructor
  of `exn` per Python exception class that the code can raise or catch
  differently (`TLSFatalAlert` subclasses carry their alert code;
  `MissingDataError`, `TooMuchDataError`, `TLSBufferError`, `ValueError`,
  `UnicodeError`, `KeyError`, `TypeError`, `AttributeError`, ...).
* Mutable objects (`TLSConnection`, its `State`, its cipher, its transcript,
  its buffers) are one record `conn`; methods have type
  `conn -> res A * conn`, so a state change made before an exception survives
  the exception, as in Python.
* Bytes are `list Byte.byte`; integers are `N`; a Python `str` is its UTF-8
  bytes; enum members are their integer value (an `IntEnum` compares and hashes
  as its value).
* Unbounded `while` loops take fuel computed from the input length; exhaustion
  is the distinct error `XFuel`, which no Python exception maps to, and a
  theorem shows that it is never returned.
* Bugs present in the source (typos such as `alerts.RecordOverFlow`, abstract
  classes instantiated at run time, broken serializers) are modelled as the
  exception they raise.

### External code is an oracle
Everything implemented by `cryptography`, `hashlib`, `hmac`, `idna`, `secrets`,
sockets and clocks is a field of a record (`crypto`) passed as an argument:
hash, HMAC, AEAD seal/open, X25519/X448/ECDH, signatures, DER loading,
certificate path validation, OCSP DER parsing, IDNA, random bytes, the clock,
HTTP connections and sockets. Theorems quantify over every such record. Where a theorem
needs a fact about it (for instance "open (seal m) = m"), the fact is a visible
hypothesis of the theorem, and an `Example` shows a concrete toy instance for
which it holds.

## 2. Trusted base

* The Coq 8.16.1 kernel (and `vm_compute` for the examples and constants).
* Axioms: none declared. `Print Assumptions` is printed under every property
  theorem; section 5 records the result.
* The faithfulness of the hand translation (section 3 lists simplifications).
* The reading of Python semantics described above.

## 3. What is modelled, what is simplified, what is not modelled

Model files (no proofs inside): `Base`, `Serial` (serial.py), `Sio` (serial.py again, as a mutable object), `Froz` (the negotiated configuration as a mutable object), `Suites` (how the registries of signature suites are filled), `TrApi` (every method of a transcript), `Aia` (the responder of a certificate), `Crl` (revocation lists), `Verify` (the verifier of a chain), `Bodies` (two extensions that cannot be built), `Iana`
(iana.py), `Crypto` (the oracles), `Ext` (contents/handshakes/extensions),
`Registry` (the registry of the extension classes), `AlertReg` (the registry of the alert classes), `Attr` (how states share the attributes of the connection), `Early` (the pre-shared keys of crypto/ciphers.py, which the connection does not use), `Msg` (contents), `Hkdf` (crypto/hkdf.py), `Cipher` (crypto/ciphers.py), `Kex`
(crypto/key_exchanges.py, ffdhe.py), `Sig` (crypto/signatures.py), `Ocsp`
(ocsp.py checks), `OcspCache` and `OcspThreads` (ocsp_over_http.py), `Transcript`
(transcript.py), `Config` (configuration.py), `Conn` (connection.py and
states/), `KeyLog` (what is passed to key_logger), `Utils` (utils.py, trust_store.py path lookup), `Wrapper`
(wrapper.py), `Examples` (the with statement of wrapper.py, examples/, the HTTP
messages of utils.py), `Main` (__main__.py and what surrounds the with
statements of the examples), `Toy` (a toy oracle used by examples only), `Real`
(SHA-256/384, HMAC, ChaCha20-Poly1305, AES-GCM and AES-CCM written out in Gallina, with the
other oracles of `Toy`; also used by examples only: it shows that the hypotheses on
primitives hold of the ones that are deployed, and compares the model with the vectors
of RFC 5869, RFC 8439 and RFC 8448).

Simplifications:

* The random bytes drawn by a connection are consumed from a list given when it
  is created (`toy_rng` in examples). Theorems about servers assume that the 32
  bytes drawn for the hello are not the HelloRetryRequest marker (`started`,
  `own_random`), which holds except with probability 2^-256.
* Ghost fields that no modelled function reads to decide anything: `c_log` (the
  list of AEAD calls), `c_hs` (handshake messages sent and accepted), `d_epoch`
  (a number identifying the installed traffic key), `se_suite`, `cs_klog` (the
  labels and secrets passed to key_logger). The client random in the key log
  lines is read from the connection instead of being kept as text by the cipher
  object; it is not assigned after the object is made.
* The peekable iterator of nonces is a counter with its usage limit; C39 shows
  that peeking never changes what iteration yields.
* An alert description is the byte found on the wire; unknown alert codes are
  kept as numbers.
* `max_fragment_length` is one of the five legal values (`valid_mfl`): the
  Python type is an enum and no other value can be built.
* The lookup of the online status of its own chain by the server is modelled
  in `OcspCache`/`Ocsp` and enters the handshake as an oracle answer.
* Threads are modelled for the globals of the package only, the OCSP cache
  (`OcspThreads`) and the registries of the extensions and of the alerts
  (`Registry`, `AlertReg`): none has a lock; one dictionary or heap operation is taken as atomic. Elsewhere a
  connection is used by one thread. `Ext.parse_ext` is without the registry
  (C60 shows that it makes no difference to one thread),
  `Msg.parse_alert` and `Conn.base_process` as well (C78: no difference at all).
* FFDHE: exponentiation by `N` modular powers; `cryptography` may in addition
  reject peer values that fail its own checks. Primality of the constants is
  not proved.
* `wrap_client`/`wrap_server` are the constructors of the wrapper record; the
  socket is an oracle giving, for every call, how many bytes it took or what it
  returned.

Not modelled:

* Logging, `repr`, `__str__`, error message texts, `_struct` strings,
  deprecation warnings. The lines passed to `key_logger` are modelled
  (`KeyLog`), the logging handlers that write them are not.
* Timing (constant-time comparison is modelled as equality) and memory limits.
* PEM loading, dates in HTTP responses, the file system and the operating system:
  they are parameters of `Main`.
* The parsing of the command line, the verbosity, and what the program logs, but
  for the exception that logging raises (C70). KeyboardInterrupt anywhere but in
  `accept`. Hosts that are no UTF-8.

## 4. Per property: what is modelled, how it is proved

Specifications are the files `theories/S_*.v`; lemmas are `theories/P_*.v`;
`theories/T_*.v` hold only property theorems, examples and
`Print Assumptions`. "Histories" are arbitrary sequences of API calls
(`S_Hist.v`) with arbitrary arguments, any of which may raise.

| id | modelled in | how it is proved |
|----|-------------|------------------|
| C01 | Conn (record layer) | a world of two endpoints and two byte pipes (`S_Deliver.v`), invariant of every interleaving of sends, flushes, deliveries in any pieces and reads; AEAD correctness is a hypothesis |
| C02 | Conn | no handler looks at the waiting input (`P_Blind.v`); the loop on `a++b` continues where the loop on `a` stopped, by induction over records, reassembly and turns; refuted in general by a ServerHello in two records; `c02_accepted`: what is accepted at once is accepted in any pieces (fewer than 1000 records protected, so no key is near its limit) |
| C03 | Conn `_send_content` | induction on the chunking function |
| C04 | Conn `_encrypt` | arithmetic characterisation; refuted by a computed witness |
| C05 | Conn `_decrypt` | induction on padding; `c05_record`: from the record, whatever the cipher opens it to |
| C06 | Cipher, Conn | invariant over histories on the log of AEAD calls |
| C07 | Conn | invariant over histories; preorder "appends only" closed over all handlers |
| C08 | Conn | case analysis over the states, lifted through the receive loop |
| C09 | Conn | witness (refuted) and positive theorem for keys installed, preorder over handlers |
| C10 | Conn | case analysis of the receive loop; refuted for CCM suites |
| C11 | Conn | witness (refuted), positive theorem without `close_receiving_end` |
| C12 | Conn | witness (refuted), positive theorem while the peer sends no close_notify |
| C13 | Conn | invariant over histories |
| C14 | Conn | witness (refuted) and positive theorem |
| C15 | Conn | fuel sufficiency, measure = buffered bytes |
| C16 | Conn client states | inductive invariant of a client (`P_Client.v`) over histories |
| C17 | Conn server states | inductive invariant of a server (`P_Server.v`) over histories |
| C18 | Conn server states | server invariant; witness for `is_connected` |
| C19 | Conn client states | client invariant tied to the bytes of the messages handled |
| C20 | Conn server states | specification `first_common`, server invariant |
| C21 | Conn server states | server invariant over histories |
| C22 | Conn client states | witness (refuted), client invariant for the rest |
| C23 | Transcript, Conn | accepted words are prefixes of the words of an independent grammar |
| C24 | Transcript | independent specification of the transcript; refuted for the client after a retry |
| C25 | Cipher, Conn | independent RFC key-schedule specification; `c25_client_keys`, `c25_server_keys`: the keys of every connected endpoint are those of that schedule, for its own key share and transcript |
| C26 | Cipher, Conn | the client and server invariants of C16 and C17 give the stage of the schedule in each state; every handler then runs to the end or to an error that is no AssertionError (`P_Sched.v`) |
| C27 | all | symbolic execution of both endpoints (`P_Honest*.v`): from the configurations a `deal` is built (all values drawn and all messages), every message is shown to serialize, to travel and to be accepted, using the codec (C30), the key schedule (C25) and the delivery lemmas; `c27_in_pieces`: the same when every flight arrives in arbitrary pieces; refuted without three restrictions (a client's max_fragment_length of 4096 or 16384, a share for the group, no CCM); the CCM one holds for any peer (`P_Ccm.v`, from the invariants of C25: a connected endpoint installed keys, which the CCM suites cannot) |
| C28 | Serial | round trip lemmas |
| C29 | Serial | invariant on the limits stack, for every program of reads |
| C30 | Ext, Msg | round trip theorems per extension and message |
| C31 | Ext, Msg, Conn | every parser classified by the errors it can raise (`errs`), a table per message type; each entry of the table is met by a computed witness, so the full statement is refuted |
| C32 | Ext, Msg | independent layout of messages (`S_Layout.v`) and RFC 8446 table of places; induction over the extension loop; refuted for the cookie |
| C33 | Hkdf | independent RFC 5869 specification |
| C34 | Hkdf | injectivity of the encoding |
| C35 | Kex | modular arithmetic, computed constants |
| C36 | Ocsp | decision characterisation |
| C37 | OcspCache | invariant over histories of cache operations |
| C38 | Conn | transition relation, closed over all handlers |
| C39 | Utils | simulation with a list |
| C40 | Config | decision characterisation |
| C41 | Utils | independent reader of dumps is a left inverse; the width of the offsets by induction over the lines (`P_Align.v`) |
| C42 | Wrapper | witness (refuted), positive theorem for sockets that accept everything |
| C43 | Conn | witness for the alert code (refuted), positive theorem for the rest |
| C44 | Conn | witness (refuted), positive theorem for the state |
| C45 | OcspCache | case analysis: the size is at most 20480, and negative only when Content-Length is; witness with a negative length (refuted) |
| C46 | Ocsp, Conn | client invariant; witness for the last certificate (refuted) |
| C47 | Wrapper, Conn | `S_Net.v`: two connections, the bytes under way, one turn of either `do_handshake` loop per step; invariant over all schedules (`P_Net2.v`): where each endpoint is in the flight it receives, using that input may be split anywhere (C02), that the last byte of a flight completes its last message, and that what is left in the output buffer never matters (`P_Mute.v`) |
| C48 | Conn, Cipher | `S_Integrity.v`: the AEAD is unforgeable (what opens under the key is in the sender's ghost log of sealings, and earlier epochs used other keys). Sender: from connected on, the new log entries are consecutive nonces and their contents concatenate to what was written (`P_Integ2.v`, also when a call fails half-way). Receiver: invariant giving the index of the next nonce and the sealings read so far (`P_Integ3.v`, `P_Integ4.v`), over arbitrary histories of both |
| C49 | Conn, Cipher | as C48, with the index equal to the number of records read, as long as a failing decryption ends in `Failed`; refuted when the alert cannot be sent. For a caller that stops feeding the connection once receive_data has raised, no restriction is left (`c49_heeded`, `P_Heed.v`) |
| C50 | Conn, Cipher, Kex | the invariants of C16 and C17 extended with the secret behind the key share of the last ClientHello; the messages being the same, the codec gives the same shares (C30), the key exchange the same secret (C35 for the groups of RFC 7919, `dh_commutes` for the external ones); `c50_same_keys_partial` has no HelloRetryRequest; `c50_same_keys` (S_Match, P_Match, T_Match) has both kinds of handshakes and concludes with the keys meeting or an exhibited collision, by C51 |
| C51 | all | `S_Agree.v`, `P_Agree.v`: handshake messages are framed by their length, so the hashed bytes determine the messages; what the client checked and what the server sent is the HMAC of these bytes. The collision is stated about the very inputs of the two endpoints, not as 'there is a collision', which is true of every hash |
| C52 | Conn, Cipher | `S_Veil.v`, `P_Veil.v`: two executions side by side; every method of the connection, run from connections that differ only in the output buffer and the ghost log, ends alike and adds the same parts (clear bytes, sealings). Only `send_data` sees the text: same number of fragments, same padded sizes. `hiding` (second theorem only) is the ideal encryption: no real AEAD has it, the first theorem does not need it |
| C53 | Conn, Cipher | `S_Entire.v`: whole histories, from `created` on. `P_Entire.v`: before the handshake ends nothing is read and no key of the connected state has been used; the call in which it ends is cut at that point (`connect`), and what the rest of the call processes is handled like any later input. Then C48/C49 for the tail and C51 for the equality of keys. Partial: what a server writes in `ServerWaitFinished` is not covered (refuted), nor, for a caller that goes on after an exception, a reader that closed its sending end or used up its write key (as C49; `c53_heeded*` need neither) |
| C54 | Conn, Msg | `P_Alert2.v`: the one record is read (in the clear, or opened with the next nonce), parsed for any two bytes, and given to `base_process` in every state; the rest is C10. Refuted for the level warning, which is ignored in every state |
| C55 | Wrapper, Conn, Cipher | `S_Session.v`: calls on a wrapped socket. `P_Session.v`: every call is a piece of a history of the connection, and what it returns is what the history reads. `P_Heed.v`, `P_Heed2.v`: C49 and C53 for histories in which receive_data is not called again once it has raised (`S_Heed.v`); then the gap of C49 cannot arise, whether or not the sending end was closed. A user that reads again after an exception: partial and refuted, as C49 |
| C56 | Wrapper, Conn, Cipher | `S_Chat.v`: two wrapped sockets, the bytes under way, what was written and read. `P_Chat.v`: a call of read is a number of deliveries of C01 with a flush and a data_to_read after each, and keeps the invariant of C01 in both directions; `P_Chat2.v`: from the calls of do_handshake on (C27, C47). A call of read that waits is modelled as one that has ended and is made again: it has nothing to return at that point |
| C57 | Wrapper, Conn | `P_Eof.v`: no input makes an established connection that did not raise leave the established states, so only the empty result of recv ends the loop of read without data. Partial: the rest of the statement is refuted, with the toy endpoints: a truncation looks like a close_notify, a close_notify alone does not end a read, and data after it is delivered |
| C58 | Conn, Cipher | `S_Vouch.v`. `P_Vouch.v`: the writer's log, call by call: only close_sending_end and a failure seal an alert, one record each, and the records before it carry all that was written (otherwise the key is used up and nothing more is sealed). `P_Vouch2.v`: the reader is at the j-th sealed record, and its state is Closed only if a close_notify is among the first j. Same hypothesis on the AEAD as C48 |
| C59 | OcspThreads | `S_Threads.v`: threads that perform one dictionary or heap operation at a time, in any order. Invariants over all executions: what the dictionary and the threads hold was given to cache; the heap has at least 64 + p − n elements while p of n threads are about to pop, at most 63 + n − q while q are about to push. No failure of request and the bound on the dictionary are refuted (`c59_keyerror_refuted`, `c59_bound_refuted`) |
| C60 | Registry, Ext | `S_Registry.v`: threads performing one registry operation at a time. Invariant over all interleavings: the class found for a type has that type, entries are never replaced; a call that begins after one of the same type ended never makes a class. With threads the full statement is refuted (`c60_race_refuted`): what is proved is that the only other outcome is an AttributeError for a type met for the first time |
| C61 | Conn | `S_Memory.v`. Induction over the loop: when it stops, the last record read was incomplete and within the limit, or the reassembly buffer has less than four bytes; invariant over histories for the reassembly buffer. In the second case the bound on the input is refuted, for every server and every bound (`c61_unbounded_refuted`, by induction) |
| C62 | KeyLog, Cipher, Conn | `S_KeyLog.v` reads the file (words, hexadecimal) and derives keys from what it finds. Invariant over histories (`P_KeyLog.v`): each sealed record's key and nonce come from a filed secret of the right direction. The lines of a connected endpoint come from the invariants of C25; those of two honest endpoints from the run of C27 |
| C63 | Conn, Cipher | `S_Pack.v`: what a stretch of records says to a connection, in clear or under its present key, each record with its own nonce. Induction on the records (`P_Pack.v`); the key change by following `reading_key` through `receive_one` (`P_Pack2.v`). Messages in one record: refuted, and proved to fail always |
| C64 | Conn, Msg | the same records; the parser of the messages without a body and the connected state (`P_Pack2.v`). That nothing is sent: invariant over all operations on what the transcript gained. The full statement is refuted: every such message makes the connection fail |
| C65 | Conn, Msg | `S_Answer.v`: which extensions are answers, and what each message of a history may answer. Invariant over all operations of a server, with what the negotiation leaves in `nconfig` (`P_Answer.v`). The key_share of a retry is excepted, with a witness; for the client, that other extensions change nothing, and a witness |
| C66 | Conn, Msg | `S_Hello.v`: the last ClientHello. Invariant of a client that ties its state to it (`P_Hello.v`). Session id, group and version of a retry are refuted |
| C67 | Conn, Msg | the same invariant, with the content of each ClientHello. That the second is like the first is refuted |
| C68 | Conn, Ext, Msg | two offers are alike for a configuration (S_Grease: order, repetitions and everything not supported are free); each negotiation step does the same on both (P_Grease, `twin`). The reading of unknown extensions is an instance of the round trip of C30. Refuted for two recognised extensions |
| C69 | Wrapper, Examples, Conn | the calls of the handshake over a socket (S_Enter); no call other than one that meets a close_notify or the end of the stream closes or fails the connection and returns (P_Enter). Exit: for every body. Refuted for a stream that ends and for a close_notify in clear |
| C70 | Examples, Wrapper | UTF-8 of RFC 3629, first line, words by Unicode white space, the status of a request, the body a message announces (S_Http); the decoder accepts exactly UTF-8, the status is the specified one for every request, requests and responses with ASCII bodies announce their length. Refuted: other bodies; a request that is no UTF-8 makes the server raise after its answer |
| C71 | Conn | what a change_cipher_spec record is and what it means to put such records between others (S_Ccs); the result of `receive_data` is compared for the two streams, for every connection; other values and protected ones are refused. Refuted: a connected connection and a server that has read nothing drop them too |
| C72 | Conn | a header and its length; what a protected record holds is `packed` (S_Pack); refused as soon as the header is there, with the rest arbitrary. Refuted: the alert is internal_error, contents longer than the limit, other outer types and empty protected handshake records are accepted |
| C73 | Main, Examples, Wrapper, Conn | the options, and the files, loaders, sockets and random numbers of the world as parameters (Main); where distributions keep their authorities, when a server is set up, when a certificate suits a client (S_Main). The two programs: the honest handshake (C27) over wrapped sockets, the first record of data coming together with the last flight (P_Talk2), one record each way in any pieces (P_Talk3). The response may come with any part of the server's close_notify in the same recv (P_Notify). Verified: C16 at the end of the handshake, unless the connection is closed there. Refuted: a stranger's two records are shown without any verification, --keylogfile writes nothing; both models of the lookup of the file agree (`P_Path.v`) |
| C74 | Conn, Cipher | the world of C01 with a close by each endpoint (`S_Half.v`). `P_Half.v`: an invariant per direction, the one of C01 until the writer closes, then records of data followed by the sealed close_notify (`P_Notify.v`), until all was received. That an endpoint which closed writes nothing more is a rule of the world: the library lets it write again after it received a close_notify (C12, `c57_after_refuted`) |
| C75 | Conn, Config | `S_Terms.v`: what nconfig tells. Agreement from the honest run of C27 (`settled` in `P_Honest10.v`); what is known in each state is an invariant of the histories (`P_Terms.v`, one per side), as is that nconfig stays once the handshake is over. Partial: the client never tells the group, the server never the signature algorithm (`c75_silence_refuted`) |
| C76 | Conn, Msg, Transcript | `S_Down.v`: the terms the two configurations allow at best. From the invariants of C16 and C17 (which now also tell the heartbeats and the stapling), the codec round trip of the ClientHello and the EncryptedExtensions, and C51; a retry between the same two endpoints is excluded by C51. The certificate the client holds is that of the server (`P_Down3.v`) |
| C77 | Conn, Cipher | `S_Lasts.v`: how much of its key an endpoint has used (fresh, tired, worn). The stream invariant of C01 gives the outcome of each receive_data call, not only its effect; false once the key is nearly used up, and an induction over the records shows that every linked pair can get there |
| C78 | AlertReg, Conn | `S_AlertReg.v`: threads that parse and process alerts with one registry. Invariant: the registry has the classes of the package and, for other descriptions, only classes that are no exceptions; an alert held by a thread has a class in it |
| C79 | Conn, Kex | `S_Secret.v`: keys that agree on public values and shared secrets, signers that agree on what a CertificateVerify signs, the same connection with other keys. `P_Secret.v`: relational walk over the whole connection, the two executions stay alike but for the keys that they hold. `P_Secret2.v`: between two ClientHellos the counter of the draws grows |
| C80 | Cipher, Early | `S_Early.v`: the schedule of RFC 8446 7.1 with a pre-shared key, histories of method calls of one object. `P_Early.v`: what each derivation gives; `P_Early2.v`: invariant over histories (phase, keys in use, nonces used); `P_Early3.v`: two objects in step; the CCM suites never have a sequence. The nonce claim is partial: refuted when derive_master_secrets is called twice |
| C81 | Attr | `Attr.v`: the `__dict__` of the connection and of every state object, Python's lookup with `__getattr__` and `__setattr__`, the names that each class assigns, the running methods. `S_Attr.v`: the same with one store. `P_Attr.v`: simulation, by an invariant on the copies held by live state objects. Modelled by reading the code: which names each method assigns, and that a state's method is called within another's in two places only (`allowed`). This is what justifies that `Conn.v` has one record for connection and states |
| C82 | Sio | `Sio.v`: `SerialIO` as the mutable object it is (data, position, limits), method by method over the `io.BytesIO` that it extends; the `finally` and the plain resumption of the two context managers. `Serial.v`, on which the codec is built, is pure: `c82_reads`, `c82_limit_block` and `c82_writes` are the refinement that justifies it. Programs (`code`) nest calls, blocks and caught exceptions; induction on them. Partial: a caught exception leaves the limit of its block on the stack |
| C83 | Froz | `Froz.v`: the `__dict__` of `TLSNegotiatedConfiguration` and its `__setattr__`/`__delattr__`. `S_Froz.v`: a record with a seal. `P_Froz.v`: simulation, and an induction for the sealed object |
| C84 | Suites | `Suites.v`: `__init_subclass__` with what it leaves when an attribute is missing, dictionaries in the order of insertion, the fourteen class statements. A class is what its attributes resolve to. `S_Suites.v`: the last statement that declares a key. `P_Suites.v`: invariant over the statements; the tables of `Sig.v` by computation. Partial: six suites share the OID of RSASSA-PSS |
| C85 | Serial, Ext, Msg, Conn | `S_Shuffle.v`: heads of messages and lists of extensions as RFC 8446 writes them, messages equal but for the order. `P_Shuffle.v`: an extension is read the same at any place of any stream (from the lemmas of `P_Layout.v`), so a block is read item by item; `P_Shuffle2.v`: each message is read as its head and its block; states look extensions up by type only. `c85_twice_refuted` shows that the hypothesis on types is needed |
| C86 | TrApi, Transcript | `TrApi.v`: the six methods as calls of a history. The algorithms are those of a list of suites, as the connection makes it. `S_TrApi.v`: the sequences of messages of figure 1 of RFC 8446, hexadecimal. `P_TrApi.v`: the slots of the module accept the words of that language, greedily but exactly; what is hashed along a word; invariant over histories. Partial: see the four findings |
| C87 | Aia, Ocsp, Conn | `Aia.v`: `get_ocsp_url` on the access descriptions of a certificate, put in place of the oracle for the address. `S_Aia.v`: the first responder named, a vouched answer, when a client is content. `P_Aia.v`: induction over the chain; cases of the server. Partial: a certificate without the extension, or a responder that fails at the server, stops the handshake |
| C88 | Crl, Conn | `Crl.v`: a revocation list by its serial numbers, the lookup that takes an integer, the loop over the chain; shown equal to what `Conn.client_check_x509` does. `S_Crl.v`: which chains have no revoked certificate, the states before a certificate was accepted. `P_Crl.v`: cases; invariant over histories of a client. Partial: the lookup is given the certificate |
| C89 | Verify, Conn | `Verify.v`: `policy_builder`, `_get_verifier` and `_verify_chain` put in place of the oracle for chains; the verifiers of `cryptography` remain an oracle that is told the store, the depth and the subject. `S_Verify.v`: the subject that a host name stands for. `P_Verify.v`: cases, and the invariant of C16 for this library. Partial: no name, names outside of ASCII |
| C90 | Conn | `S_Asked.v`: the states after a CertificateRequest. `P_Asked.v`: they are never left but for the end (invariant over histories), and the messages of a connected client have no request in them (from the invariant of C16). Partial: such a client never connects |
| C91 | Ocsp, Conn | `S_OcspX.v`: the good answers of RFC 6960 (next_update optional, any algorithm of the issuer's key). `P_OcspX.v`: validate_ocsp by cases. The condition of acceptance is exact (`c91_exact`); partial with respect to the RFC |
| C92 | Bodies, Ext | `S_Bodies.v`: the bytes by the RFCs. `P_Bodies.v`: the methods as plain functions, with the codec lemmas of C01. Partial: use_srtp is right exactly when there are as many profiles as bytes in the mki; neither class can be built |
| C93 | OcspCache | `S_Fetch.v`: the exchange over HTTP, with its literals. `P_Fetch.v`: `fetch` by cases; that the network is not used is that the result does not depend on it. Partial: the media type is compared letter by letter |

## 5. Result of `Print Assumptions`

Every property theorem listed in `MANIFEST.json` is reported
"Closed under the global context": no axiom at all, of the standard library or
otherwise. Each `T_*.v` prints this below each theorem during the build.

Hypotheses about external code that appear in theorems (visible in their
statements): `aead_sized` (a sealed record is longer than its plaintext by the
tag), `aead_correct` (opening what was sealed gives it back), `unforgeable` (C48, C49, C53 only:
what opens under the sender's key was sealed by the sender), `hash_sized`,
`hmac_sized` (outputs have the digest's length), `dh_commutes` (C50, C51, C53 only:
the external key exchanges give both sides the same value), `hiding` (`c52_hidden` only:
ciphertexts depend only on the length of the plaintext), `opens_short` (`c61_app` only:
a plaintext is not longer than its record), `unasserting` (C26 only: the
external code does not raise AssertionError). `P_Toy.v`, `T_Sched.v`, `P_IntegToy.v`, `P_AgreeToy.v`, `P_VeilToy.v` and `P_EntireToy.v` prove all of them
for toy oracles, so no theorem is vacuous for that reason.

## 6. Findings

Each of these is a behaviour of the pinned source. Where a theorem proves it,
its name is given.

Socket wrapper: authentication
* **Anybody can take the place of the peer** (`c69_stranger_refuted`). A
  close_notify in clear, the seven bytes 15 03 03 00 02 01 00, sent before the
  handshake, makes the connection `Closed` with both ends open, which counts as
  post handshake and as connected. `with conn.wrap(sock)` then enters its body
  without an exception, `write` sends in clear and `read` returns application
  data received in clear, although the configuration has a trust store. The
  client of the examples sends its request in clear and prints the forged
  response. (`states/__init__.py:37-40`, `states/closed.py`,
  `connection.py:177-185`, `wrapper.py:7-27`.)
  The program `python -m siotls client` shows what the stranger sent and exits
  with 0 (`c73_verified_refuted`).
* `--keylogfile` opens the file and writes nothing to it: neither example sets
  `log_keys` (`c73_keylog`, `c73_keylog_refuted`).
* `--tlscert` and `--tlskey` of a client are checked for readability and then
  ignored (`c73_client_cert`); when the key is not readable the message names
  the certificate.
* On any system but Linux the client works only with `--insecure`
  (`c73_platform`).
* The body also runs when the peer closes the stream during the handshake
  (`c69_eof_refuted`); the connection has failed, writing raises, reading gives
  nothing.

HTTP messages and the example server
* `Content-Length` is the number of characters of the body, not of its octets
  (`c70_length_refuted`; `utils.py:72-97`). Both callers send ASCII.
* A request that is no UTF-8 is answered 400 and then `handle_one` raises
  UnboundLocalError, since `request_line` is only assigned when the decoding
  works (`c70_garbage_refuted`; `simple_server.py:56-77`). The loop around it
  logs the exception and goes on.

Record layer and connection
* A payload that fills a record gets a whole extra chunk of padding, so the
  record exceeds what a conforming peer, including siotls itself, accepts
  (`c04_record_size_refuted`).
* Receiving a close_notify recreates the `Closed` state with both ends
  reopened: after `close_sending_end` the connection can send again
  (`c12_silent_refuted`); before any key exists, application data is then sent
  in the clear (`c09_secret_refuted`), and `is_connected` is true for a server
  which never saw a hello (`c18_is_connected_refuted`).
* `close_receiving_end` on a failed connection makes it a closed one that may
  send (`c11_failed_refuted`); called twice after a truncation it allows
  `send_data` (`c14_cannot_send_refuted`).
* A handshake record that leaves fewer than four bytes to reassemble, or an
  empty handshake record, stops the receive loop although complete records are
  buffered (`c15_all_read_refuted`); the outcome depends on segmentation: a
  ServerHello whose first record holds two bytes stalls the handshake when both
  records arrive together (`c02_split_refuted`). Each call reads a single empty
  handshake record, so a peer that sends several of them per call makes a server
  buffer input without bound before any authentication
  (`c61_unbounded_refuted`).
* A forged record is answered with decrypt_error (`c43_forged_refuted`).
* A received fatal alert is echoed (`c44_silent_refuted`).
* `alerts.RecordOverFlow` does not exist: an over-long record gives
  AttributeError, hence internal_error (`c72_overflow_refuted`).
* Only the length of a protected record is checked, not that of what it holds:
  up to 239 bytes more than the limit are delivered (`c72_inner_refuted`). The
  type outside a protected record is not checked (`c72_outer_refuted`), and an
  empty protected handshake record is accepted (`c72_empty_refuted`).
* change_cipher_spec records are dropped in every state, also after the Finished
  of the peer (`c71_late_refuted`) and before the first ClientHello
  (`c71_early_refuted`).
* For the CCM suites the usage limit is `Ellipsis`; installing keys raises
  TypeError (`c25_derivable_refuted`) and so does failing
  (`c10_alert_refuted`).
* Rekeying is not implemented: after the usage limit the connection can only
  fail.
* The read sequence number advances also when a record does not open. Normally
  the connection then fails, but once the user has closed their sending end the
  alert cannot be sent: `receive_data` raises and the connection stays
  `Connected`. An attacker who replaces a record by rubbish at that point makes
  the next record readable: data is cut out of the middle of the stream
  (`c49_gap_refuted`).

Handshake
* A client does not put the HelloRetryRequest in its transcript, a server does:
  a handshake with a retry cannot succeed (`c24_client_refuted`).
* A client accepts any number of identical HelloRetryRequests
  (`c22_one_retry_refuted`, `c23_client_refuted`).
* The hash of the first ClientHello is computed with whichever hash comes
  first, with the length byte of the negotiated one.
* `ServerWaitFlight2` is abstract: a server that wants client authentication
  raises TypeError (`c18_never_connected`).
* Two compatible endpoints of the library do not understand each other when
  the client has a max_fragment_length below 4096 (`c27_mfl_refuted`: it is never
  offered, so the server pads its records to 4096 bytes), when a
  retry is needed (`c27_retry_refuted`) or when they settle on a CCM suite
  (`c27_ccm_refuted`); a client with a public key or with trusted public keys
  cannot start (`c27_raw_client`).
* A client that received a CertificateRequest raises NotImplementedError at
  Finished.
* An error alert whose level byte says warning is ignored in every state, while
  RFC 8446 section 6 makes it fatal (`c54_warning_ignored`,
  `c54_level_refuted`).
* A server in `ServerWaitFinished` sends application data under the handshake
  keys. A client of the library that receives it fails, since it already reads
  with the application keys; when somebody removes these records, the client
  reads the rest as if it were the beginning, and both ends are connected
  (`c53_early_refuted`).
* The client never sends the max_fragment_length extension it is configured
  with.
* A client with only trusted raw public keys falls back to X.509; raw public
  keys and CRLs raise TypeError.
* An empty key share makes a server send a HelloRetryRequest instead of
  refusing it.
* `for_public_key_oid` offers all three ECDSA schemes for any EC key.
* An empty host name verifies the chain as a client certificate.

Messages
* The length of a host name is that of the name, not of its IDNA encoding: the
  hello of a client connecting to a name with non-ASCII characters cannot be
  read (`c30_idna_refuted`).
* ALPN names that are not printable are dropped when read
  (`c30_alpn_refuted`).
* A pre_shared_key extension cannot be serialized (`c30_psk_refuted`); neither
  can the certificate type extensions, so a client with a public key or trusted
  public keys cannot start.
* A cookie is accepted in a ServerHello (`c32_allowed_refuted`).
* A hello with several extensions of one type is accepted: the last one counts
  (a ClientHello, only when they are equal).
* Two threads that meet the same unknown extension type for the first time (a
  GREASE type, say) both make a class for it; the second one gets AttributeError
  and its handshake fails with internal_error (`c60_race_refuted`). A peer can
  make a process keep up to 65514 such classes for ever.

* Some malformed, and some well-formed, messages are answered with
  internal_error (`c31_refuted`, `c31_connection_refuted`): a hello with
  use_srtp or certificate_authorities (the classes are abstract and cannot be
  built), a ServerHello of TLS 1.2 or earlier, a Certificate before the
  negotiation or with too long a list, a certificate that is not DER, a
  message_hash message, a record of type 0, an oversized heartbeat.

OCSP and HTTP
* The stapled status of the last certificate of a chain is never checked
  (`c46_stapled_refuted`).
* Answers of delegated responders are refused; the signature algorithm of the
  answer must equal the one of the issuer's certificate; RSASSA-PSS is always
  verified with SHA-512; a missing next_update raises TypeError.
* `Content-Length: -1` reads everything the server sends (`c45_size_refuted`).
* In the cache, removed and expired entries stay in the heap and later evict
  the fresh answer for the same request; an existing entry is never refreshed.
* The cache is shared by threads without a lock. Two threads that find the same
  expired answer both delete it: the second handshake fails with KeyError
  (`c59_keyerror_refuted`). A thread that is interrupted between the push on the
  heap and the insertion in the dictionary may leave an entry that is never
  evicted; the dictionary grows without bound (`c59_bound_refuted`).

Messages and records
* Two handshake messages in one record make the connection fail with
  internal_error (`connection.py:282-285`; `c63_together` for all cases,
  `c63_together_refuted` with a witness). RFC 8446 5.1 allows it and common
  servers send EncryptedExtensions to Finished that way.
* A connected endpoint fails with decode_error when the peer sends a
  NewSessionTicket or a KeyUpdate: their `parse_body` is the abstract one, reads
  nothing and leaves the body (`new_session_ticket.py`, `key_update.py`;
  `c64_ticket`, `c64_key_update`, `c64_ticket_refuted`). Common servers send
  tickets unprompted.

Hellos
* After a HelloRetryRequest the client restricts its configuration to what the
  server selected, so the second ClientHello has other cipher_suites and
  supported_groups than the first, which RFC 8446 4.1.2 forbids
  (`wait_server_hello.py:61-65`; `c67_second_refuted`).
* The client does not compare legacy_session_id_echo with what it sent
  (`c66_session_refuted`), accepts a HelloRetryRequest for the very group of its
  key share (`c66_same_group_refuted`) and one without supported_versions
  (`c66_version_refuted`).
* The client accepts answers it did not ask for (`c65_client_refuted`) and does
  not look at extensions of other types (`c65_client_unread`,
  `c65_hello_unread`); RFC 8446 4.2 wants unsupported_extension.
* A server answers a ClientHello with supported_groups but without key_share by
  a HelloRetryRequest; RFC 8446 9.2 wants missing_extension
  (`wait_client_hello.py:290-307`; `c65_retry_refuted`).
* A ClientHello with certificate_authorities, which RFC 8446 4.2.4 lets a client
  send, is answered with internal_error (`c68_authorities_refuted`), and one
  with a certificate status type other than OCSP with unrecognized_name
  (`c68_status_refuted`); a server should ignore both.

Wrapper
* The return value of `socket.send` is ignored: what the socket did not take is
  lost (`c42_write_refuted`).
* `read` gives the same answer for a truncation and for a close_notify
  (`c57_truncation_refuted`); a close_notify without the end of the TCP stream
  does not end `read`, which waits for more (`c57_waits_refuted`), and data sent
  after it is still delivered (`c57_after_refuted`).
* After `close`, a `read` that met a forged record raises, but the next `read`
  goes on with the record after the one that was replaced: a record can be cut
  out of the middle (`c55_again_refuted`, `c49_gap_refuted`).

Negotiated configuration
* The client assigns `nconfig.key_exchanges` instead of `key_exchange`
  (`wait_server_hello.py:114`): its `nconfig.key_exchange` stays None for ever
  (`c75_client_silent`). The server never assigns `signature_algorithm`
  (`c75_server_silent`). Two connected endpoints therefore do not report the
  same (`c75_silence_refuted`). `freeze` is never called; nothing changes the
  object after the handshake nevertheless (`c75_fixed`).

- **C77 (`c77_rekey_refuted`, `c77_close_refuted`, universally `c77_tired`, `c77_worn`, `c77_mute`, `c77_wears`).**
  Changing keys is not implemented, but receive_data asks for it (connection.py:130-131).
  Once an endpoint has written 11862259 records with AES-GCM (1024 less than the
  limit), every further receive_data raises NotImplementedError. The
  data is delivered and the connection stays connected, so the caller sees an
  exception from a call that worked. At the limit itself the exception is a
  StopIteration, nothing can be sent any more, and the connection cannot be
  closed: the close_notify cannot be encrypted either.

* C80: `derive_master_secrets` does not advance the state of the schedule, so it
  returns as often as it is called, installing the keys again with the nonces
  starting from zero: with the same transcript hashes the same key encrypts twice
  with one nonce (`c80_nonces_refuted`). The connection calls it once (C26).

* C82: `SerialIO.limit` pops its limit only when its block completes. After an
  exception that is caught outside the block the limit stays on the stack: data
  beyond it can no longer be read (`c82_limits_refuted`), and an enclosing `limit`
  ends with RuntimeError. In the library no parser goes on after such an
  exception, so connections are not affected.
* C83: `freeze()` is guarded by the flag that it sets: a second call raises
  TypeError (`c83_frozen`). Deleting `_frozen` from an object that is not frozen
  makes every later assignment raise AttributeError (`c83_flag_refuted`). The
  library never calls `freeze()`, so `nconfig` can be changed by its user at any
  time.

* C84: six suites declare the signature OID of RSASSA-PSS and the last one wins,
  so five can never be found by it (`c84_reached_refuted`). An OCSP answer that
  its issuer signed with RSASSA-PSS and SHA-256 or SHA-384 is therefore verified
  with SHA-512 and refused (`c84_ocsp_refuted`). A suite class whose creation
  raises for lack of a `sign_oid` stays in the other two registries
  (`c84_failed_refuted`).

* C85: a type that comes twice in EncryptedExtensions (also ServerHello and
  CertificateRequest) is not refused, unlike in a ClientHello, and the last one
  counts, so that there the order matters (`c85_twice_refuted`). RFC 8446
  section 4.2 forbids such a message.

* C86: a transcript accepts a client's CertificateVerify that no Certificate
  precedes (`c86_loose_refuted`). A message that it refuses may still move the
  place, so that a CertificateRequest that was acceptable no longer is
  (`c86_moved_refuted`; in a connection the error is fatal anyway). `digest()`
  before `post_init()`, that the documentation forbids, is not refused and
  depends on the order of a set (`c86_early_refuted`). `clone()` calls a method
  that hashes do not have and always raises AttributeError (`c86_total`).

* C87: `get_ocsp_url` has a default for a certificate that names no responder,
  but a certificate without the extension authorityInfoAccess raises
  ExtensionNotFound, that nothing catches. A client with an OCSP service cannot
  connect to a server with such a certificate (`c87_client_refuted`), and a
  server with an OCSP service and such a certificate fails every handshake
  with a client that asks for a status (`c87_server_refuted`). At the server
  the request itself is outside of the `try`: a responder that does not answer
  fails the handshake too, instead of leaving the staple out
  (`c87_server_stops`).

* C88: `_verify_revocation` passes the certificate where its serial number is
  expected, so that the lookup raises TypeError. A client that authenticates
  its peer and has a revocation list that is not empty accepts no certificate
  at all, revoked or not: it never gets past the Certificate (`c88_never`), and
  fails with internal_error an honest handshake that it completes without the
  list (`c88_refuted`).

* C89: a client that has a trust store but was given no host name verifies the
  chain for no name at all: it connects to whoever has a certificate that the
  store trusts for clients (`c89_unnamed_refuted`). A host name with a character
  outside of ASCII is refused by `x509.DNSName` with ValueError, so that such a
  client never connects (`c89_ascii`, `c89_international_refuted`); its hello
  cannot be read either (C30). A client with trusted public keys and no trust
  store never connects (`c89_store`): the server's keys fail with TypeError
  and so does `store(None)`.

* C90: a client that is asked for a certificate never connects, whatever
  follows (`c90_never`): at the Finished it raises NotImplementedError and
  fails with internal_error (`c90_refuted`), although it could answer with an
  empty Certificate (RFC 8446 section 4.4.2).

* C91: a good OCSP answer without next_update, which RFC 6960 makes optional,
  is a TypeError (`c91_undated_refuted`); a good answer is refused when the
  certificate of the issuer is itself signed with another algorithm, as for an
  intermediate with an ECDSA key under an RSA root (`c91_algorithm_refuted`);
  a wrong signature is an IndexError when InvalidSignature is raised without a
  text (`c91_signature_refuted`). The first and the last end the connection of
  a client otherwise than with bad_certificate (`c91_client_refuted`).

* C92: UseSRTP.serialize writes the length of the mki, doubled, as the length of
  the profiles (use_srtp.py:47), so that what it writes is wrong unless there
  are as many profiles as bytes in the mki (`c92_srtp_partial`,
  `c92_srtp_refuted`); too many profiles raise nothing (`c92_srtp_long_refuted`). The method cannot be reached today: it should be
  called serialize_body, and without that name the class is abstract, as is
  CertificateAuthorities (`c92_unbuilt_refuted`).

* C93: a responder that writes the media type with other letters, as in
  `application/OCSP-response`, is refused with a RuntimeError
  (`c93_type_refuted`), although names of media types are case-insensitive
  (RFC 9110 section 8.3.1).

## 7. Mutation testing

`seeded/LOG.jsonl` has one line per wrong program tried: the model edited as a
realistic bug would, dependents recompiled in a scratch copy, theorems that no
longer hold listed. Proofs that fail are cut in the scratch copy only, and a
theorem counts as failed when it fails itself or rests on a cut proof.
