{"id": "C01", "title": "Pairwise messages survive any delivery order", "statement": "After two parties hold matching sessions, every message one of them encrypts and the other receives decrypts to exactly the plaintext that was encrypted, the first time it is delivered, whatever the interleaving of sends and deliveries in both directions, with loss, duplication and reordering, as long as the message is not more than 2000 messages ahead in its sending chain and its chain is one of the five most recent the receiver has seen. Otherwise the outcome is the documented exception: DuplicateMessageException for something already delivered, InvalidMessageException for something too far ahead.", "quantifier": "all plaintexts, all schedules of sends and deliveries of any length, all key material", "why_tests_cant": "the schedules are unbounded sequences; a test samples a handful of orderings", "anchors": ["axolotl/sessioncipher.py:SessionCipher.encrypt", "axolotl/sessioncipher.py:SessionCipher.decryptMsg", "axolotl/sessioncipher.py:SessionCipher.getOrCreateChainKey", "axolotl/sessioncipher.py:SessionCipher.getOrCreateMessageKeys", "axolotl/state/sessionstate.py:SessionState"]}
{"id": "C02", "title": "A message is never delivered twice", "statement": "Once decryptMsg or decryptPkmsg has returned a plaintext for a message, decrypting the same message again raises DuplicateMessageException and changes no store.", "quantifier": "all stores, sessions and messages", "why_tests_cant": "must hold for every session history and every message", "anchors": ["axolotl/sessioncipher.py:SessionCipher.decryptMsg", "axolotl/sessioncipher.py:SessionCipher.getOrCreateMessageKeys"]}
{"id": "C03", "title": "A failed decryptMsg changes nothing", "statement": "If decryptMsg raises any exception, the session store, the prekey stores and the identity store are exactly what they were before the call.", "quantifier": "all stores and all messages, genuine or hostile, and every exception", "why_tests_cant": "the hostile inputs are unbounded and every failure point inside the call must be covered", "anchors": ["axolotl/sessioncipher.py:SessionCipher.decryptMsg", "axolotl/sessioncipher.py:SessionCipher.decryptWithSessionRecord"]}
{"id": "C04", "title": "A failed decryptPkmsg changes nothing", "statement": "If decryptPkmsg raises any exception, the session store, the prekey stores and the identity store are exactly what they were before the call.", "quantifier": "all stores and all prekey messages, genuine or hostile, and every exception", "why_tests_cant": "every failure point for every hostile message must be covered", "anchors": ["axolotl/sessioncipher.py:SessionCipher.decryptPkmsg", "axolotl/sessionbuilder.py:SessionBuilder.process"]}
{"id": "C05", "title": "A plaintext is returned only for a message whose MAC checks", "statement": "If decryptMsg or decryptPkmsg returns a plaintext, the last eight bytes of the message are the truncated HMAC of the rest of it (prefixed by both identity keys for version 3) under the MAC key belonging to that message's chain and counter in one of the sessions with that peer, and the plaintext is the CBC decryption of the message body under the matching cipher key.", "quantifier": "all stores, all byte strings presented as messages", "why_tests_cant": "the inputs an attacker may present are all byte strings", "anchors": ["axolotl/protocol/whispermessage.py:WhisperMessage.verifyMac", "axolotl/sessioncipher.py:SessionCipher.decryptWithSessionState"]}
{"id": "C06", "title": "A sender never uses a message key twice, even across crashes", "statement": "Over any sequence of encrypt calls on one session, some of which are interrupted by a crash at an arbitrary point, the (ratchet key, counter) pairs of the ciphertexts returned are pairwise distinct, and counters increase strictly.", "quantifier": "all session states, plaintext sequences and crash points", "why_tests_cant": "crash points and histories cannot be enumerated", "anchors": ["axolotl/sessioncipher.py:SessionCipher.encrypt"]}
{"id": "C07", "title": "At most 2000 keys are skipped for one message", "statement": "A message whose counter is more than 2000 ahead of the receiving chain is refused with InvalidMessageException and costs no derivation; a message at most 2000 ahead is accepted; one decryption adds at most 2000 stored message keys.", "quantifier": "all session states, counters and messages", "why_tests_cant": "every counter value and chain position matters, in particular the boundary", "anchors": ["axolotl/sessioncipher.py:SessionCipher.getOrCreateMessageKeys"]}
{"id": "C08", "title": "A session remembers at most five receiving chains", "statement": "Whatever is received, a session state holds at most five receiving chains, and adding one drops only the oldest when there are already five.", "quantifier": "all session states and histories", "why_tests_cant": "invariant over unbounded histories", "anchors": ["axolotl/state/sessionstate.py:SessionState.addReceiverChain"]}
{"id": "C09", "title": "A session record archives at most forty states, newest first", "statement": "Under every sequence of API calls a stored record has at most forty archived states; archiving puts the former current state first and drops only the oldest when there are already forty.", "quantifier": "all sequences of API calls", "why_tests_cant": "invariant over unbounded histories", "anchors": ["axolotl/state/sessionrecord.py:SessionRecord.promoteState", "axolotl/state/sessionrecord.py:SessionRecord.archiveCurrentState"]}
{"id": "C10", "title": "Both sides of a prekey handshake derive the same keys", "statement": "When one party initialises as Alice from the other's identity key, signed prekey and optional one-time prekey, and the other initialises as Bob from the first's identity key and base key with the matching private keys, Alice's receiving chain is Bob's sending chain, and the root and sending chain Alice derives are the ones Bob derives when her first ratchet key arrives; in particular a shared one-time prekey is used by both or by neither.", "quantifier": "all identity, base, signed prekey, one-time prekey and ratchet key pairs", "why_tests_cant": "algebraic identity over all keys", "anchors": ["axolotl/ratchet/ratchetingsession.py:RatchetingSession.initializeSessionAsAlice", "axolotl/ratchet/ratchetingsession.py:RatchetingSession.initializeSessionAsBob"]}
{"id": "C11", "title": "A prekey bundle leads to a working session", "statement": "After processPreKeyBundle of a genuine bundle containing a one-time prekey, the first encrypted message, serialised and parsed, is decrypted by the other side's decryptPkmsg to the same plaintext; the other side then has a session, trusts the sender's identity, and no longer holds the one-time prekey, and its reply decrypts in turn; any further schedule behaves as in C01.", "quantifier": "all key material, ids, plaintexts and schedules", "why_tests_cant": "unbounded inputs and schedules", "anchors": ["axolotl/sessionbuilder.py:SessionBuilder.processPreKeyBundle", "axolotl/sessioncipher.py:SessionCipher.decryptPkmsg", "axolotl/sessionbuilder.py:SessionBuilder.processV3"]}
{"id": "C12", "title": "A bundle without a one-time prekey leads to a working session", "statement": "After processPreKeyBundle of a genuine bundle that has a signed prekey but no one-time prekey, the first encrypted message, serialised and parsed, is decrypted by the other side.", "quantifier": "all key material and plaintexts", "why_tests_cant": "the optional branch must work for all inputs; the tests never take it across the wire", "anchors": ["axolotl/protocol/prekeywhispermessage.py:PreKeyWhisperMessage.__init__", "axolotl/sessionbuilder.py:SessionBuilder.processV3"]}
{"id": "C13", "title": "Untrusted identities are refused before anything happens", "statement": "If the identity store does not trust the identity key in a bundle, prekey message or key exchange message, the call raises UntrustedIdentityException carrying the peer and the key, and no store changes and no randomness is consumed.", "quantifier": "all stores and all messages", "why_tests_cant": "all stores and messages must be covered", "anchors": ["axolotl/sessionbuilder.py:SessionBuilder.process", "axolotl/sessionbuilder.py:SessionBuilder.processPreKeyBundle", "axolotl/sessionbuilder.py:SessionBuilder.processKeyExchangeMessage"]}
{"id": "C14", "title": "A bundle whose signed prekey is missing or badly signed is refused", "statement": "processPreKeyBundle raises InvalidKeyException and changes no store when the bundle has no signed prekey or the signature over it does not verify under the bundle's identity key; it creates a session only if it does verify.", "quantifier": "all stores and bundles", "why_tests_cant": "tests flip single bits of one signature; the property is about every bundle", "anchors": ["axolotl/sessionbuilder.py:SessionBuilder.processPreKeyBundle", "axolotl/ecc/curve.py:Curve.verifySignature"]}
{"id": "C15", "title": "Messages carry the handshake until it is acknowledged", "statement": "After processPreKeyBundle every encrypt returns a PreKeyWhisperMessage naming the bundle's prekey ids, the base key, and the local identity and registration id, until a message of that session has been decrypted; from then on encrypt returns plain WhisperMessages.", "quantifier": "all sequences of encrypts and decrypts", "why_tests_cant": "history property", "anchors": ["axolotl/sessioncipher.py:SessionCipher.encrypt", "axolotl/state/sessionstate.py:SessionState.clearUnacknowledgedPreKeyMessage"]}
{"id": "C16", "title": "Repeated prekey messages do not rebuild the session", "statement": "A prekey message whose version and base key match the current or an archived session state creates no new session and consumes no prekey; only the message inside it is processed.", "quantifier": "all stores and prekey messages", "why_tests_cant": "all histories", "anchors": ["axolotl/sessionbuilder.py:SessionBuilder.processV3", "axolotl/state/sessionrecord.py:SessionRecord.hasSessionState"]}
{"id": "C17", "title": "A one-time prekey is used once", "statement": "When decryptPkmsg builds a session with a one-time prekey other than the last-resort id 0xFFFFFF, that prekey is gone from the store on return, and any later prekey message naming it that does not belong to an existing session raises InvalidKeyIdException without touching the sessions; the last-resort prekey is never removed.", "quantifier": "all stores and messages", "why_tests_cant": "history property over all messages", "anchors": ["axolotl/sessioncipher.py:SessionCipher.decryptPkmsg", "axolotl/sessionbuilder.py:SessionBuilder.processV3", "axolotl/util/medium.py:Medium.MAX_VALUE"]}
{"id": "C18", "title": "A key exchange leads to a working session", "statement": "When one party's processInitKeyExchangeMessage is answered by the other's processKeyExchangeMessage and the response is processed by the first, both hold matching sessions, whichever base key is smaller, and any further schedule behaves as in C01.", "quantifier": "all key material, sequences, schedules", "why_tests_cant": "both role assignments and all keys", "anchors": ["axolotl/sessionbuilder.py:SessionBuilder.processInitKeyExchangeMessage", "axolotl/sessionbuilder.py:SessionBuilder.processInitiate", "axolotl/sessionbuilder.py:SessionBuilder.processResponse"]}
{"id": "C19", "title": "Exactly one party of a key exchange takes the Alice role", "statement": "For two 32-byte public keys that differ, exactly one of a < b and b < a holds under the key order used to assign roles; the order is irreflexive and transitive; other key lengths raise.", "quantifier": "all pairs and triples of keys", "why_tests_cant": "universally quantified order laws, including keys with high bits set", "anchors": ["axolotl/ratchet/ratchetingsession.py:RatchetingSession.isAlice", "axolotl/ecc/djbec.py:DjbECPublicKey.__lt__"]}
{"id": "C20", "title": "Simultaneous key exchanges converge", "statement": "If both parties initiate before seeing the other's message, and each then processes the other's initiate message and afterwards the other's response, neither raises and both end with matching sessions.", "quantifier": "all key material and both delivery orders", "why_tests_cant": "interleavings of the two exchanges", "anchors": ["axolotl/sessionbuilder.py:SessionBuilder.processInitiate", "axolotl/sessionbuilder.py:SessionBuilder.processResponse"]}
{"id": "C21", "title": "Stale key exchange responses are refused", "statement": "A response that matches no pending exchange by sequence number raises StaleKeyExchangeException, or is ignored if it is flagged as answering a simultaneous initiate; in both cases no store changes.", "quantifier": "all stores and responses", "why_tests_cant": "all sequence numbers and stores", "anchors": ["axolotl/sessionbuilder.py:SessionBuilder.processResponse"]}
{"id": "C22", "title": "Key exchange messages with a bad base key signature change nothing", "statement": "processKeyExchangeMessage of an initiate or matching response message whose base key signature does not verify under its identity key raises InvalidKeyException and changes no store.", "quantifier": "all stores and messages", "why_tests_cant": "all messages", "anchors": ["axolotl/sessionbuilder.py:SessionBuilder.processInitiate", "axolotl/sessionbuilder.py:SessionBuilder.processResponse"]}
{"id": "C23", "title": "Wire messages survive serialise/parse", "statement": "For each of WhisperMessage, PreKeyWhisperMessage, KeyExchangeMessage, SenderKeyMessage and SenderKeyDistributionMessage, parsing the serialisation of a message built from field values gives back the same fields, with an absent prekey id staying absent.", "quantifier": "all field values the constructors accept", "why_tests_cant": "round trip over all values, lengths and optional fields", "anchors": ["axolotl/protocol/whispermessage.py", "axolotl/protocol/prekeywhispermessage.py", "axolotl/protocol/keyexchangemessage.py", "axolotl/protocol/senderkeymessage.py", "axolotl/protocol/senderkeydistributionmessage.py"]}
{"id": "C24", "title": "Stored records survive serialise/parse", "statement": "Serialising and reparsing a SessionRecord (current and archived states with every chain, skipped key and pending item), PreKeyRecord, SignedPreKeyRecord, IdentityKeyPair or SenderKeyRecord yields the same record.", "quantifier": "all record contents", "why_tests_cant": "round trip over all nested values", "anchors": ["axolotl/state/sessionrecord.py:SessionRecord.serialize", "axolotl/state/prekeyrecord.py", "axolotl/state/signedprekeyrecord.py", "axolotl/identitykeypair.py", "axolotl/groups/state/senderkeyrecord.py"]}
{"id": "C25", "title": "Unsupported message versions are refused", "statement": "Each parser looks at the high nibble of the first byte and accepts exactly its supported versions (2 and 3 for WhisperMessage, only 3 elsewhere), whatever follows; older versions raise the legacy error and newer ones the unknown-version error of that parser.", "quantifier": "all byte strings", "why_tests_cant": "all byte strings", "anchors": ["axolotl/protocol/whispermessage.py:WhisperMessage.__init__", "axolotl/protocol/prekeywhispermessage.py:PreKeyWhisperMessage.__init__", "axolotl/protocol/keyexchangemessage.py:KeyExchangeMessage.__init__", "axolotl/protocol/senderkeymessage.py:SenderKeyMessage.__init__"]}
{"id": "C26", "title": "Parsers fail only with the library's own exceptions", "statement": "For every non-empty byte string, parsing it as any of the five message types returns a message or raises one of the library's own exceptions (InvalidMessage, InvalidVersion, LegacyMessage), never an IndexError, ValueError, TypeError or a protobuf error.", "quantifier": "all non-empty byte strings", "why_tests_cant": "all byte strings", "anchors": ["axolotl/protocol/whispermessage.py:WhisperMessage.__init__", "axolotl/protocol/prekeywhispermessage.py:PreKeyWhisperMessage.__init__", "axolotl/protocol/keyexchangemessage.py:KeyExchangeMessage.__init__"]}
{"id": "C27", "title": "HKDF is RFC 5869", "statement": "For version 3, deriveSecrets(ikm, info, L, salt) is the first L bytes of RFC 5869 HKDF-SHA256 with an all-zero 32-byte salt when none or an empty one is given; version 2 differs only in starting the block counter at 0; the output has exactly L bytes and a shorter request is a prefix of a longer one.", "quantifier": "all inputs and output lengths", "why_tests_cant": "tests check three vectors of at most 82 bytes", "anchors": ["axolotl/kdf/hkdf.py:HKDF", "axolotl/kdf/hkdfv3.py", "axolotl/kdf/hkdfv2.py"]}
{"id": "C28", "title": "The symmetric ratchet", "statement": "The n-th message keys of a chain are a function of the chain's starting key and n alone: the cipher key, MAC key and IV are 32, 32 and 16 bytes, they carry the counter n, and stepping the chain advances the index by exactly one.", "quantifier": "all chain keys, versions and n", "why_tests_cant": "all n", "anchors": ["axolotl/ratchet/chainkey.py:ChainKey", "axolotl/kdf/derivedmessagesecrets.py"]}
{"id": "C29", "title": "Group messages survive any delivery order", "statement": "A member that has processed a sender's distribution message decrypts every message the sender encrypted from then on to its plaintext, in any order, exactly once; a second delivery, or a message older than the distribution message, raises DuplicateMessageException and changes nothing.", "quantifier": "all plaintexts, group sizes, schedules of sends, late joins and deliveries", "why_tests_cant": "unbounded schedules", "anchors": ["axolotl/groups/groupcipher.py:GroupCipher", "axolotl/groups/groupsessionbuilder.py:GroupSessionBuilder", "axolotl/groups/state/senderkeystate.py"]}
{"id": "C30", "title": "A group message is accepted only if its signature verifies", "statement": "If GroupCipher.decrypt returns a plaintext, the last 64 bytes of the message verify as a signature over the rest under the signing key of the sender key state with the message's key id; if it raises, the sender key store is unchanged.", "quantifier": "all stores and byte strings", "why_tests_cant": "all byte strings", "anchors": ["axolotl/groups/groupcipher.py:GroupCipher.decrypt", "axolotl/protocol/senderkeymessage.py:SenderKeyMessage.verifySignature"]}
{"id": "C31", "title": "Group operations without a sender key say so", "statement": "GroupCipher.encrypt and decrypt on a name for which nothing is stored raise NoSessionException and change nothing; decrypt of a message with an unknown key id raises InvalidMessageException.", "quantifier": "all stores, names and messages", "why_tests_cant": "all stores and messages", "anchors": ["axolotl/groups/groupcipher.py:GroupCipher.encrypt", "axolotl/groups/groupcipher.py:GroupCipher.decrypt"]}
{"id": "C32", "title": "Group messages too far in the future are refused", "statement": "GroupCipher.decrypt refuses with InvalidMessageException a message whose iteration is more than 2000 ahead of the stored chain.", "quantifier": "all iterations", "why_tests_cant": "all iteration gaps, in particular those beyond any tested value", "anchors": ["axolotl/groups/groupcipher.py:GroupCipher.getSenderKey"]}
{"id": "C33", "title": "A new distribution message takes effect", "statement": "After processing a distribution message, messages the sender encrypts under the state it describes decrypt, also when a state with the same key id was stored before.", "quantifier": "all sender key records and distribution messages", "why_tests_cant": "all record contents", "anchors": ["axolotl/groups/state/senderkeyrecord.py:SenderKeyRecord.addSenderKeyState", "axolotl/groups/state/senderkeyrecord.py:SenderKeyRecord.getSenderKeyState"]}
{"id": "C34", "title": "Prekey ids are valid, consecutive and distinct", "statement": "generatePreKeys(start, count) returns count records whose ids are start, start+1, ... wrapping from 0xFFFFFE back to 1, so always in 1..0xFFFFFE (never 0 nor the last-resort id), and pairwise distinct when count is at most 0xFFFFFE.", "quantifier": "all start and count values", "why_tests_cant": "all starts and counts including the wrap-around", "anchors": ["axolotl/util/keyhelper.py:KeyHelper.generatePreKeys"]}
{"id": "C35", "title": "Generated registration and key ids are in range", "statement": "generateRegistrationId is in 1..16380, or 1..2147483646 with extended range, and generateSenderKeyId in 0..2147483646, for every outcome of the random source.", "quantifier": "all random outcomes", "why_tests_cant": "all outcomes", "anchors": ["axolotl/util/keyhelper.py:KeyHelper.generateRegistrationId", "axolotl/util/keyhelper.py:KeyHelper.generateSenderKeyId"]}
{"id": "C36", "title": "Signed prekeys are correctly signed", "statement": "generateSignedPreKey returns a record with the given id whose signature verifies over its serialised public key under the identity key, and a bundle made from it is accepted by processPreKeyBundle.", "quantifier": "all identity keys, ids and random outcomes", "why_tests_cant": "all keys", "anchors": ["axolotl/util/keyhelper.py:KeyHelper.generateSignedPreKey"]}
{"id": "C37", "title": "Sender key names and addresses identify their parts", "statement": "Two SenderKeyNames (or AxolotlAddresses) are equal exactly when their parts are, equal ones hash alike, and distinct ones have distinct serialised forms.", "quantifier": "all names, groups and device ids", "why_tests_cant": "injectivity over all strings", "anchors": ["axolotl/groups/senderkeyname.py:SenderKeyName", "axolotl/axolotladdress.py:AxolotlAddress"]}
{"id": "C38", "title": "Byte utilities invert each other", "statement": "ByteUtil.split of a combination gives the parts back, slices of the stated lengths concatenate to the input; highBitsToInt and lowBitsToInt recover the two nibbles packed by intsToByteHighAndLow; intToByteArray writes the big-endian value mod 2^32 at the offset and nothing else.", "quantifier": "all byte strings, lengths, nibbles, values and offsets", "why_tests_cant": "universally quantified laws", "anchors": ["axolotl/util/byteutil.py:ByteUtil"]}
{"id": "C39", "title": "Padding and CBC are inverted exactly", "statement": "AESCipher.decrypt(AESCipher.encrypt(m)) is m for every m including lengths that are a multiple of the block size; the ciphertext is a whole number of blocks and longer than m; a body that is not a positive whole number of blocks, or ends in invalid padding, raises.", "quantifier": "all plaintexts, keys, IVs", "why_tests_cant": "all lengths", "anchors": ["axolotl/sessioncipher.py:AESCipher"]}
{"id": "C40", "title": "Peers and devices are isolated", "statement": "No call for one (recipient, device) reads or changes the session of another; group calls for one name do not change the record of another.", "quantifier": "all stores and calls", "why_tests_cant": "frame property over all calls", "anchors": ["axolotl/sessioncipher.py:SessionCipher", "axolotl/sessionbuilder.py:SessionBuilder", "axolotl/groups/groupcipher.py:GroupCipher"]}
{"id": "C41", "title": "decryptPkmsg is crash safe", "statement": "If decryptPkmsg crashes at any point, either the message can be delivered again and decrypts to the same plaintext, or it had been durably consumed and a second delivery raises DuplicateMessageException; the one-time prekey is never lost before the session that uses it is stored.", "quantifier": "all crash points, stores and messages", "why_tests_cant": "crash points", "anchors": ["axolotl/sessioncipher.py:SessionCipher.decryptPkmsg"]}
{"id": "C42", "title": "Used message keys are erased", "statement": "After decryptMsg returns, no state stored for the peer still contains the message key that decrypted the message, nor a chain key from which it can be stepped to.", "quantifier": "all sessions and messages", "why_tests_cant": "forward secrecy must hold for all histories", "anchors": ["axolotl/sessioncipher.py:SessionCipher.getOrCreateMessageKeys", "axolotl/state/sessionstate.py:SessionState.removeMessageKeys"]}
{"id": "C43", "title": "Old sessions keep working and are promoted", "statement": "decryptMsg uses the first of the current and archived states, newest first, that does not refuse the message with InvalidMessageException; if an archived state decrypts it, that state becomes current, the former current state is archived first, and the rest keep their order; if all refuse, InvalidMessageException is raised.", "quantifier": "all session records and messages", "why_tests_cant": "all record contents", "anchors": ["axolotl/sessioncipher.py:SessionCipher.decryptWithSessionRecord", "axolotl/state/sessionrecord.py:SessionRecord.promoteState"]}
{"id": "C44", "title": "Sessions and messages of different versions do not mix", "statement": "A message whose version differs from the session's version is refused with InvalidMessageException by that session state, and a state without a sending chain refuses every message likewise.", "quantifier": "all states and messages", "why_tests_cant": "all states and messages", "anchors": ["axolotl/sessioncipher.py:SessionCipher.decryptWithSessionState"]}
{"id": "C45", "title": "Concurrent encrypts on one session use distinct keys", "statement": "Two encrypt calls for the same peer running concurrently, interleaved at their store accesses, return ciphertexts with distinct (ratchet key, counter) pairs.", "quantifier": "all interleavings", "why_tests_cant": "interleavings", "anchors": ["axolotl/sessioncipher.py:SessionCipher.encrypt", "axolotl/state/sessionstore.py:SessionStore"]}
{"id": "C46", "title": "Decrypting without a session says so", "statement": "decryptMsg for a peer without a stored session raises NoSessionException and changes nothing, and so does encrypt.", "quantifier": "all stores, messages and plaintexts", "why_tests_cant": "all stores", "anchors": ["axolotl/sessioncipher.py:SessionCipher.decryptMsg", "axolotl/sessioncipher.py:SessionCipher.encrypt"]}
{"id": "C47", "title": "Counters never wrap", "statement": "Encrypting with the last 32-bit counter value raises and leaves the session as it was, instead of reusing a counter.", "quantifier": "all sessions", "why_tests_cant": "the state is unreachable in a test (four billion messages)", "anchors": ["axolotl/sessioncipher.py:SessionCipher.encrypt", "axolotl/state/sessionstate.py:SessionState.setSenderChainKey"]}
{"id": "C48", "title": "A hostile prekey message cannot lock out the real peer", "statement": "If a prekey message fails to decrypt, a genuine prekey message that would have been decrypted before it is still decrypted after it.", "quantifier": "all stores, all hostile messages, all genuine messages", "why_tests_cant": "all hostile messages", "anchors": ["axolotl/sessionbuilder.py:SessionBuilder.process", "axolotl/sessioncipher.py:SessionCipher.decryptPkmsg"]}
{"id": "C49", "title": "No message is decrypted twice in any history", "statement": "Once a device has decrypted a message, no later sequence of API calls, whatever messages an attacker replays in it, leads to a state in which the same message is decrypted again.", "quantifier": "all histories of API calls, including replayed handshake messages", "why_tests_cant": "needs particular interleavings of key exchanges, old messages and replays", "anchors": ["axolotl/sessionbuilder.py:SessionBuilder.processInitiate", "axolotl/sessioncipher.py:SessionCipher.decryptWithSessionRecord"]}
{"id": "C50", "title": "No message key encrypts two messages in any history", "statement": "Over any sequence of API calls of a device with fresh randomness, no two ciphertexts returned by encrypt for one peer have the same ratchet key and counter, whatever handshake messages are replayed to it.", "quantifier": "all histories of API calls, including replayed handshake messages", "why_tests_cant": "needs particular interleavings of key exchanges, old messages and replays", "anchors": ["axolotl/sessionbuilder.py:SessionBuilder.processInitiate", "axolotl/sessioncipher.py:SessionCipher.encrypt"]}
{"id": "C51", "title": "Calls with one durable effect are atomic under crashes", "statement": "If the process dies at any point during encrypt, decryptMsg, processInitKeyExchangeMessage or a group call, the stores are exactly those of before the call or exactly those of the completed call.", "quantifier": "all inputs, all stores, all crash points", "why_tests_cant": "tests run calls to completion; the crash point and stores range over an unbounded set", "anchors": ["axolotl/sessioncipher.py:SessionCipher.encrypt", "axolotl/sessioncipher.py:SessionCipher.decryptMsg", "axolotl/sessionbuilder.py:SessionBuilder.processInitKeyExchangeMessage", "axolotl/groups/groupcipher.py:GroupCipher.encrypt", "axolotl/groups/groupcipher.py:GroupCipher.decrypt"]}
{"id": "C52", "title": "Handshake calls are atomic under crashes", "statement": "If the process dies at any point during processPreKeyBundle, processKeyExchangeMessage or decryptPkmsg, the stores are exactly those of before the call or exactly those of the completed call.", "quantifier": "all inputs, all stores, all crash points", "why_tests_cant": "tests run calls to completion; the crash point and stores range over an unbounded set", "anchors": ["axolotl/sessionbuilder.py:SessionBuilder.processPreKeyBundle", "axolotl/sessionbuilder.py:SessionBuilder.processInitiate", "axolotl/sessioncipher.py:SessionCipher.decryptPkmsg"]}
{"id": "C53", "title": "A group sender never repeats an iteration", "statement": "Of any two messages that GroupCipher.encrypt returns for one sender key name on one device, the later one has the same key id and a larger iteration, whatever calls, completed or cut short by a crash, lie between.", "quantifier": "all sequences of API calls of one device, including crashed ones", "why_tests_cant": "histories and crash points are unbounded", "anchors": ["axolotl/groups/groupcipher.py:GroupCipher.encrypt", "axolotl/groups/state/senderkeystate.py:SenderKeyState.setSenderChainKey"]}
{"id": "C54", "title": "A group message is decrypted once", "statement": "Once GroupCipher.decrypt has returned a plaintext, decrypting the same message again raises DuplicateMessageException and changes nothing, after any further calls including repeated distribution messages; no other message with its key id and iteration is accepted either.", "quantifier": "all sequences of API calls of one device, including crashed ones", "why_tests_cant": "needs all histories, including repeated distribution messages", "anchors": ["axolotl/groups/groupcipher.py:GroupCipher.decrypt", "axolotl/groups/groupcipher.py:GroupCipher.getSenderKey", "axolotl/groups/groupsessionbuilder.py:GroupSessionBuilder.process"]}
{"id": "C55", "title": "Used group message keys are erased", "statement": "After GroupCipher.decrypt has returned a plaintext, no state of the stored sender key record can produce the message key of that message again, after any further calls.", "quantifier": "all sequences of API calls of one device, including crashed ones", "why_tests_cant": "needs all histories, including repeated distribution messages", "anchors": ["axolotl/groups/groupcipher.py:GroupCipher.getSenderKey", "axolotl/groups/state/senderkeyrecord.py:SenderKeyRecord.addSenderKeyState"]}
{"id": "C56", "title": "Skipped group message keys are bounded", "statement": "A sender key state never stores more than 2000 skipped message keys.", "quantifier": "all sequences of API calls of one device, including crashed ones", "why_tests_cant": "needs messages far ahead of the chain in arbitrary number", "anchors": ["axolotl/groups/groupcipher.py:GroupCipher.getSenderKey", "axolotl/groups/state/senderkeystate.py:SenderKeyState.addSenderMessageKey"]}
{"id": "C57", "title": "Sender key states are bounded", "statement": "A sender key record holds a bounded number of states however many distribution messages are processed.", "quantifier": "all sequences of API calls of one device, including crashed ones", "why_tests_cant": "unbounded number of distribution messages", "anchors": ["axolotl/groups/groupsessionbuilder.py:GroupSessionBuilder.process", "axolotl/groups/state/senderkeyrecord.py:SenderKeyRecord.addSenderKeyState"]}
{"id": "C58", "title": "Creating a sender key is idempotent", "statement": "After GroupSessionBuilder.create returned a distribution message, calling it again at once returns the same message and changes nothing.", "quantifier": "all stores and all random outcomes", "why_tests_cant": "stores range over an unbounded set", "anchors": ["axolotl/groups/groupsessionbuilder.py:GroupSessionBuilder.create"]}
{"id": "C59", "title": "Concurrent group encrypts use distinct keys", "statement": "Two GroupCipher.encrypt calls for the same name running concurrently, interleaved at their store accesses, return messages with distinct iterations.", "quantifier": "all interleavings", "why_tests_cant": "interleavings", "anchors": ["axolotl/groups/groupcipher.py:GroupCipher.encrypt"]}
{"id": "C60", "title": "Concurrent deliveries of one message are accepted once", "statement": "Of two decrypt calls for the same message running concurrently, interleaved at their store accesses, at most one returns the plaintext; for sessions and for groups.", "quantifier": "all interleavings", "why_tests_cant": "interleavings", "anchors": ["axolotl/sessioncipher.py:SessionCipher.decryptMsg", "axolotl/groups/groupcipher.py:GroupCipher.decrypt"]}
{"id": "C61", "title": "Only protocol version 3 is used", "statement": "In every history of a device that starts without sessions, every stored session state that was set up is of version 3, every message sent starts with byte 0x33, and every message accepted is of version 3, although parsers let version 2 pass.", "quantifier": "all histories of public calls including killed calls; all messages", "why_tests_cant": "needs every history and every message", "anchors": ["axolotl/sessioncipher.py:SessionCipher.decryptWithState", "axolotl/sessionbuilder.py:SessionBuilder.processV3", "axolotl/state/sessionstate.py:SessionState.getSessionVersion"]}
{"id": "C62", "title": "deleteAllSessions deletes all sessions of a recipient", "statement": "InMemorySessionStore.deleteAllSessions(r) returns normally and leaves no session of r and all sessions of others.", "quantifier": "all stores and recipients", "why_tests_cant": "one test with one device cannot show it", "anchors": ["axolotl/tests/inmemorysessionstore.py:InMemorySessionStore.deleteAllSessions"]}
{"id": "C63", "title": "removeSignedPreKey removes the signed prekey", "statement": "InMemoryAxolotlStore.removeSignedPreKey(i) removes exactly the signed prekey i.", "quantifier": "all stores and ids", "why_tests_cant": "never called by tests", "anchors": ["axolotl/tests/inmemoryaxolotlstore.py:InMemoryAxolotlStore.removeSignedPreKey", "axolotl/tests/inmemorysignedprekeystore.py:InMemorySignedPreKeyStore.removeSignedPreKey"]}
{"id": "C64", "title": "getSubDeviceSessions lists each device once", "statement": "After any sequence of store operations getSubDeviceSessions(r) lists exactly the devices for which containsSession holds, without repetition.", "quantifier": "all operation sequences", "why_tests_cant": "unbounded sequences", "anchors": ["axolotl/tests/inmemorysessionstore.py:InMemorySessionStore.getSubDeviceSessions"]}
{"id": "C65", "title": "A session store returns what was stored last", "statement": "After any sequence of store and delete operations loadSession returns the record stored last for that address, with the fresh flag cleared, or a fresh record if there is none; the maps used in the rest of the model behave like this store.", "quantifier": "all operation sequences and records", "why_tests_cant": "unbounded sequences", "anchors": ["axolotl/tests/inmemorysessionstore.py:InMemorySessionStore.loadSession"]}
{"id": "C66", "title": "A trusted identity never changes", "statement": "Once an identity is trusted for a recipient, no sequence of public calls with any arguments, finished or killed, and no two concurrent calls, changes it.", "quantifier": "all call sequences, arguments, kill points, interleavings", "why_tests_cant": "attacker chooses the arguments", "anchors": ["axolotl/sessionbuilder.py:SessionBuilder.processPreKeyBundle", "axolotl/sessionbuilder.py:SessionBuilder.process"]}
{"id": "C67", "title": "All sessions with a peer are with its trusted identity", "statement": "Every stored state with a remote identity, current or archived, has the identity trusted for that recipient.", "quantifier": "all histories of public calls", "why_tests_cant": "needs all histories", "anchors": ["axolotl/sessionbuilder.py:SessionBuilder.processPreKeyBundle", "axolotl/sessionbuilder.py:SessionBuilder.processResponse"]}
{"id": "C68", "title": "Of two first contacts with different identities one is refused", "statement": "Two bundles for one recipient with different identities, processed one after the other or concurrently, are not both accepted.", "quantifier": "all interleavings and bundles", "why_tests_cant": "interleavings", "anchors": ["axolotl/sessionbuilder.py:SessionBuilder.processPreKeyBundle"]}
{"id": "C69", "title": "A session that can send stays able to send", "statement": "encrypt succeeds exactly if the current state has a sending chain whose counter is not exhausted; a refused call changes nothing.", "quantifier": "all histories of public calls, also calls that die half-way, and all plaintexts", "why_tests_cant": "needs an invariant over all histories: every field that encrypt reads is set in every state that can arise", "anchors": ["axolotl/sessioncipher.py:SessionCipher.encrypt"]}
{"id": "C70", "title": "Calls raise only the library's exceptions", "statement": "Whatever message or bundle arrives, decrypting or processing it raises only exceptions of the library.", "quantifier": "all histories, messages and bundles", "why_tests_cant": "ranges over all malformed messages in all session states", "anchors": ["axolotl/sessioncipher.py:SessionCipher.decryptMsg", "axolotl/sessioncipher.py:SessionCipher.decryptPkmsg", "axolotl/sessionbuilder.py:SessionBuilder.processPreKeyBundle", "axolotl/sessionbuilder.py:SessionBuilder.processKeyExchangeMessage", "axolotl/sessionbuilder.py:SessionBuilder.processInitKeyExchangeMessage"]}
{"id": "C71", "title": "Stored sessions stay readable", "statement": "Every session record that the calls have stored can be loaded again.", "quantifier": "all histories of public calls with any messages, also calls that die half-way", "why_tests_cant": "needs an invariant over all histories: every stored field fits its protobuf type", "anchors": ["axolotl/state/sessionrecord.py:SessionRecord", "axolotl/state/sessionstate.py:SessionState"]}
{"id": "C72", "title": "A decryption changes the session exactly as the double ratchet says", "statement": "After a successful decryption, the first session state that knows the message is the current one and the others keep their order. In its new state, the receiving chain of the message has moved past the message, with the skipped keys stored, or has lost the one stored key it used. For a new ratchet key, the receiving chain, root key and sending chain are those of one DH ratchet step with a key pair drawn in the call, five receiving chains are kept, and the number of the last sent message is noted. No other field changes, except that the handshake is no longer repeated. A prekey message that belongs to no session puts the X3DH session of its keys in front first.", "quantifier": "all messages, all states reached by public calls, all primitives that obey the crypto laws", "why_tests_cant": "the tests look at decrypted plaintexts only; a wrong field of the new state shows up messages later, or never", "anchors": ["axolotl/sessioncipher.py:SessionCipher.decryptMsg", "axolotl/sessioncipher.py:SessionCipher.decryptPkmsg", "axolotl/sessioncipher.py:SessionCipher.getOrCreateChainKey", "axolotl/sessioncipher.py:SessionCipher.getOrCreateMessageKeys", "axolotl/ratchet/rootkey.py:RootKey.createChain", "axolotl/ratchet/ratchetingsession.py:RatchetingSession.initializeSessionAsBob"]}
{"id": "C73", "title": "An encryption sends exactly what the sending chain says and moves it one step", "statement": "A successful encryption sends the message with the ratchet key, number and previous counter of the session, with body and MAC under the keys of the chain key, wrapped with the details of the handshake as long as that is pending. It replaces the chain key by the next one, and changes nothing else. The first message after a DH ratchet step has the ratchet key drawn in the step, number 0, and as previous counter the number of the last message of the chain before.", "quantifier": "all plaintexts, all worlds, all primitives that obey the crypto laws", "why_tests_cant": "the previous counter and the unchanged fields are not read by the library's receiver, so no test of two such parties notices a wrong one", "anchors": ["axolotl/sessioncipher.py:SessionCipher.encrypt", "axolotl/sessioncipher.py:SessionCipher.getOrCreateChainKey", "axolotl/state/sessionstate.py:SessionState.setSenderChainKey", "axolotl/state/sessionstate.py:SessionState.setPreviousCounter"]}
{"id": "C74", "title": "A handshake sets up exactly the session of its keys and nothing else", "statement": "A processed bundle, a started, answered or ended key exchange stores exactly the session that X3DH gives for the keys of both parties, with the key pairs drawn in the call, in front of the archived ones; it remembers the identity of the peer; it sends exactly the message with these keys, signed; the role follows from the order of the base keys. The start of an exchange only notes its number and keys. Nothing else in the stores changes.", "quantifier": "all bundles and key exchange messages, all states reached by public calls, all primitives that obey the crypto laws", "why_tests_cant": "the tests see that two parties can talk; they cannot see a key that both sides derive wrongly in the same way, or a field or store that is changed in passing", "anchors": ["axolotl/sessionbuilder.py:SessionBuilder.processPreKeyBundle", "axolotl/sessionbuilder.py:SessionBuilder.processInitKeyExchangeMessage", "axolotl/sessionbuilder.py:SessionBuilder.processInitiate", "axolotl/sessionbuilder.py:SessionBuilder.processResponse", "axolotl/ratchet/ratchetingsession.py:RatchetingSession.initializeSession"]}
{"id": "C75", "title": "Group calls do exactly what the sender key protocol says", "statement": "decrypt returns a plaintext exactly when the first state with the key id of the message has the key that signed it, that state still holds the message key of the iteration, and the body decrypts under it; that state then gives up the key, or moves past the iteration and stores the keys it skipped, and nothing else changes. encrypt sends the next iteration of the first state, signed with its key, and moves it one step. create distributes the first state as it is, or draws id, chain key and signing key for a new one. process appends a state with the contents of the message.", "quantifier": "all messages, names, plaintexts and worlds, all primitives that obey the crypto laws", "why_tests_cant": "the tests see that members can read; they cannot see a state that moves too far, a key kept in passing, or a derivation that all members do wrongly in the same way", "anchors": ["axolotl/groups/groupcipher.py:GroupCipher.decrypt", "axolotl/groups/groupcipher.py:GroupCipher.encrypt", "axolotl/groups/groupcipher.py:GroupCipher.getSenderKey", "axolotl/groups/groupsessionbuilder.py:GroupSessionBuilder.create", "axolotl/groups/groupsessionbuilder.py:GroupSessionBuilder.process", "axolotl/groups/ratchet/senderchainkey.py:SenderChainKey", "axolotl/groups/ratchet/sendermessagekey.py:SenderMessageKey"]}
{"id": "C76", "title": "Group calls fail exactly in the listed cases, with the listed exceptions", "statement": "Whatever happened before, every stored sender key record can be read. Making a distribution message never fails, and processing one that could be read never fails. decrypt raises NoSession without a record, AssertionError for no bytes, InvalidMessage for an unreadable, unknown, forged or garbled message, DuplicateMessage for a signed message whose key is gone, and ValueError only for a signing key of the wrong length, fewer than 64 bytes, or the last iteration. encrypt raises NoSession without a record and ValueError only without a private key or at the last iteration. A failed call changes no store.", "quantifier": "all byte strings, all histories of public calls that start without sender keys, with any number of calls in flight and crashes included, all primitives that obey the crypto laws", "why_tests_cant": "a test tries a few broken messages; that no other exception can come out of any history and any bytes needs an invariant of the stored records", "anchors": ["axolotl/groups/groupcipher.py:GroupCipher.decrypt", "axolotl/groups/groupcipher.py:GroupCipher.encrypt", "axolotl/groups/groupsessionbuilder.py:GroupSessionBuilder", "axolotl/protocol/senderkeymessage.py:SenderKeyMessage", "axolotl/groups/state/senderkeystate.py:SenderKeyState"]}
{"id": "C77", "title": "Concurrent calls for other peers and groups do not influence a call", "statement": "While a call for one peer device runs, any number of calls elsewhere may begin, make store accesses, end or die between any two of its accesses. Elsewhere means: any group, any other peer, or another device of the same peer if the call does not touch the peer's identity. The result of the call, the session of the peer device and the trusted identity of the peer are those of the same call made alone, with the random outcomes it drew and the prekeys that were not yet removed when it looked. The same holds for group calls and other sender key names.", "quantifier": "all calls, all sets of calls in flight, all interleavings of their store accesses, all stores, all primitives", "why_tests_cant": "the interleavings of any number of calls cannot be enumerated; a test runs one thread or a few schedules", "anchors": ["axolotl/sessioncipher.py:SessionCipher", "axolotl/sessionbuilder.py:SessionBuilder", "axolotl/groups/groupcipher.py:GroupCipher", "axolotl/groups/groupsessionbuilder.py:GroupSessionBuilder"]}
{"id": "C78", "title": "One call at a time for each peer device is enough to never use a message key twice", "statement": "If the calls for one peer device are made one at a time, no two ciphertexts for it show the same ratchet key and counter, whatever calls for other peers and groups are in flight all the time and whichever calls die half-way.", "quantifier": "all histories from the first contact on in which no key exchange is finished twice, all interleavings with calls elsewhere, all primitives that obey the crypto laws, all random outcomes that give different keys", "why_tests_cant": "needs all interleavings of all histories; reuse of a key shows only in the relation between two outputs", "anchors": ["axolotl/sessioncipher.py:SessionCipher.encrypt", "axolotl/sessioncipher.py:SessionCipher.decryptMsg", "axolotl/sessioncipher.py:SessionCipher.decryptPkmsg", "axolotl/sessionbuilder.py:SessionBuilder.processPreKeyBundle"]}
{"id": "C79", "title": "One call at a time for each sender key name is enough for group messages", "statement": "If the calls for one sender key name are made one at a time, a sender never uses an iteration twice and a member never decrypts a group message twice, whatever session calls and calls for other names are in flight all the time and whichever calls die half-way.", "quantifier": "all histories of public calls, all interleavings with calls elsewhere, all messages, all primitives that obey the crypto laws", "why_tests_cant": "needs all interleavings of all histories; C59 and C60 show that overlapping calls for one name do repeat iterations and messages", "anchors": ["axolotl/groups/groupcipher.py:GroupCipher.encrypt", "axolotl/groups/groupcipher.py:GroupCipher.decrypt", "axolotl/groups/groupsessionbuilder.py:GroupSessionBuilder"]}
{"id": "C80", "title": "A recorded key exchange message cannot replace a session", "statement": "A key exchange message that a device has processed does not change its sessions when it arrives again.", "quantifier": "all worlds a device can get to, all messages, any number of repetitions", "why_tests_cant": "the tests process each key exchange message once; losing the session takes 41 repetitions", "anchors": ["axolotl/sessionbuilder.py:SessionBuilder.processInitiate", "axolotl/sessionbuilder.py:SessionBuilder.processResponse", "axolotl/state/sessionrecord.py:SessionRecord.promoteState"]}
{"id": "C81", "title": "A key exchange message is accepted only as its sender made it", "statement": "If processing a key exchange message changes the stored session, every field of the message is covered by the sender's signature.", "quantifier": "all worlds a device can get to, all messages", "why_tests_cant": "all ways to alter a message", "anchors": ["axolotl/sessionbuilder.py:SessionBuilder.processInitiate", "axolotl/sessionbuilder.py:SessionBuilder.processResponse", "axolotl/protocol/keyexchangemessage.py:KeyExchangeMessage"]}
{"id": "C82", "title": "A session stores a bounded number of skipped message keys", "statement": "The number of message keys that a session keeps for messages not yet received is bounded by a constant, so a peer cannot make the stored session grow without limit.", "quantifier": "for all primitives, for every reachable world, every session with a receiving chain and every number k of further messages", "why_tests_cant": "the limit of 2000 is per message; that many messages together pass any limit is a statement about unboundedly many messages", "anchors": ["axolotl/sessioncipher.py:166-184", "axolotl/state/sessionstate.py:170-182"]}
{"id": "C83", "title": "A prekey message is accepted only as its sender made it", "statement": "If any field of a prekey message that would be accepted is changed on the way, the message is refused.", "quantifier": "for all primitives, worlds, peers, accepted prekey messages and changed values of the fields", "why_tests_cant": "the tests send unaltered messages; the claim is about all alterations", "anchors": ["axolotl/protocol/prekeywhispermessage.py:22-77", "axolotl/sessionbuilder.py:32-93"]}
{"id": "C84", "title": "A conversation is not disturbed by refused messages and other activity", "statement": "Between the sends and deliveries of a conversation the two devices may do anything else: use the sessions of other peers and of other devices of the same peer, use groups, die in the middle of such calls, receive forged, altered or foreign messages, bundles and key exchange messages in the name of the peer that they refuse, and rewrite their prekey stores. Every message of the conversation is still delivered exactly as in the ideal conversation: once, with its plaintext, in any order.", "quantifier": "all crypto oracles that satisfy the laws, all matching sessions (or a bundle and a device that holds its prekeys), all schedules of sends and deliveries, all sequences of other calls with all arguments in between", "why_tests_cant": "Tests play one conversation on two devices that do nothing else; the interleavings of a schedule with arbitrary calls and arbitrary hostile input are not enumerable.", "anchors": ["axolotl/sessioncipher.py", "axolotl/sessionbuilder.py", "axolotl/groups/groupcipher.py", "axolotl/groups/groupsessionbuilder.py"]}
{"id": "C85", "title": "All sessions between two devices keep working side by side", "statement": "Two devices start without a session. Each may at any time start a new session with a bundle of the other, also while messages of earlier sessions are under way and also both at once. A message belongs to the session in which it was sent. It is decrypted to its plaintext whenever it arrives, provided its session already exists at the receiver or it is a prekey message, it was not received before, its chain is one of the five most recent of its session and it is at most 2000 ahead of its chain; otherwise it is refused with DuplicateMessage or InvalidMessage and nothing changes. The session in which a message was accepted last, or which was started last, is the one used for sending. This holds for up to 41 sessions, unless the MAC of a message fits by accident a key of a session or of a dropped chain to which it does not belong.", "quantifier": "all lawful crypto, worlds, bundles with distinct one-time prekeys, and schedules of sends, deliveries (any earlier message, any number of times) and session starts by both sides, with distinct keys drawn and fewer than 2^32 moves", "why_tests_cant": "The tests have no case in which both devices start a session at once and none in which messages of an earlier session come after a new one was started; sessions, chains and orders combine without bound.", "anchors": ["axolotl/sessioncipher.py:63-185", "axolotl/state/sessionrecord.py", "axolotl/sessionbuilder.py"]}
{"id": "C86", "title": "A public key is read exactly where it is encoded", "statement": "Curve.decodePoint(bytes, offset) returns the 32 bytes after the type byte 5 at the offset whenever they are there, whatever precedes or follows them, and refuses everything else with InvalidKeyException. What serialize() gives is read again.", "quantifier": "all byte strings, all offsets, all keys", "why_tests_cant": "Tests decode a few generated keys at offset 0; strings with other bytes around a key and strings that are too short are unbounded in number.", "anchors": ["axolotl/ecc/curve.py:32-45", "axolotl/ecc/djbec.py:14-18", "axolotl/identitykey.py:7-11"]}
{"id": "C87", "title": "Hexadecimal strings are decoded exactly", "statement": "HexUtil.decodeHex returns the bytes that the string writes with two hexadecimal digits each, in lower or upper case. It refuses exactly the strings of odd length and those with a character that is no digit, with binascii.Error (a ValueError). Decoding the usual notation of a byte string gives the byte string.", "quantifier": "all byte strings", "why_tests_cant": "No test calls it; strings are unbounded in number.", "anchors": ["axolotl/util/hexutil.py:5-12"]}
{"id": "C88", "title": "An installed device can be contacted", "statement": "The install procedure of the README (identity key, registration id, prekeys, signed prekey) succeeds and yields the number of prekeys asked for, and a bundle can be made with each of them. Another installed device that processes such a bundle accepts it, and whatever the two then send, in whatever order it arrives, behaves as an ideal conversation. If any number of others each use a prekey of their own and send a first message, all messages are read, each sender gets a session and is trusted, exactly the used prekeys are removed and the others are kept.", "quantifier": "all random sources, start ids, numbers of prekeys up to 16777214, signed prekey ids, prekeys chosen, schedules, numbers of contacts, plaintexts; under fresh keys (all drawn public keys differ)", "why_tests_cant": "The tests build single prekeys by hand and never run the install procedure; numbers of prekeys and contacts, wrap-around of ids and schedules are unbounded.", "anchors": ["README.md:42-60", "axolotl/util/keyhelper.py:14-90", "axolotl/sessionbuilder.py:37-190", "axolotl/tests/test_sessionbuilder.py:63-65"]}
{"id": "C89", "title": "Everybody in a group can send", "statement": "Several devices use several channels at once, a channel being a sender key name and the device that sends under it; a device may send on several channels. Whatever distribution messages and group messages they make and in whatever order these arrive, every device sees on a channel exactly what the ideal group of that channel shows: each message after joining once, with its plaintext; duplicates and older ones as such; no session before joining. A sender that receives its own messages is told they are duplicates and is not disturbed by its own distribution message. Other calls, killed calls and refused group messages in between change nothing.", "quantifier": "all numbers of devices and channels with distinct names, all schedules of fewer than 2^32 actions, all activity in between, all random sources", "why_tests_cant": "The tests have one sender and one receiver per group; interference between channels on one device depends on the interleaving.", "anchors": ["axolotl/groups/groupcipher.py:17-105", "axolotl/groups/groupsessionbuilder.py:12-44", "axolotl/groups/senderkeyname.py:3-22"]}
{"id": "C90", "title": "Received messages are read exactly as their encoding says", "statement": "A byte string is accepted as a message of one of the five kinds exactly if it consists of the version byte, an encoding of fields in the protobuf wire format and, where there is one, the MAC or the signature; the attributes of the message are then the last values given for the fields, cut to 32 bits, unknown fields being skipped, and the keys what the encodings begin with. No byte string encodes two different lists of fields, and one that encodes none raises DecodeError.", "quantifier": "for all byte strings and all messages, whatever wrote them", "why_tests_cant": "The tests only parse messages the library has written itself a moment before; repeated, unknown, reordered, overlong, nested and truncated fields never occur, and no finite number of byte strings shows that nothing else is accepted.", "anchors": ["axolotl/protocol/whispermessage.py:18-52", "axolotl/protocol/prekeywhispermessage.py:18-64", "axolotl/protocol/keyexchangemessage.py:19-68", "axolotl/protocol/senderkeymessage.py:15-48", "axolotl/protocol/senderkeydistributionmessage.py:11-53", "axolotl/util/byteutil.py:11-52"]}
{"id": "C91", "title": "Nothing about a plaintext is stored or shows in a message's header", "statement": "Encrypting two different plaintexts from the same state leaves the same storage and random numbers behind, fails for both or for neither, and yields messages that agree in everything but body and MAC (or signature); they have the same length if the plaintexts have the same number of whole blocks. Receiving either of two messages with the same header leaves the same storage behind.", "quantifier": "for all states, addresses, groups, plaintexts and messages", "why_tests_cant": "It compares two runs for every pair of plaintexts and every state; tests observe single runs and look only at the decrypted text, never at everything that was stored.", "anchors": ["axolotl/sessioncipher.py:31-61", "axolotl/sessioncipher.py:63-147", "axolotl/sessioncipher.py:166-229", "axolotl/groups/groupcipher.py:20-105"]}
{"id": "C92", "title": "Used keys cannot be recovered from what is stored", "statement": "What is stored after a message has been sent or received is the same for all secrets that have the same successors: another chain key with the same next chain key, another stored message key, or another root key and private ratchet key with the same derived root and chain keys, together with another message that opens with those, leave exactly the same storage behind. The same holds for the private key of a one-time prekey that opened a session, and the private keys of a finished key exchange are no longer stored. So the keys that protected a message can be computed from later storage only by inverting the derivation.", "quantifier": "for all states, all other secrets with the same successors, all messages in sessions and groups", "why_tests_cant": "The tests never look for old keys in what is stored; that no function of the stored bytes determines them is a statement about all pairs of states with equal successors.", "anchors": ["axolotl/sessioncipher.py:31-61", "axolotl/sessioncipher.py:63-184", "axolotl/ratchet/chainkey.py:25-40", "axolotl/ratchet/rootkey.py:17-26", "axolotl/groups/groupcipher.py:20-83", "axolotl/groups/ratchet/senderchainkey.py:24-36", "axolotl/groups/state/senderkeystate.py:52-93", "axolotl/sessioncipher.py:80-94", "axolotl/sessionbuilder.py:191-227", "axolotl/state/sessionrecord.py:50-60"]}
{"id": "C93", "title": "Stored records are read and written exactly as their schema says", "statement": "A byte string is read as a session, sender key, prekey, signed prekey or identity record exactly if it is an encoding of fields, and so are, all the way down, the messages inside it; the record then has for every field of LocalStorageProtocol.proto the value of its last occurrence, for an optional message the fields of all its occurrences together, for a repeated one an element for each occurrence. Everything else raises DecodeError. What is written says by the same schema what was meant.", "quantifier": "for all byte strings and records", "why_tests_cant": "The tests read back only what the library itself has written, which stays consistent if a field is numbered, typed or merged wrongly on both sides; the theorem compares with the schema for every byte string.", "anchors": ["axolotl/protobuf/LocalStorageProtocol.proto:1-111", "axolotl/state/sessionrecord.py:15-29", "axolotl/state/sessionrecord.py:62-68", "axolotl/state/prekeyrecord.py:8-18", "axolotl/state/signedprekeyrecord.py:8-23", "axolotl/identitykeypair.py:8-29", "axolotl/groups/state/senderkeyrecord.py:9-17", "axolotl/groups/state/senderkeyrecord.py:54-60"]}
{"id": "C94", "title": "Refilled prekeys do not replace ones still on offer", "statement": "However often prekeys are generated, each time with the numbers after the last ones, and in whatever order they are used up in between, every prekey that was generated and not used can be loaded as it was generated, and no other.", "quantifier": "for all sequences of refills of any size and uses of any numbers, all starting numbers and random numbers", "why_tests_cant": "There are 16777214 numbers; the tests generate one batch and never come near the end of the range, nor do they interleave refills with uses.", "anchors": ["axolotl/util/keyhelper.py:57-77", "axolotl/util/medium.py:4-5", "axolotl/state/prekeyrecord.py:8-19", "README.md:42-60"]}
{"id": "C95", "title": "The order in which group messages are delivered leaves no trace", "statement": "Group messages that can all be decrypted in one order can all be decrypted in every order, with the same plaintexts, and leave the device in the very same state. More generally, among any messages of which no two claim the same key id and iteration, also forged, unreadable or used ones, each has the same plaintext or exception in every order of delivery, and the device ends in the same state.", "quantifier": "for all states a device can get to with any number of calls in flight, all names, all lists of messages and all their permutations", "why_tests_cant": "The tests deliver one or two fixed orders of messages of one sender and never compare what is stored; the number of orders grows as the factorial of the number of messages.", "anchors": ["axolotl/groups/groupcipher.py:42-100", "axolotl/groups/state/senderkeystate.py:52-93", "axolotl/groups/state/senderkeyrecord.py:20-33", "axolotl/groups/ratchet/senderchainkey.py:21-32"]}
{"id": "C96", "title": "The order in which the messages of a session are delivered leaves no trace", "statement": "Take messages each of which the current session can read by itself, of which no two have the same ratchet key and number, and each of which belongs to a receiving chain that is there already or to one new chain for which there is room. They can all be decrypted in every order, with the same plaintexts, and leave the device in the very same state: the same stored session to the byte and the same number of keys drawn.", "quantifier": "for all reachable states of a device, all peers, all lists of messages and all their permutations", "why_tests_cant": "The tests deliver a few fixed or shuffled orders and never compare the sessions that are left; the number of orders grows as the factorial of the number of messages.", "anchors": ["axolotl/sessioncipher.py:63-78", "axolotl/sessioncipher.py:96-184", "axolotl/state/sessionstate.py:80-111", "axolotl/state/sessionstate.py:149-182"]}
{"id": "C97", "title": "The first messages of a conversation may be delivered in any order", "statement": "Take a device that has no session with the peer, and prekey messages that carry the same handshake and ratchet key and have different numbers, each of which the device would accept as the first one. They can all be decrypted in every order, with the same plaintexts, and leave the device in the very same state: whichever arrives first sets up the session, saves the identity and uses up the prekey, and the others are then read by that session.", "quantifier": "for all reachable states of a device without a session with the peer, all lists of prekey messages of one handshake and all their permutations", "why_tests_cant": "The tests start every conversation with the message numbered 0 or with one order of the first messages, and never compare the stores that are left.", "anchors": ["axolotl/sessioncipher.py:80-94", "axolotl/sessioncipher.py:96-184", "axolotl/sessionbuilder.py:32-86", "axolotl/state/sessionstate.py:80-111"]}
{"id": "C98", "title": "Replacing prekeys disturbs nothing else", "statement": "Storing, replacing or removing one signed prekey, or one one-time prekey, changes neither the result of any call (building a session, key exchange, encrypting, decrypting, group messages) nor what the call does to the stores, unless the call is given a prekey message that names that prekey. A prekey message whose session has already been set up is not affected even by the prekeys it names. A prekey message for a session that is not there and whose signed prekey has been removed is refused as naming an unknown key, and changes nothing.", "quantifier": "for all states of a device (no reachability needed), all prekey numbers, all stored bytes and all arguments of the calls", "why_tests_cant": "The tests never change or remove a signed prekey while sessions are in use, and cannot compare every call in every state before and after such a change.", "anchors": ["axolotl/sessionbuilder.py:32-86", "axolotl/sessionbuilder.py:88-131", "axolotl/sessioncipher.py:63-94", "axolotl/state/signedprekeystore.py:10-26", "axolotl/tests/inmemorysignedprekeystore.py:12-32", "axolotl/state/sessionrecord.py:31-39"]}
{"id": "C99", "title": "Handshake parameters keep their roles", "statement": "A parameter object of a handshake (for Alice, for Bob, or symmetric) can be created exactly if every key except the one-time prekey was given, in whichever order and however often the setters were called; each of its fields is then what was given last for that field, and otherwise ValueError is raised. The library's calls that set up a session through such objects (prekey message, prekey bundle, both directions of the key exchange) make exactly the store accesses, and end exactly in the way, they would with the keys passed directly: no missing-key check ever fires, and no key ends up in the role of another.", "quantifier": "for all sequences of setter calls with all arguments including None, and for all arguments, all states, all crash points and all interleavings of the calls", "why_tests_cant": "The tests use one order of the setters, never leave a key out, and notice a swapped pair of keys only where both sides are not swapped alike.", "anchors": ["axolotl/ratchet/aliceaxolotlparameters.py:4-83", "axolotl/ratchet/bobaxolotlparamaters.py:4-83", "axolotl/ratchet/symmetricaxolotlparameters.py:4-83", "axolotl/ratchet/ratchetingsession.py:14-37", "axolotl/sessionbuilder.py:50-86", "axolotl/sessionbuilder.py:88-131", "axolotl/sessionbuilder.py:147-227"]}
{"id": "C100", "title": "The comparisons of public keys agree", "statement": "Of two 32-byte public keys exactly one of less, equal and greater holds, and __cmp__ returns -1, 0 or 1 accordingly; equal means the same bytes, and exchanging the keys negates the result. Keys of another length can only be tested for equality: every other comparison raises struct.error.", "quantifier": "for all pairs of byte strings taken as public keys", "why_tests_cant": "The tests never compare two keys for order, and agreement of the comparisons is a statement about all pairs.", "anchors": ["axolotl/ecc/djbec.py:28-46", "axolotl/ratchet/ratchetingsession.py:114-120"]}
