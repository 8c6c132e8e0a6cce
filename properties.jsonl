{"id": "C01", "title": "Outgoing HID packet layout", "statement": "Whenever the CTAPHID server answers with a payload of n bytes (1 <= n <= 65535) the response handler receives exactly ceil-many 64-byte packets: packet 0 is channel id (little endian, 4 bytes), command byte, big-endian 16-bit length n, then payload bytes 0..56; packet i>=1 is the channel id, sequence byte (i-1) mod 256, then payload bytes 57+59(i-1)..; the last packet is zero padded. No other byte appears.", "quantifier": "every channel id, command and payload of any length", "why_tests_cant": "unbounded payload lengths; the boundary arithmetic must hold at every length", "anchors": ["ctap_hid/ctap_hid.go:createResponsePackets", "util/util.go:Pad,ToLE,ToBE"]}
{"id": "C02", "title": "A conforming host reassembles every response", "statement": "A host that follows the CTAPHID reassembly rule (7-bit sequence numbers) recovers exactly the command and payload sent by the device, for every payload of 1..7609 bytes; beyond 7609 bytes the 7-bit sequence space is exhausted and no conforming host can accept the reply.", "quantifier": "every channel id, command byte with bit 7 set, and payload", "why_tests_cant": "all lengths up to the protocol maximum and all beyond it", "anchors": ["ctap_hid/ctap_hid.go:createResponsePackets"]}
{"id": "C03", "title": "Request reassembly", "statement": "When a host sends a command split into an initial packet and continuation packets with sequence 0,1,2,..., of any sizes, the device dispatches the command exactly once, at the first packet that completes the announced length, with exactly the first PayloadLength bytes of the concatenated data, and nothing is emitted before.", "quantifier": "every message, every split into packets of arbitrary sizes", "why_tests_cant": "all lengths and all splits", "anchors": ["ctap_hid/transaction.go:newCTAPHIDTransaction,addMessage", "ctap_hid/channel.go:handleMessage"]}
{"id": "C04", "title": "Ping echoes", "statement": "A PING of 1..7609 bytes sent as conforming 64-byte packets on the broadcast channel or any allocated channel is answered by packets that a conforming host reassembles to a PING with the identical payload on the same channel, with no other observable effect.", "quantifier": "every payload, every open channel, every server state whose channel is idle", "why_tests_cant": "all payload lengths and contents", "anchors": ["ctap_hid/channel.go:handleBroadcastMessage,handleDataMessage", "ctap_hid/ctap_hid.go"]}
{"id": "C05", "title": "Channel allocation", "statement": "Each INIT on the broadcast channel returns the 8-byte nonce sent, followed by a channel id that was not allocated before and is neither 0 nor the broadcast id, protocol version 2 and the CBOR capability; the returned channel is open afterwards. Holds for every history with fewer than 2^32-1 INITs.", "quantifier": "every history of messages, every nonce", "why_tests_cant": "histories are unbounded; freshness depends on every earlier INIT", "anchors": ["ctap_hid/channel.go:handleBroadcastMessage", "ctap_hid/ctap_hid.go:newChannel"]}
{"id": "C06", "title": "Unallocated channels are refused", "statement": "A message for a channel id that was never returned by INIT (and is not broadcast) produces exactly one packet, an ERROR with code INVALID_CHANNEL on that channel id, and changes nothing else.", "quantifier": "every reachable server state and every message of at least 4 bytes", "why_tests_cant": "all channel ids and histories", "anchors": ["ctap_hid/ctap_hid.go:HandleMessage,sendError"]}
{"id": "C07", "title": "Channel isolation", "statement": "Handling a message on one channel never changes the partially received request, or the openness, of any other channel; interleaving messages of other channels (that do not crash the process) does not change what a channel's request is reassembled to.", "quantifier": "every interleaving of messages over any number of channels", "why_tests_cant": "all interleavings", "anchors": ["ctap_hid/ctap_hid.go:HandleMessage", "ctap_hid/channel.go:handleMessage"]}
{"id": "C08", "title": "Responses go to the requester", "statement": "Every packet the device emits while handling a message carries the channel id of that message.", "quantifier": "every server state and message", "why_tests_cant": "all messages and states", "anchors": ["ctap_hid/ctap_hid.go", "ctap_hid/channel.go"]}
{"id": "C09", "title": "Protocol errors abort cleanly", "statement": "A continuation with the wrong sequence number, a command byte in the middle of a request, or a continuation without a request yields exactly one ERROR packet (INVALID_SEQUENCE resp. INVALID_COMMAND) on that channel, no dispatch, and the channel is idle afterwards; CANCEL yields no packet and leaves the channel idle.", "quantifier": "every state and message on an open channel", "why_tests_cant": "all states and byte values", "anchors": ["ctap_hid/transaction.go:addMessage,error,cancel", "ctap_hid/channel.go:handleMessage"]}
{"id": "C10", "title": "No HID message crashes the authenticator", "statement": "No byte string handed to the device by the host terminates the process.", "quantifier": "every server state, every byte string", "why_tests_cant": "must hold for every byte string", "anchors": ["ctap_hid/ctap_hid.go:HandleMessage", "ctap_hid/channel.go", "ctap_hid/transaction.go"]}
{"id": "C11", "title": "Every completed request is answered", "statement": "Every completely received request (other than CANCEL) is answered by at least one packet on its channel.", "quantifier": "every request, every handler result", "why_tests_cant": "all payloads including the empty ones", "anchors": ["ctap_hid/ctap_hid.go:createResponsePackets", "ctap_hid/channel.go:handleDataMessage"]}
{"id": "C12", "title": "Packets of one response are contiguous", "statement": "With any number of concurrent senders (responses, errors, keepalives) the sequence of packets given to the response handler is a concatenation of whole responses, each contiguous and in order, except possibly for the one being sent.", "quantifier": "every schedule of any number of senders", "why_tests_cant": "all schedules", "anchors": ["ctap_hid/ctap_hid.go:sendResponsePackets"]}
{"id": "C13", "title": "Packets written in order are processed in order", "statement": "A request whose packets the host writes in order to the USB OUT endpoint is reassembled correctly whatever the scheduling of the device's goroutines.", "quantifier": "every schedule of the goroutines spawned per packet", "why_tests_cant": "all schedules", "anchors": ["usb/usb_device.go:HandleMessage", "ctap_hid/channel.go:handleMessage"]}
{"id": "C14", "title": "Keepalives stop with the response", "statement": "While a CBOR command is processed, KEEPALIVE packets may be sent on its channel; once the response has been sent no further KEEPALIVE for it is sent.", "quantifier": "every schedule of the keepalive ticker against the handler", "why_tests_cant": "all schedules and tick counts", "anchors": ["util/util.go:StartRecurringFunction", "ctap_hid/channel.go:handleDataMessage,keepConnectionAlive"]}
{"id": "C15", "title": "Exactly-once completion of IN requests", "statement": "Over every history of submitted IN transfers (distinct ids), responses, unlinks and timeouts, each transfer's completion callback runs at most once, and each transfer is at every moment exactly one of: waiting, being completed, completed, unlinked.", "quantifier": "every history and schedule", "why_tests_cant": "all interleavings of requests, responses, cancels and timers", "anchors": ["util/request_buffer.go", "usb/usb_device.go:HandleMessage,RemoveWaitingRequest"]}
{"id": "C16", "title": "Device responses are delivered in order, none lost or duplicated", "statement": "The sequence of packets handed to completion callbacks, in the order the callbacks run, is always a prefix of the sequence of packets the device produced; the remainder is exactly what is queued or in flight; a packet waits in the queue only while no request waits.", "quantifier": "every history and every choice the runtime makes among waiting requests", "why_tests_cant": "all histories, all map iteration orders", "anchors": ["util/request_buffer.go:Request,Respond,CancelRequest"]}
{"id": "C17", "title": "Cancellation is effective", "statement": "If cancelling request id reports true, the callback registered for id was waiting and never runs later; if it reports false no waiting request had that id and nothing changes.", "quantifier": "every history", "why_tests_cant": "all histories", "anchors": ["util/request_buffer.go:CancelRequest", "usb/usb_device.go"]}
{"id": "C18", "title": "USB descriptors are self-consistent", "statement": "For every GET_DESCRIPTOR request the device answers, the first byte (or for the configuration descriptor the total length field, and for every nested descriptor its own length) equals the number of bytes actually returned, the type byte is the requested type, and the HID descriptor announces the length of the HID report actually returned.", "quantifier": "every setup packet", "why_tests_cant": "all 2^64 setup packets", "anchors": ["usb/usb_device.go:getDescriptor,getConfigurationDescriptor,getStringDescriptor,getHIDReport", "usb/usb.go"]}
{"id": "C19", "title": "Setup packet bit fields", "statement": "Direction, request class and recipient of a setup packet can be set independently: reading a field after setting it returns the value set and the other two fields are unchanged.", "quantifier": "every request-type byte and every in-range value", "why_tests_cant": "all bytes and values", "anchors": ["usb/usb.go:setDirection,setRequestClass,setRecipient,direction,requestClass,recipient"]}
{"id": "C20", "title": "Every USB submit gets an answer", "statement": "Every well-framed CMD_SUBMIT for the imported device on endpoint 0, 1 or 2 is eventually answered by exactly one RET_SUBMIT unless it is unlinked.", "quantifier": "every setup packet, endpoint and schedule", "why_tests_cant": "all setup packets", "anchors": ["usb/usb_device.go:HandleMessage,handleControlMessage", "usbip/usbip_server.go:handleCommandSubmit"]}
{"id": "C21", "title": "USB/IP replies are framed as announced", "statement": "Every RET_SUBMIT is a 48-byte header with command 3, the sequence number of the request, status 0 and actual_length equal to the transfer length, followed by exactly actual_length bytes for IN transfers and none for OUT; a stream of replies can be parsed back uniquely by a client that knows the directions.", "quantifier": "every submit header, buffer length, device response", "why_tests_cant": "all lengths and values", "anchors": ["usbip/usbip_server.go:handleCommandSubmit", "usbip/usbip.go:replyHeader"]}
{"id": "C22", "title": "USB/IP parsing does not depend on TCP segmentation", "statement": "What the server makes of the bytes a client sends does not depend on how TCP splits them into segments.", "quantifier": "every byte stream and every segmentation", "why_tests_cant": "all segmentations", "anchors": ["usbip/usbip_server.go:handle,handleCommandSubmit", "util/util.go:Read"]}
{"id": "C23", "title": "Device list", "statement": "OP_REQ_DEVLIST is answered with OP_REP_DEVLIST listing the exported devices.", "quantifier": "every list of devices", "why_tests_cant": "every device list", "anchors": ["usbip/usbip.go:newOpRepDevlist", "usbip/usbip_server.go:handle", "util/util.go:ToBE"]}
{"id": "C24", "title": "Import", "statement": "OP_REQ_IMPORT for the bus id of an exported device is answered by an OP_REP_IMPORT with status 0 and the device's 312-byte description and the connection switches to URB traffic for that device; any other bus id gets status 1 and the connection stays in the control phase.", "quantifier": "every 32-byte bus id field, every device list", "why_tests_cant": "all bus id fields", "anchors": ["usbip/usbip_server.go:handle,getDevice", "usbip/usbip.go:newOpRepImport,opRepImportError", "util/util.go:CStringToString"]}
{"id": "C25", "title": "Unlink reporting", "statement": "CMD_UNLINK is answered by one 48-byte RET_UNLINK echoing the request's sequence number whose status is -ECONNRESET exactly if the named request was waiting (and then it gets no RET_SUBMIT), otherwise -ENOENT.", "quantifier": "every history", "why_tests_cant": "all histories", "anchors": ["usbip/usbip_server.go:handleCommandUnlink", "usb/usb_device.go:RemoveWaitingRequest"]}
{"id": "C26", "title": "The server survives disconnects", "statement": "After a client that imported the device disconnects, the server can serve another connection.", "quantifier": "every connection history", "why_tests_cant": "all disconnect points", "anchors": ["usbip/usbip_server.go:Start,handle,handleCommands", "util/util.go:Try"]}
{"id": "C27", "title": "Only local clients", "statement": "A TCP client whose remote address is not in the loopback network 127.0.0.0/8 is closed without being served.", "quantifier": "every remote IPv4 address and port", "why_tests_cant": "all addresses", "anchors": ["usbip/usbip_server.go:Start"]}
{"id": "C28", "title": "Registration is gated", "statement": "A MakeCredential success response is produced only if the request offers ES256/public-key, the user approver was asked for exactly this relying party name and said yes, and, if PIN support is on, either a PIN auth parameter valid for this client data hash under the PIN token was given or no PIN is set.", "quantifier": "every client state, request, approver behaviour and randomness", "why_tests_cant": "all requests and states", "anchors": ["ctap/ctap.go:handleMakeCredential", "fido_client/fido_client.go:NewCredentialSource,ApproveAccountCreation"]}
{"id": "C29", "title": "Registration responses verify", "statement": "A relying party that parses a MakeCredential success response obtains: format packed, rpIdHash = SHA-256 of the RP id requested, UP set, AT set, counter 0, the AAGUID, a 16-byte credential id and a COSE ES256 public key under which the attestation signature over authData||clientDataHash verifies.", "quantifier": "every request, client state and randomness", "why_tests_cant": "all requests", "anchors": ["ctap/ctap.go:handleMakeCredential,makeAuthData,makeAttestedCredentialData", "cose/cose.go:encodeECDSAPublicKey", "identities/identity_vault.go:NewIdentity"]}
{"id": "C30", "title": "Failed registrations change nothing", "statement": "A MakeCredential that is answered with an error status leaves the identities, the PIN state and the saved data unchanged.", "quantifier": "every request and state", "why_tests_cant": "all error paths", "anchors": ["ctap/ctap.go:handleMakeCredential"]}
{"id": "C31", "title": "Assertions are scoped to the relying party", "statement": "A GetAssertion success response is signed by a credential that was registered for exactly the requested RP id, is in the allow list if one is given, and is still present; if no such credential exists the answer is NO_CREDENTIALS and nothing changes.", "quantifier": "every vault, request, and history including restarts", "why_tests_cant": "all vaults, lists and histories", "anchors": ["ctap/ctap.go:handleGetAssertion", "identities/identity_vault.go:GetMatchingCredentialSources,Import", "fido_client/fido_client.go:GetAssertionSource"]}
{"id": "C32", "title": "Assertions verify under the registered key", "statement": "The signature in a GetAssertion success response verifies over authData||clientDataHash under the public key that was returned when the credential named in the response was registered, and authData has the rpIdHash of the request and the credential's new counter.", "quantifier": "every history between registration and assertion, including restarts", "why_tests_cant": "all histories", "anchors": ["ctap/ctap.go:handleGetAssertion,makeAuthData", "identities/identity_vault.go", "cose/cose.go"]}
{"id": "C33", "title": "User-presence and user-verification flags are truthful", "statement": "In every success response UP is set iff the approver was asked during this request and agreed; UV is set iff PIN support is on and the request carried the PIN auth parameter that is the truncated HMAC of its client data hash under the current PIN token.", "quantifier": "every request and state", "why_tests_cant": "all requests", "anchors": ["ctap/ctap.go:handleMakeCredential,handleGetAssertion,derivePINAuth"]}
{"id": "C34", "title": "Signature counters strictly increase", "statement": "For each credential the counter values in successive assertion responses strictly increase, over every history of requests, deletions, crashes at any point and restarts, as long as fewer than 2^31-1 assertions were made.", "quantifier": "every history with crashes at every point", "why_tests_cant": "unbounded histories and crash points", "anchors": ["fido_client/fido_client.go:GetAssertionSource,saveData,loadData", "ctap/ctap.go:makeAuthData"]}
{"id": "C35", "title": "A refused login leaves no trace", "statement": "A GetAssertion that the user refuses leaves the stored credentials unchanged.", "quantifier": "every state and request", "why_tests_cant": "all states", "anchors": ["ctap/ctap.go:handleGetAssertion", "fido_client/fido_client.go:GetAssertionSource"]}
{"id": "C36", "title": "Exclude list is honoured", "statement": "MakeCredential with an exclude list naming a credential already held for this RP does not create another credential.", "quantifier": "every state and request", "why_tests_cant": "all states and lists", "anchors": ["ctap/ctap.go:handleMakeCredential", "fido_client/fido_client.go:NewCredentialSource"]}
{"id": "C37", "title": "PIN protocol round trip", "statement": "A platform following PIN protocol one can set a PIN of 4..63 bytes without NUL, then obtain the PIN token with that PIN, and a registration carrying the HMAC under that token is accepted as user verified.", "quantifier": "every PIN, key agreement key pair, and client state without a PIN", "why_tests_cant": "all PINs and keys", "anchors": ["ctap/ctap.go:handleSetPIN,handleGetPINToken,decryptPIN,derivePINAuth,handleMakeCredential"]}
{"id": "C38", "title": "The PIN only changes with proof", "statement": "Over CTAP the stored PIN hash changes only by SetPIN when no PIN is set, or by ChangePIN carrying an encryption of the current PIN hash; the new PIN always has at least 4 bytes; every other command leaves it unchanged.", "quantifier": "every command sequence", "why_tests_cant": "all command sequences", "anchors": ["ctap/ctap.go:handleSetPIN,handleChangePIN,handleClientPIN"]}
{"id": "C39", "title": "PIN guessing is limited", "statement": "Between two correct PIN entries at most 8 wrong PIN guesses are evaluated; afterwards the device answers PIN_BLOCKED; the count survives restarts.", "quantifier": "every command sequence, with restarts", "why_tests_cant": "all command sequences", "anchors": ["ctap/ctap.go:handleGetPINToken,handleChangePIN,handleGetRetries", "fido_client/fido_client.go:PINRetries,SetPINRetries,exportData"]}
{"id": "C40", "title": "The PIN token is only given to those who know the PIN", "statement": "A GetPINToken success response is given only if a PIN is set and the request carried the encryption, under the shared secret, of exactly the stored PIN hash.", "quantifier": "every request and state", "why_tests_cant": "all requests", "anchors": ["ctap/ctap.go:handleGetPINToken"]}
{"id": "C41", "title": "PIN commands are inert when PIN support is off", "statement": "With PIN support disabled every ClientPIN command is answered INVALID_COMMAND and changes nothing, and PIN parameters of other commands are ignored.", "quantifier": "every request", "why_tests_cant": "all requests", "anchors": ["ctap/ctap.go:handleClientPIN,handleMakeCredential,handleGetAssertion"]}
{"id": "C42", "title": "GetInfo is accurate", "statement": "GetInfo always succeeds, changes nothing, and reports versions FIDO_2_0 and U2F_V2, the same AAGUID that registrations carry, rk and up support, and clientPin present iff PIN support is on and true iff a PIN is set.", "quantifier": "every client state", "why_tests_cant": "all states", "anchors": ["ctap/ctap.go:handleGetInfo"]}
{"id": "C43", "title": "Emitted CBOR is CTAP2 canonical", "statement": "Every CBOR document the device emits or stores is in CTAP2 canonical form and decodes, by an independent decoder, to the intended document.", "quantifier": "every response value", "why_tests_cant": "all values", "anchors": ["util/util.go:MarshalCBOR", "ctap/ctap.go", "cose/cose.go", "u2f/u2f.go:sealKeyHandle"]}
{"id": "C44", "title": "No CTAP message crashes the authenticator", "statement": "No CTAP message makes the process terminate.", "quantifier": "every message and state", "why_tests_cant": "all byte strings", "anchors": ["ctap/ctap.go:HandleMessage"]}
{"id": "C45", "title": "U2F APDU decoding", "statement": "For every extended-length APDU (any header, data of 1..65535 bytes, optional two-byte Le; or no data with optional three-byte Le) decoding returns the header, exactly the data and the Le.", "quantifier": "every header, data and Le", "why_tests_cant": "all lengths", "anchors": ["u2f/u2f.go:decodeU2FMessage", "util/util.go:Read"]}
{"id": "C46", "title": "U2F registration responses verify", "statement": "A successful U2F registration response parses as 05, 65-byte public key, handle length, handle, certificate, signature, 9000 where the signature verifies under the public key over 00||application||challenge||handle||public key; it is produced only after the user approved; a refusal yields 6985 only.", "quantifier": "every challenge, application, state and randomness", "why_tests_cant": "all inputs", "anchors": ["u2f/u2f.go:handleU2FRegister,sealKeyHandle"]}
{"id": "C47", "title": "U2F key handles fit the one-byte length", "statement": "Every key handle produced has length at most 255, equal to the length byte in the response.", "quantifier": "every generated key and device key", "why_tests_cant": "all keys", "anchors": ["u2f/u2f.go:handleU2FRegister", "webauthn/webauthn.go:KeyHandle", "crypto/crypto.go:Seal"]}
{"id": "C48", "title": "U2F signs only its own handles for the same application", "statement": "A U2F authentication produces a signature only if the key handle was sealed under this device's key and binds exactly the application parameter of the request.", "quantifier": "every request and state", "why_tests_cant": "all byte strings", "anchors": ["u2f/u2f.go:handleU2FAuthenticate,openKeyHandle", "crypto/crypto.go:Open"]}
{"id": "C49", "title": "U2F register then authenticate works", "statement": "A key handle returned by registration can be used, after any later history of the device, for authentication with the same application: the response's signature verifies under the public key returned at registration over application||01||counter||challenge.", "quantifier": "every history, challenge and application", "why_tests_cant": "all histories", "anchors": ["u2f/u2f.go"]}
{"id": "C50", "title": "U2F user presence is truthful", "statement": "A U2F authentication response whose user presence byte is 1 is only produced if the approver was asked during the request and agreed; check-only requests never sign.", "quantifier": "every request", "why_tests_cant": "all control bytes", "anchors": ["u2f/u2f.go:handleU2FAuthenticate"]}
{"id": "C51", "title": "U2F counter strictly increases", "statement": "Successive U2F authentication responses carry strictly increasing counters, also across restarts and with concurrent requests on different channels.", "quantifier": "every history, crash and schedule", "why_tests_cant": "all histories", "anchors": ["fido_client/fido_client.go:NewAuthenticationCounterId,exportData", "u2f/u2f.go:handleU2FAuthenticate"]}
{"id": "C52", "title": "Foreign key handles are refused gracefully", "statement": "A U2F authentication request with a key handle not created by this device is answered WRONG_DATA.", "quantifier": "every key handle", "why_tests_cant": "all byte strings", "anchors": ["u2f/u2f.go:openKeyHandle", "crypto/crypto.go:Open"]}
{"id": "C53", "title": "U2F message handling is total on commands", "statement": "VERSION answers U2F_V2 9000 and changes nothing; a U2F message never crashes the process.", "quantifier": "every message", "why_tests_cant": "all byte strings", "anchors": ["u2f/u2f.go:HandleMessage"]}
{"id": "C54", "title": "Vault operations", "statement": "Adding an identity appends it; deleting by id removes exactly one identity with that id and keeps all others unchanged (as a multiset) iff one exists, reporting whether it did; lookup returns exactly the identities of the RP that are allowed, in order.", "quantifier": "every vault and id, every history of operations", "why_tests_cant": "all vaults", "anchors": ["identities/identity_vault.go"]}
{"id": "C55", "title": "Restart preserves identities", "statement": "After a restart from the saved data the device has the same identities: same ids, keys, relying parties, users and counters, and the same PIN and U2F state.", "quantifier": "every client state", "why_tests_cant": "all vaults", "anchors": ["identities/identity_vault.go:Export,Import", "fido_client/fido_client.go:exportData,importData"]}
{"id": "C56", "title": "Durability before acknowledgement", "statement": "When a success response to MakeCredential, GetAssertion or Set/ChangePIN is returned, the data saver has already been given a state that contains the new credential, counter or PIN hash; a crash at any earlier point leaves either the old or the new state saved.", "quantifier": "every crash point of every request", "why_tests_cant": "all crash points", "anchors": ["fido_client/fido_client.go:saveData,NewCredentialSource,GetAssertionSource,SetPINHash"]}
{"id": "C57", "title": "Saved state round trip", "statement": "Decrypting with the same passphrase what EncryptFIDOState produced gives back the same configuration, for every configuration whose strings are valid UTF-8.", "quantifier": "every configuration, passphrase, randomness", "why_tests_cant": "all configurations and strings", "anchors": ["identities/saved_state.go"]}
{"id": "C58", "title": "Saved state is authenticated", "statement": "If decryption of a blob succeeds, its ciphertexts are exactly encryptions of the returned data under the passphrase-derived key; a modified blob is rejected.", "quantifier": "every blob", "why_tests_cant": "all blobs", "anchors": ["identities/saved_state.go:DecryptWithPassphrase", "crypto/crypto.go:Encrypt,Decrypt"]}
{"id": "C59", "title": "Saving to the demo vault file is crash safe", "statement": "At every crash point during SaveData the vault file holds the complete old or the complete new data.", "quantifier": "every crash point", "why_tests_cant": "all crash points", "anchors": ["cmd/demo/server.go:SaveData,RetrieveData"]}
{"id": "C60", "title": "Demo delete removes the identity named", "statement": "`delete --identity prefix` deletes the unique identity whose hex id starts with prefix, refuses if several match, and deletes nothing if none does.", "quantifier": "every vault and prefix", "why_tests_cant": "all vaults", "anchors": ["cmd/demo/demo.go:deleteIdentity"]}
{"id": "C61", "title": "COSE private keys round trip", "statement": "Unmarshalling a marshalled private key (ECDSA P-256, Ed25519, RSA) gives an equal key.", "quantifier": "every key", "why_tests_cant": "all key values including those with leading zero bytes", "anchors": ["cose/cose.go:MarshalCOSEPrivateKey,UnmarshalCOSEPrivateKey"]}
{"id": "C62", "title": "COSE public keys round trip", "statement": "Unmarshalling a marshalled public key gives an equal key, for each of ECDSA P-256, Ed25519, RSA; P-256 coordinates are encoded in 32 bytes.", "quantifier": "every key", "why_tests_cant": "all key values", "anchors": ["cose/cose.go:MarshalCOSEPublicKey,UnmarshalCOSEPublicKey,SupportedCOSEPublicKey.Equal", "util/util.go:ToBE,FromBE"]}
{"id": "C63", "title": "AES-CBC wrappers are inverse", "statement": "Decrypting what was encrypted with the same 16/24/32-byte key returns the data for every data whose length is a multiple of 16; any other key or data length panics.", "quantifier": "every key and data", "why_tests_cant": "all lengths", "anchors": ["crypto/crypto.go:EncryptAESCBC,DecryptAESCBC"]}
{"id": "C64", "title": "Log levels gate output", "statement": "Text logged at a level appears on the log output exactly once and in order once that level has been enabled and an output set, and never (in particular secrets logged at the unsafe level) if that level was never enabled.", "quantifier": "every sequence of log writes, SetLogLevel and SetLogOutput calls", "why_tests_cant": "all call sequences", "anchors": ["util/log.go"]}
{"id": "C65", "title": "Integer codecs", "statement": "Reading back a value written in little or big endian order returns it and exactly the remaining input; reading fails exactly when too few bytes are left.", "quantifier": "every width and value", "why_tests_cant": "all values", "anchors": ["util/util.go:ReadLE,ReadBE,ToLE,ToBE,FromBE"]}
{"id": "C66", "title": "Setup packet decoding follows USB 2.0", "statement": "Direction, request type and recipient of a setup packet are read from bit 7, bits 6..5 and bits 4..0 of bmRequestType.", "quantifier": "every request-type byte", "why_tests_cant": "all bytes", "anchors": ["usb/usb.go:direction,requestClass,recipient"]}
{"id": "C67", "title": "Key agreement key is a proper COSE key", "statement": "GetKeyAgreement, with PIN support on, answers with the COSE_Key (P-256, ECDH-ES+HKDF-256) of the device's key agreement key, with 32-byte coordinates, and changes nothing.", "quantifier": "every device state", "why_tests_cant": "all key values", "anchors": ["ctap/ctap.go:handleClientPIN", "ctap/ctap.go:handleGetKeyAgreement"]}
{"id": "C68", "title": "COSE keys sign and verify", "statement": "A signature made with any supported key pair (ECDSA P-256, Ed25519, RSA) verifies under its public half, also when the private key was written and read back first.", "quantifier": "every key, message and randomness", "why_tests_cant": "all keys", "anchors": ["cose/cose.go:Sign,Verify,Public,MarshalCOSEPrivateKey,UnmarshalCOSEPrivateKey", "crypto/crypto.go:SignECDSA,VerifyECDSA,SignEd25519,VerifyEd25519,SignRSA,VerifyRSA"]}
{"id": "C69", "title": "Requests are read as meant", "statement": "A canonical MakeCredential, GetAssertion or ClientPIN request document is decoded by the handlers to exactly the parameters the platform put in, whatever bytes follow it.", "quantifier": "every parameter value and trailing data", "why_tests_cant": "all documents", "anchors": ["ctap/ctap.go:makeCredentialArgs,getAssertionArgs,clientPINArgs"]}
{"id": "C70", "title": "Permitted requests succeed", "statement": "A MakeCredential with ES256, an RP, a user, approval and (if needed) a valid PIN parameter succeeds; a GetAssertion for which an allowed credential exists, with approval unless up is false, succeeds.", "quantifier": "every request and device state", "why_tests_cant": "all states", "anchors": ["ctap/ctap.go:handleMakeCredential,handleGetAssertion"]}
{"id": "C71", "title": "Deleted credentials never sign again", "statement": "Once DeleteIdentity reported success for a credential id, no later assertion names that id, whatever happens in between.", "quantifier": "every history with crashes and restarts", "why_tests_cant": "unboundedly many later events", "anchors": ["fido_client/fido_client.go:DeleteIdentity", "identities/identity_vault.go:DeleteIdentity"]}
{"id": "C72", "title": "Start-up never fails on the device's own data", "statement": "NewDefaultClient, given whatever the device itself saved last, never panics, at whatever point the previous process died.", "quantifier": "every history with crashes at every point", "why_tests_cant": "all crash points and states", "anchors": ["fido_client/fido_client.go:NewDefaultClient,loadData,importData", "identities/saved_state.go"]}
{"id": "C73", "title": "A PIN stays set", "statement": "After SetPIN (local interface) the device's stored and live PIN hash is that of the PIN until a request that may change it arrives.", "quantifier": "every history with crashes and restarts", "why_tests_cant": "all later events", "anchors": ["fido_client/fido_client.go:SetPIN,SetPINHash,saveData,loadData"]}
{"id": "C74", "title": "Registered credentials are not lost", "statement": "After a MakeCredential success the saved data, and the running device, contain a credential with the returned id and public key until a deletion of that id is requested.", "quantifier": "every history with crashes at every point", "why_tests_cant": "all later events", "anchors": ["fido_client/fido_client.go:NewCredentialSource,GetAssertionSource,DeleteIdentity,saveData"]}
{"id": "C75", "title": "Approval questions say what is asked for", "statement": "The demo's question names the action being approved and its subject, different actions or subjects give different questions, and only the answers y and yes (any case, blanks around) approve.", "quantifier": "every action, relying party, user name and answer", "why_tests_cant": "all names and answers", "anchors": ["cmd/demo/server.go:ApproveClientAction,prompt"]}
{"id": "C76", "title": "Demo pin set sets the PIN typed", "statement": "`pin set --pin text` makes the stored PIN hash that of the text typed, or refuses and changes nothing.", "quantifier": "every text and device state", "why_tests_cant": "all texts", "anchors": ["cmd/demo/demo.go:setPIN", "fido_client/fido_client.go:SetPIN"]}
{"id": "C77", "title": "Demo list shows every identity", "statement": "The list command never panics, changes nothing and prints one line per identity with the first eight hex digits of its id, its user and its relying party.", "quantifier": "every vault the device can have", "why_tests_cant": "all vaults", "anchors": ["cmd/demo/demo.go:listIdentities", "fido_client/fido_client.go:Identities"]}
{"id": "C78", "title": "The wire shows a history of requests", "statement": "Over a device's whole life (connections, packets, goroutines in any order, local calls, panics, kills at any moment, restarts) there is a history of starts and requests in the sense of C31..C74 with the same starts; every request in it since the last start was assembled from packets the host wrote, there are no more requests than packets, every frame written to the host is justified by it, and OUT data reaches the device unchanged and in the order written. A device that is down can be started again.", "quantifier": "every byte stream, schedule, start parameter, environment and kill point", "why_tests_cant": "all interleavings and lives of unbounded length", "anchors": ["usbip/usbip_server.go", "usb/usb_device.go", "ctap_hid/ctap_hid.go", "virtual_fido.go:Start", "client_usbip.go:startClient"]}
{"id": "C79", "title": "End to end: the host reads what the authenticator answered", "statement": "If the messages of a connection are handled in the order written, then what the host reads from its 64-byte IN transfers on a channel is exactly what the CTAPHID server answers on that channel to what the host wrote, in order and without loss; a request on an idle channel is answered with the authenticator's reply and leaves the authenticator's state; the goroutines delivering packets can always finish on their own.", "quantifier": "every byte stream, every schedule of reads, writes, deliveries and timeouts, every request", "why_tests_cant": "all interleavings, transfers and message lengths", "anchors": ["usbip/usbip_server.go:handleCommandSubmit", "usb/usb_device.go", "util/request_buffer.go", "ctap_hid/ctap_hid.go", "ctap_hid/channel.go"]}
{"id": "C80", "title": "Overlapping requests: cut at the question, answered once", "statement": "Handling a request in two parts, before and after the approval question, does what handling it whole does; histories without overlap are exactly those of C31..C74; with overlap every request is answered at most once, after it arrived, and with the answer to itself.", "quantifier": "every input, state and interleaving", "why_tests_cant": "all interleavings of any number of waiting requests", "anchors": ["usb/usb_device.go:88", "ctap_hid/channel.go:27", "ctap/ctap.go:handleMakeCredential,handleGetAssertion", "u2f/u2f.go:handleU2FRegister,handleU2FAuthenticate"]}
{"id": "C81", "title": "Login counters with overlapping logins", "statement": "Of two successful logins with one credential the one answered later reports the larger counter, also if logins overlap, and across crashes and restarts.", "quantifier": "every history of overlapping requests", "why_tests_cant": "all interleavings and histories of unbounded length", "anchors": ["ctap/ctap.go:handleGetAssertion", "fido_client/fido_client.go:GetAssertionSource"]}
{"id": "C82", "title": "A deleted credential signs no more, also for a waiting login", "statement": "After a deletion has returned no login is answered with the deleted credential.", "quantifier": "every history of overlapping requests", "why_tests_cant": "all interleavings", "anchors": ["ctap/ctap.go:handleGetAssertion", "identities/identity_vault.go:DeleteIdentity"]}
{"id": "C83", "title": "The PIN gate holds when a registration is answered", "statement": "A registration that succeeds while a PIN is set carried a PIN authentication.", "quantifier": "every history of overlapping requests", "why_tests_cant": "all interleavings of PIN changes and registrations", "anchors": ["ctap/ctap.go:handleMakeCredential"]}
{"id": "C84", "title": "Assertions verify, also when requests overlap", "statement": "An assertion verifies under the public key returned at registration and names the relying party asked for, whatever other requests arrive, wait or are answered in between.", "quantifier": "every history of overlapping requests", "why_tests_cant": "all interleavings", "anchors": ["ctap/ctap.go:handleMakeCredential,handleGetAssertion"]}
{"id": "C85", "title": "Nothing saved is lost when requests overlap", "statement": "With overlapping requests and kills at any point every restart succeeds, a registered credential stays in the device and in the saved data until its deletion is requested, and so does a PIN until a change is requested.", "quantifier": "every history of overlapping requests", "why_tests_cant": "all interleavings and kill points", "anchors": ["fido_client/fido_client.go:saveData,loadData"]}
{"id": "C86", "title": "One approval, one answer, also when requests overlap", "statement": "For each kind of question there are never more answers that needed an approval than times the user said yes to it.", "quantifier": "every history of overlapping requests", "why_tests_cant": "all interleavings and answers", "anchors": ["ctap/ctap.go:handleMakeCredential,handleGetAssertion", "u2f/u2f.go:handleU2FRegister,handleU2FAuthenticate"]}
{"id": "C87", "title": "U2F counters and PIN guesses with requests overlapping at their questions", "statement": "Within one process the U2F counters increase in the order of the answers, and at most eight wrong PINs are evaluated between right ones, while other requests wait for their user.", "quantifier": "every history of overlapping requests", "why_tests_cant": "all interleavings", "anchors": ["u2f/u2f.go:handleU2FAuthenticate", "ctap/ctap.go:handleClientPIN"]}
{"id": "C88", "title": "PIN guesses when requests race", "statement": "No more than eight wrong PINs are tried after a start, even when the steps of PIN requests on different channels interleave. (False: the retry counter is read and written without a lock. With k requests at once exactly (8+k choose 8)-1 wrong PINs can be tried, so there is no limit without a limit on k.)", "quantifier": "every schedule of any number of requests, every k", "why_tests_cant": "the count is over all schedules; reaching the bound needs an adversarial one", "anchors": ["ctap/ctap.go:handleGetPINToken", "ctap/ctap.go:handleChangePIN", "fido_client/fido_client.go:PINRetries"]}
{"id": "C89", "title": "Credentials when registrations race", "statement": "A credential whose registration succeeded is in the vault, even when registrations on different channels interleave. (False: append on the shared slice loses one. What was in the vault before stays, only requested credentials are added, no entry is nil, and registrations one at a time are all kept in order.)", "quantifier": "every schedule of any number of registrations, every vault, every growth of the array", "why_tests_cant": "data races depend on the schedule and on the spare capacity of the slice", "anchors": ["identities/identity_vault.go:AddIdentity", "identities/identity_vault.go:NewIdentity"]}
{"id": "C90", "title": "The whole device with its goroutines refines the overlapping histories", "statement": "Cutting the handling of a message at its wait points changes nothing about its effect. Whatever the host sends and however goroutines, answers of the user, timeouts, restarts and crashes fall, what the device did is a history of overlapping requests with the same starts and the same waiting requests; requests were assembled from what the host wrote; every frame on the wire has a reason in that history.", "quantifier": "every byte stream, every schedule, every history of starts and crashes", "why_tests_cant": "all schedules of all goroutines over unbounded sessions", "anchors": ["usb/usb_device.go:88", "ctap_hid/ctap_hid.go:HandleMessage,sendResponsePackets", "ctap_hid/channel.go:handleMessage,handleFinalizedMessage,handleDataMessage", "usbip/usbip_server.go:handleCommands"]}
{"id": "C91", "title": "Answers of concurrent requests are delivered whole, once and in order", "statement": "What the host reads on a channel is a sequence of whole messages, never interleaved; every answered request is answered by exactly one message, and on one channel answers come in the order of the requests. Something is missing only while it is on its way.", "quantifier": "every schedule with distinct sequence numbers and 64 byte transfers", "why_tests_cant": "all interleavings of senders, keepalive tickers and transfers", "anchors": ["ctap_hid/ctap_hid.go:sendResponsePackets", "ctap_hid/channel.go:handleMessage", "util/request_buffer.go"]}
{"id": "C92", "title": "Waiting for the user blocks only one channel", "statement": "Every waiting request can be answered at any time. Without any answer the device can always send everything it has to send, and then every message can be handled whose channel has no waiting request: there is no deadlock.", "quantifier": "every reachable state of the device", "why_tests_cant": "absence of deadlock over all reachable states", "anchors": ["ctap_hid/channel.go:27", "ctap_hid/ctap_hid.go:42-52", "usb/usb_device.go:88"]}
{"id": "C93", "title": "CANCEL stops a request", "statement": "A CANCEL on the channel of a waiting request takes effect before the user answers. (False: the goroutine of the CANCEL waits for the lock of the channel, which the waiting request holds until it is answered. A CANCEL does stop a request that is still being received.)", "quantifier": "every reachable state, every continuation without an answer", "why_tests_cant": "the negative statement is over all continuations", "anchors": ["ctap_hid/channel.go:26-42", "ctap_hid/transaction.go:addMessage,newCTAPHIDTransaction"]}
{"id": "C94", "title": "One approval, one answer on the wire", "statement": "Of the messages sent to the host those that need the user's approval are never more than the times the user said yes to that question, with any number of requests in flight on any number of channels.", "quantifier": "every schedule, restart and crash", "why_tests_cant": "all schedules from bytes on the connection to bytes on the connection", "anchors": ["ctap_hid/channel.go:handleDataMessage", "fido_client/fido_client.go:ApproveAccountCreation,ApproveAccountLogin"]}
{"id": "C95", "title": "The macOS driver's list of frames is a queue", "statement": "Every sequence of pushes and pops on the driver's linked list gives the answers of a first-in first-out queue, uses only memory the list owns, keeps exactly the queued nodes allocated and frees them all at the end.", "quantifier": "every sequence of operations and every choice of addresses by malloc", "why_tests_cant": "all sequences and heap layouts", "anchors": ["mac/USBDriver/USBDriver/util.cpp:linked_list_push,linked_list_pop,linked_list_free"]}
{"id": "C96", "title": "The macOS transport stays inside its buffers", "statement": "No report of the host makes the driver or the glue read or write outside its own memory, and no uninitialised memory reaches the host.", "quantifier": "every life of the device and every report", "why_tests_cant": "all states and reports; memory errors need not show", "anchors": ["mac/USBDriver/USBDriver/USBUserClient.cpp:newHIDFrame", "mac/USBDriver/USBDrverLib/USBDriverLib.c:usb_driver_send_frame,notify_frame", "mac/mac.go:receiveDataCallback"]}
{"id": "C97", "title": "On macOS every report is handled once and in order", "statement": "When the run loop has nothing left to do, the messages handed to HandleMessage are the reports the host wrote, in order.", "quantifier": "every interleaving of the host's reports with the run loop", "why_tests_cant": "all interleavings", "anchors": ["mac/USBDriver/USBDriver/USBUserClient.cpp:newHIDFrame,HandleGetFrame", "mac/USBDriver/USBDrverLib/USBDriverLib.c:notify_frame", "mac/mac.go:receiveDataCallback"]}
{"id": "C98", "title": "What the device does on macOS is a history of the authenticator", "statement": "Over any number of processes, restarts, panics and kills the macOS device behaves as a history of requests assembled from the reports it was handed, and every report it sends is explained by that history; it can always be started again.", "quantifier": "every life of the device", "why_tests_cant": "all interleavings, crashes and restarts", "anchors": ["mac/mac.go:Start,handleResponse", "client_mac.go:startClient"]}
{"id": "C99", "title": "On macOS the host reads what the authenticator answered", "statement": "What the host gets is exactly what the CTAPHID server answers to the handled messages, so a request on an idle channel gets the authenticator's answer.", "quantifier": "every run, environment and request", "why_tests_cant": "all message histories and schedules", "anchors": ["mac/mac.go:handleResponse", "mac/client.c:send_data", "mac/USBDriver/USBDriver/USBUserClient.cpp:HandleSendFrame"]}
{"id": "C100", "title": "The driver's StopDevice call stops the device", "statement": "A call of StopDevice without arguments succeeds and leaves no device; no call of the driver, whatever its arguments, crashes it, and refused calls change nothing.", "quantifier": "every state, selector and arguments", "why_tests_cant": "all arguments; the call is used by no test", "anchors": ["mac/USBDriver/USBDriver/USBUserClient.cpp:ExternalMethod,StaticHandleStopDevice,HandleStopDevice"]}
{"id": "C101", "title": "Answering on macOS does not leak memory", "statement": "The memory allocated for answers given to the driver stays within a fixed bound.", "quantifier": "every life of the device", "why_tests_cant": "unbounded runs", "anchors": ["mac/mac.go:handleResponse"]}
{"id": "C102", "title": "The attestation certificate is a proper certificate of the new key", "statement": "Read back by an independent X.509 reader, every attestation certificate is a version 3 certificate for exactly the given key, issued in the name of the authority and signed by its key, valid for ten years, not a CA, and with the documented subject.", "quantifier": "every authority certificate that can be read, every key, date and randomness", "why_tests_cant": "all keys, dates and authority certificates; tests use one generated authority", "anchors": ["identities/attestation.go:CreateSelfSignedAttestationCertificate"]}
{"id": "C103", "title": "U2F registrations are accepted by a verifying relying party", "statement": "Every successful U2F registration response can be taken apart where DER says the certificate ends, its signature verifies under the key of the certificate, this is the key of the response, and the certificate is issued and signed by the authority.", "quantifier": "every device state, request, environment and authority", "why_tests_cant": "all states and requests; the response has no length field for the certificate", "anchors": ["u2f/u2f.go:handleU2FRegister", "identities/attestation.go:CreateSelfSignedAttestationCertificate"]}
{"id": "C104", "title": "WebAuthn verification accepts every registration", "statement": "The packed attestation of every successful registration passes the WebAuthn verification procedure (8.2) with the certificate requirements (8.2.1), and the certificate is for the credential's key, issued and signed by the authority.", "quantifier": "every device state, request, environment and authority", "why_tests_cant": "all states and requests", "anchors": ["ctap/ctap.go:handleMakeCredential", "identities/attestation.go:CreateSelfSignedAttestationCertificate"]}
{"id": "C105", "title": "Certificates have unique positive serial numbers", "statement": "As RFC 5280 demands, the serial number of every attestation certificate is positive and different certificates of an authority have different ones.", "quantifier": "every pair of certificates", "why_tests_cant": "all pairs", "anchors": ["identities/attestation.go:CreateSelfSignedAttestationCertificate"]}
{"id": "C106", "title": "A new authority can be made for every key and its certificates chain to it", "statement": "CreateSelfSignedCA succeeds for every P-256 key and yields a self-signed CA certificate for it; under it attestation certificates can be made for every key, and path validation accepts them whenever both are valid.", "quantifier": "every key, date and time of validation", "why_tests_cant": "all keys and dates", "anchors": ["identities/attestation.go:CreateSelfSignedCA,CreateCAPrivateKey"]}
{"id": "C107", "title": "Certificates are acceptable when issued", "statement": "An attestation certificate passes path validation under the authority's certificate at the time it is issued.", "quantifier": "every authority, key and date", "why_tests_cant": "all dates; needs a device that outlives its authority", "anchors": ["identities/attestation.go:CreateSelfSignedAttestationCertificate"]}
{"id": "C108", "title": "A device does not start with a certificate and a key that do not match", "statement": "If the device starts, the authority's certificate is for the authority's key, so that registrations cannot fail to be certified.", "quantifier": "every parameters and environment", "why_tests_cant": "all pairs of certificates and keys", "anchors": ["fido_client/fido_client.go:NewDefaultClient,CreateAttestationCertificiate"]}
{"id": "C109", "title": "The log of the CTAP server tells no secrets", "statement": "The visible log of every CTAP message is determined by the message and its answer; in particular it shows no PIN hash, PIN token or private key.", "quantifier": "every environment, device state and message", "why_tests_cant": "all states and messages; what a line shows depends on the path taken", "anchors": ["ctap/ctap.go:HandleMessage,handleMakeCredential,handleGetAssertion,handleClientPIN,handleSetPIN,handleGetPINToken", "fido_client/fido_client.go:NewCredentialSource"]}
{"id": "C110", "title": "The log of the U2F server tells no secrets", "statement": "The visible log of every U2F message is determined by the message and its answer; in particular it shows no private key and no handle that was not given out.", "quantifier": "every environment, device state and message", "why_tests_cant": "all states and messages", "anchors": ["u2f/u2f.go:HandleMessage,handleU2FRegister,handleU2FAuthenticate,openKeyHandle"]}
{"id": "C111", "title": "The demo's console tells no secrets", "statement": "With the log settings of the demo, what a message of either protocol adds to the console is determined by the message and its answer.", "quantifier": "every earlier use of the log, environment, device state and message", "why_tests_cant": "all states and messages; the log's writers are swapped at run time", "anchors": ["cmd/demo/demo.go:createClient", "util/log.go:NewLogger,SetLogLevel,SetLogOutput", "ctap/ctap.go:handleGetPINToken", "u2f/u2f.go:handleU2FAuthenticate"]}
{"id": "C112", "title": "The vault file keeps opening with its passphrase", "statement": "Once the vault file can be opened with a passphrase it can be opened with it after anything that any number of demo processes sharing the file do; a start with that passphrase never fails, and a failed start changes nothing.", "quantifier": "every number of processes, interleaving of their starts, requests, saves and ends, and every environment", "why_tests_cant": "all interleavings of any number of processes", "anchors": ["cmd/demo/server.go:SaveData,RetrieveData", "cmd/demo/demo.go:createClient,start,deleteIdentity,enablePIN,setPIN", "fido_client/fido_client.go:NewDefaultClient"]}
{"id": "C113", "title": "A credential deleted by one process is not used by another", "statement": "After a process has reported the deletion of a credential no process sharing the vault file ever makes an assertion with it.", "quantifier": "every interleaving of any number of processes", "why_tests_cant": "all interleavings; needs a command run against a live device", "anchors": ["cmd/demo/demo.go:deleteIdentity,start", "cmd/demo/server.go:SaveData,RetrieveData", "fido_client/fido_client.go:DeleteIdentity"]}
{"id": "C114", "title": "A credential registered by one process is not lost by another", "statement": "Whenever no request is under way, a credential whose registration was answered and that nobody deleted is in the vault file, with its id and key.", "quantifier": "every interleaving of any number of processes", "why_tests_cant": "all interleavings", "anchors": ["cmd/demo/server.go:SaveData,RetrieveData", "fido_client/fido_client.go:saveData,NewCredentialSource"]}
{"id": "C115", "title": "A PIN set by one process is not undone by another", "statement": "Whenever no request is under way, the vault file holds the hash of the PIN that was set last.", "quantifier": "every interleaving of any number of processes", "why_tests_cant": "all interleavings", "anchors": ["cmd/demo/demo.go:setPIN", "cmd/demo/server.go:SaveData,RetrieveData", "fido_client/fido_client.go:SetPIN"]}
{"id": "C116", "title": "The demo's questions are answered line by line", "statement": "The n-th question of the demo is answered by the n-th line of its standard input, and only a line that says yes approves.", "quantifier": "every input, every way it is cut into reads and every sequence of questions", "why_tests_cant": "all inputs and all cuts; a test types one line at a time", "anchors": ["cmd/demo/server.go:prompt,ApproveClientAction"]}
{"id": "C117", "title": "Approvals are typed for the question they approve", "statement": "An action is approved only by a line typed after its question was shown and before another one is.", "quantifier": "every interleaving of questions, typing and reads", "why_tests_cant": "all interleavings, with any number of questions waiting", "anchors": ["cmd/demo/server.go:prompt,ApproveClientAction"]}
{"id": "C118", "title": "A closed standard input means refusal", "statement": "When the standard input has ended the demo refuses what it would have to ask for and goes on.", "quantifier": "every interleaving of questions, typing, reads and the end of input", "why_tests_cant": "all interleavings", "anchors": ["cmd/demo/server.go:prompt"]}
{"id": "C119", "title": "Demo devices do not accept each other's key handles", "statement": "A key handle that one demo device gave out is refused by every other demo device.", "quantifier": "every pair of demo devices, their histories and requests", "why_tests_cant": "all pairs of histories", "anchors": ["cmd/demo/demo.go:createClient", "u2f/u2f.go:handleU2FRegister,handleU2FAuthenticate,sealKeyHandle,openKeyHandle"]}
{"id": "C120", "title": "USB/IP replies are never mixed", "statement": "Each host reads whole replies, of which at most the last is cut short; they are those of a run on what it sent itself in which replies are written in one step; at most one goroutine writes at a time.", "quantifier": "every interleaving of the server, callbacks, timers and the device, every failing write and every sequence of connections", "why_tests_cant": "all interleavings and points of failure", "anchors": ["usbip/usbip_server.go:writeResponse,handleCommandSubmit,handleCommandUnlink,handle", "usb/usb_device.go:HandleMessage,handleResponse", "util/request_buffer.go"]}
{"id": "C121", "title": "A failed write costs no more than its connection", "statement": "After a write to a connection fails the server can still accept another connection.", "quantifier": "every reachable state and every failing write", "why_tests_cant": "failures of the network at every point of every interleaving", "anchors": ["usbip/usbip_server.go:Start,handle,handleCommands,writeResponse", "util/util.go:Write,Try,SetTimeout,StartRecurringFunction"]}
{"id": "C122", "title": "The server's locks do not deadlock", "statement": "As long as no write fails, all replies on their way can be written without any further step of the host, the device or a timer, and then all locks are free.", "quantifier": "every interleaving without failing writes", "why_tests_cant": "all interleavings; a deadlock may need three goroutines at exact points", "anchors": ["usbip/usbip_server.go:writeResponse", "util/request_buffer.go:Request,Respond,CancelRequest"]}
{"id": "C123", "title": "Connections are served one after another", "statement": "Once another connection is accepted nothing is written to earlier ones; it finds a server as new; and the connection on which the device is imported is the last one.", "quantifier": "every interleaving and every sequence of connections", "why_tests_cant": "all sequences of connections", "anchors": ["usbip/usbip_server.go:Start,handle,handleCommands,newUSBIPConnection"]}
{"id": "C124", "title": "Locks and failing writes do not add behaviours of the device", "statement": "With locks, failing writes, several connections, restarts and crashes the device does what the device with atomic writes can do, and the host has read what that device has written, the last reply perhaps cut short.", "quantifier": "every environment, every life of the device with any interleaving, failure and crash", "why_tests_cant": "a refinement over all lives", "anchors": ["usbip/usbip_server.go", "usb/usb_device.go", "ctap_hid/ctap_hid.go", "ctap_hid/channel.go"]}
{"id": "C125", "title": "Relying parties do not see each other's credentials", "statement": "Two devices that differ only in credentials of relying parties outside a set R give the same answers and ask the user the same questions in every conversation whose logins and deletions concern only relying parties in R.", "quantifier": "every environment, every set R, every pair of device states and every conversation", "why_tests_cant": "a property of pairs of executions (noninterference)", "anchors": ["identities/identity_vault.go:GetMatchingCredentialSources,DeleteIdentity", "fido_client/fido_client.go:GetAssertionSource", "ctap/ctap.go:handleGetAssertion"]}
{"id": "C126", "title": "Wrong PINs reveal only that they are wrong", "statement": "Two devices with different PINs and PIN tokens give the same answers and ask the same questions in every conversation in which neither PIN is offered and knowledge of neither token is proved.", "quantifier": "every environment, every pair of device states, every conversation", "why_tests_cant": "a property of pairs of executions (noninterference)", "anchors": ["ctap/ctap.go:handleClientPIN,handleSetPIN,handleChangePIN,handleGetPINToken,handleMakeCredential,handleGetAssertion,handleGetInfo"]}
{"id": "C127", "title": "CTAP and U2F do not see each other's secrets", "statement": "CTAP conversations do not depend on the U2F sealing key and counter; U2F conversations depend on nothing else but the attestation certificate and key.", "quantifier": "every environment, every pair of device states, every conversation", "why_tests_cant": "a property of pairs of executions (noninterference)", "anchors": ["ctap/ctap.go", "u2f/u2f.go", "fido_client/fido_client.go"]}
{"id": "C128", "title": "Messages handled at the same time do not disturb the table of channels", "statement": "The goroutines that handle OUT packets look their channel up in a map without a lock, and an INIT writes it. Nobody reads or writes the map during a write, so the Go runtime does not end the process; and whatever the schedule, the messages have the effects of being handled one after another, in an order that respects time.", "quantifier": "every schedule of any number of goroutines, every sequence of packets", "why_tests_cant": "a race; no test chooses the schedule", "anchors": ["ctap_hid/ctap_hid.go:54-70", "ctap_hid/channel.go:27", "usb/usb_device.go:88"]}
{"id": "C129", "title": "Left alone, the device comes to rest with everything answered", "statement": "However its goroutines are scheduled, the device does only finitely many steps on what hosts have sent (keepalive ticks aside); and when it can do no more, every packet written has been handled, no goroutine waits, every request that began has its answer, and a host with an IN transfer left has read all answers.", "quantifier": "every reachable state, every schedule, every order of the user's answers", "why_tests_cant": "a liveness property over all schedules", "anchors": ["usb/usb_device.go:70-97", "ctap_hid/ctap_hid.go:42-63", "ctap_hid/channel.go:26-103", "usbip/usbip_server.go:102-178", "util/request_buffer.go"]}
{"id": "C130", "title": "A host recognises the device as a FIDO authenticator", "statement": "A host that enumerates the device (reads the device and configuration descriptors, selects the configuration, reads the report descriptor the HID descriptor announces, parses it by HID 1.11) finds one application collection of usage page FIDO with one input and one output report of 64 bytes in which every byte may occur, one interrupt endpoint each way with packets of that size, a configuration with a number SET_CONFIGURATION can select, and strings that can be read; and the endpoints found are those the device serves, whatever state it is in.", "quantifier": "every setup packet, every device state, every submit", "why_tests_cant": "descriptors, parser and endpoint dispatch are in three packages that no test joins; all setup packets and states", "anchors": ["usb/usb_device.go:70-97,99-150,152-293", "usbip/usbip_server.go:120-149"]}
{"id": "C131", "title": "A descriptor shorter than asked for is reported as such", "statement": "A control transfer that asks for n bytes of an answer x returns the first n bytes of x and reports min(n, |x|) as the number of bytes transferred.", "quantifier": "every device state, setup packet and transfer length", "why_tests_cant": "all lengths and setups", "anchors": ["usbip/usbip_server.go:120-149", "usb/usb_device.go:99-150"]}
{"id": "C132", "title": "The description of an imported device agrees with its descriptors", "statement": "idVendor, idProduct, bcdDevice, class, subclass, protocol, configuration value and the numbers of configurations and interfaces in the reply to an import are those of the device and configuration descriptors.", "quantifier": "every connection that imports the device", "why_tests_cant": "two hand-written tables in different functions, on every connection", "anchors": ["usb/usb_device.go:39-64,189-220", "usbip/usbip.go:91-109,202-217"]}
{"id": "C133", "title": "A channel number belongs to one application", "statement": "After any history of messages, an INIT on the idle broadcast channel returns a channel number that was not given before and is neither 0 nor the broadcast number; so no application gets the channel of another.", "quantifier": "every history of messages, every number of INITs", "why_tests_cant": "the counter has 32 bits; no test sends 2^32 INITs", "anchors": ["ctap_hid/ctap_hid.go:17-40,65-70", "ctap_hid/channel.go:54-79"]}
{"id": "C134", "title": "The log keeps only a bounded amount of text", "statement": "With a writer set, there is a bound to the amount of text the log keeps in memory; texts of levels that are not enabled, which may contain private keys, are not kept.", "quantifier": "every sequence of log calls", "why_tests_cant": "all call sequences; a test does not measure what a buffer nobody reads contains", "anchors": ["util/log.go:20-48,50-82"]}
{"id": "C135", "title": "Log lines from several goroutines are neither lost nor mixed", "statement": "Whatever the schedule, the loggers and the levels: when nobody is logging any more, every line logged is, whole and once, where its level puts it (the writer or the buffer of a level not enabled), in an order that keeps each goroutine's; and logging never blocks for good.", "quantifier": "every schedule of any number of goroutines and loggers, every setting of levels", "why_tests_cant": "a race; no test chooses the schedule", "anchors": ["util/log.go:20-40,72-82", "usbip/usbip_server.go:12-13", "usb/usb_device.go:12", "ctap/ctap.go:19-20", "ctap_hid/ctap_hid.go:10", "fido_client/fido_client.go:29", "u2f/u2f.go:17"]}
{"id": "C136", "title": "The CBOR tool shows what the data is", "statement": "The tool shows the item encoded by the base64 text it is given; and when it shows an item, the data is that item and nothing else.", "quantifier": "every item, every text", "why_tests_cant": "all items and all texts", "anchors": ["cmd/tools/tools.go:18-26"]}
{"id": "C137", "title": "A message is carried out only if it is exactly one request", "statement": "A CTAP message that is a request cut short, or a request with something after it, is not carried out and changes nothing.", "quantifier": "every environment, device state, message, cut and continuation", "why_tests_cant": "all messages, cuts and continuations in all states", "anchors": ["ctap/ctap.go:100-115,203-206,325-329,457-465"]}
{"id": "C138", "title": "The bundled Windows client attaches the device and nothing else", "statement": "Against a server just started, usbip.exe attach -b 2-2 gives the driver bus 2, device 2 with the descriptors that a host enumerating the device gets, whatever sequence number it starts from; with any other bus id nothing is attached, and the user is told that there is no such device.", "quantifier": "every bus id, every first sequence number", "why_tests_cant": "all bus ids and sequence numbers; client and server are never run together in tests", "anchors": ["cmd/demo/usbip/usbip-win/userspace/src/usbip/usbip_attach.c:73-186,280-299", "cmd/demo/usbip/usbip-win/userspace/src/usbip/usbip_dscr.c:9-78", "usbip/usbip_server.go:49-152"]}
{"id": "C139", "title": "No server can make the Windows client write outside its descriptor buffers", "statement": "Whatever the server answers while the client attaches, the client receives no more bytes into a descriptor buffer than the buffer has.", "quantifier": "every server (any state type and transition function), bus id and sequence number", "why_tests_cant": "all servers, also hostile ones", "anchors": ["cmd/demo/usbip/usbip-win/userspace/src/usbip/usbip_dscr.c:9-78"]}
{"id": "C140", "title": "The Windows client lists the devices a server exports", "statement": "usbip.exe list shows the devices and interfaces of the server's list as they were sent, and the server of this repository answers it.", "quantifier": "every list of devices and interfaces", "why_tests_cant": "all lists", "anchors": ["cmd/demo/usbip/usbip-win/userspace/src/usbip/usbip_list_remote.c:27-114", "usbip/usbip_server.go:49-152"]}
{"id": "C141", "title": "The Windows client carries requests to the server unchanged and in order", "statement": "Whatever the sizes in which reads and writes complete, in whatever order the two directions make progress and whatever the server sends, what the client's forwarder has written to the socket is at every moment a prefix of the driver's requests (without isochronous packets), with their integers in network byte order, as long as it has not run out of 32-bit sizes.", "quantifier": "every list of requests, every run of the forwarder, every split of reads and writes, every input from the server", "why_tests_cant": "all splits and schedules of both directions and unbounded streams", "anchors": ["cmd/demo/usbip/usbip-win/userspace/lib/usbip_forward.c:9-35,168-300,318-574,600-660"]}
{"id": "C142", "title": "A request that has been read whole is on its way when the forwarder waits", "statement": "Whenever the forwarder goes to wait, every request that it has read completely has been written or is being written.", "quantifier": "every list of requests and every run", "why_tests_cant": "depends on how reads and writes interleave while the buffers are switched", "anchors": ["cmd/demo/usbip/usbip-win/userspace/lib/usbip_forward.c:419-574"]}
{"id": "C143", "title": "The Windows client gives the driver the replies unchanged and in order", "statement": "What the forwarder gives to the driver is at every moment a prefix of the server's replies with integers in the driver's byte order and the direction of the transfer filled in; once it waits with all of them read and nothing being written, it is all of them.", "quantifier": "every list of requests and replies to them and every run", "why_tests_cant": "depends on which requests the cache of 1024 places still knows when a reply comes", "anchors": ["cmd/demo/usbip/usbip-win/userspace/lib/usbip_forward.c:283-336,511-574"]}
{"id": "C144", "title": "Nothing that a server sends makes the forwarder store outside its buffers", "statement": "Whatever the driver and the server send, the forwarder stores no byte outside the buffers it has allocated.", "quantifier": "every input in both directions and every run", "why_tests_cant": "all inputs, also hostile ones", "anchors": ["cmd/demo/usbip/usbip-win/userspace/lib/usbip_forward.c:249-263,338-352,419-468,511-560"]}
{"id": "C145", "title": "The Windows client's driver sends what was asked for", "statement": "Whatever blocks are submitted to and cancelled at the driver of the Windows client, and in whatever order reads, writes and completions happen, what goes to the socket is a prefix of the messages that the USB/IP protocol prescribes for the blocks, in their order, numbered from 1 without gaps, with only cancelled blocks left out and with unlinks that name the numbers of cancelled blocks; and nothing else goes out.", "quantifier": "every sequence of blocks of the kinds modelled, every run of driver and forwarder", "why_tests_cant": "all schedules of clients, forwarder and socket, and all contents of the memory that is read into", "anchors": ["cmd/demo/usbip/usbip-win/driver/vhci/vhci_read.c:57-1001", "cmd/demo/usbip/usbip-win/driver/vhci/usbreq.c:24-271", "cmd/demo/usbip/usbip-win/driver/vhci/vhci_proto.c:12-48"]}
{"id": "C146", "title": "The Windows client does not stop carrying requests", "statement": "When driver and forwarder have come to rest, the message of every block that was not cancelled has been written whole; no block and no cancelling makes them stop.", "quantifier": "every sequence of blocks and every run", "why_tests_cant": "depends on which request meets which read, and on everything that may follow", "anchors": ["cmd/demo/usbip/usbip-win/driver/vhci/usbreq.c:71-125,198-271", "cmd/demo/usbip/usbip-win/driver/vhci/vhci_read.c:815-1001"]}
{"id": "C147", "title": "Every block ends once", "statement": "Every block submitted to the driver of the Windows client has, at every moment, either been completed exactly once or is held by the driver exactly once.", "quantifier": "every sequence of blocks, cancellations and aborted pipes, every input from the server, every run", "why_tests_cant": "all runs, with blocks in each of the driver's lists", "anchors": ["cmd/demo/usbip/usbip-win/driver/vhci/usbreq.c:35-56,71-125,198-271", "cmd/demo/usbip/usbip-win/driver/vhci/vhci_write.c:386-443", "cmd/demo/usbip/usbip-win/driver/vhci/vhci_internal_ioctl.c:6-84"]}
{"id": "C148", "title": "The Windows client tells the outcome of every block", "statement": "In a run of driver and forwarder of the Windows client, a block that ended was cancelled and says so, or it tells what the server's reply to its number says: the data and the count for IN, the count for OUT; and when everything the server sent was carried, every block that was answered has ended.", "quantifier": "every sequence of blocks, every honest sequence of replies in every order and division, every run", "why_tests_cant": "all interleavings of submissions, cancellations, partial reads and replies", "anchors": ["cmd/demo/usbip/usbip-win/driver/vhci/vhci_write.c:101-443", "cmd/demo/usbip/usbip-win/driver/vhci/usbreq.c:35-56", "cmd/demo/usbip/usbip-win/userspace/lib/usbip_forward.c:511-645"]}
{"id": "C149", "title": "The Windows client's driver stays within its memory", "statement": "Whatever the server answers and whatever is submitted, cancelled and aborted, the driver neither reads nor writes outside its buffers and uses no request that was freed.", "quantifier": "every sequence of blocks and replies, every run", "why_tests_cant": "the failing cases need one kind of transfer, one value of a field or one moment of an abort", "anchors": ["cmd/demo/usbip/usbip-win/driver/vhci/vhci_write.c:101-172", "cmd/demo/usbip/usbip-win/driver/vhci/vhci_internal_ioctl.c:6-55", "cmd/demo/usbip/usbip-win/driver/vhci/vhci_read.c:815-1001"]}
{"id": "C150", "title": "The Windows client gets from the Go server what the device gives", "statement": "When the bundled Windows client is attached to this project's server, the server's replies are such as the client's driver needs them; a block that ended was cancelled, or tells that all was moved: an IN transfer on endpoint 1 holds something the device produced (or zeros after the timeout), what an OUT transfer wrote to endpoint 2 has reached the device, a descriptor is one of the type asked for; and the driver stays within its memory.", "quantifier": "every sequence of blocks known to the driver, every interleaving of the client's driver and forwarder, every run of the server on what it has read of the client's messages", "why_tests_cant": "two programs in two languages and two kernels; the joint interleavings and divisions of the streams are unbounded", "anchors": ["usbip/usbip_server.go:74-178", "usb/usb_device.go:66-150", "cmd/demo/usbip/usbip-win/driver/vhci/vhci_write.c:101-443", "cmd/demo/usbip/usbip-win/userspace/lib/usbip_forward.c:511-645"]}
{"id": "C151", "title": "Every block of the Windows client ends once client and server have nothing left to do", "statement": "When the bundled Windows client and this project's server run together on a connection that carries what is written, a block that ended was cancelled or tells what the device gave or took; when nothing is left to do, every block that was not cancelled and that the device answers has ended; and no step of either leaves the memory of the driver.", "quantifier": "every sequence of blocks known to the driver, every interleaving of driver, forwarder, connection and server, every division of the bytes on the connection that cuts no data part", "why_tests_cant": "that a reply never overtakes its request in the driver depends on the causal order of four concurrent parties; the interleavings are unbounded", "anchors": ["usbip/usbip_server.go:74-178", "usb/usb_device.go:66-150", "cmd/demo/usbip/usbip-win/driver/vhci/vhci_read.c:722-1040", "cmd/demo/usbip/usbip-win/driver/vhci/vhci_write.c:101-443", "cmd/demo/usbip/usbip-win/userspace/lib/usbip_forward.c:511-645"]}
{"id": "C152", "title": "Lines logged while SetLogOutput and SetLogLevel run are each shown once and none is left behind", "statement": "While goroutines log and the outputs are being set, every line is at one place (shown, kept, or with a call that has not returned); what was kept when a call of SetLogOutput or SetLogLevel began is shown when it returns; what is logged after the outputs were set is shown; and no line logged while SetLogOutput runs stays behind.", "quantifier": "every interleaving of any number of goroutines that log with one goroutine that sets outputs and levels, every sequence of calls, every division of the reads", "why_tests_cant": "setOutput tests the buffer, reads it and assigns the output in separate unlocked steps; a line written between them depends on the schedule, which a test does not choose", "anchors": ["util/log.go:34-70", "virtual_fido.go:21-27"]}
{"id": "C153", "title": "The log of the HID server tells the traffic and nothing else", "statement": "Two devices of any kind and with any secrets that exchange the same CTAPHID packets with the host log the same; and for the same messages the same log means the same replies, keepalives aside.", "quantifier": "all pairs of authenticators behind the HID server, all their states, all sequences of messages of any content, any numbers of keepalives", "why_tests_cant": "that nothing secret is logged is a statement about pairs of runs over all secrets, and that packets determine the logged payload one about payloads of every length", "anchors": ["ctap_hid/ctap_hid.go:10-106", "ctap_hid/channel.go:26-109", "ctap_hid/transaction.go:23-113", "ctap_hid/data.go:72-104"]}
{"id": "C154", "title": "Taking out the device of the Windows client ends every block once", "statement": "When the device is unplugged and removed, every block that was submitted to the driver ends exactly once, blocks that come later end at once, none ends with success any more, and the forwarder's pending read ends.", "quantifier": "all sequences of blocks, cancellations, aborts and traffic before, all moments of unplugging and removal, all interleavings of submissions with them, anything the forwarder does afterwards", "why_tests_cant": "what happens when a device disappears depends on where each request is at that moment; a request that never ends shows only as a hang, and only in some interleavings", "anchors": ["cmd/demo/usbip/usbip-win/driver/vhci/vhci_pnp_remove.c:12-128", "cmd/demo/usbip/usbip-win/driver/vhci/vhci_plugin.c:148-180", "cmd/demo/usbip/usbip-win/driver/vhci/vhci_vhub.c:142-180", "cmd/demo/usbip/usbip-win/driver/vhci/vhci_internal_ioctl.c:153-196", "cmd/demo/usbip/usbip-win/driver/vhci/vhci_read.c:895-919", "cmd/demo/usbip/usbip-win/driver/vhci/usbreq.c:198-271"]}
{"id": "C155", "title": "The log of the USB/IP server determines requests and replies", "statement": "The lines that the server logs about a request determine the request, those about a reply to a SUBMIT the bytes sent, and the line about a setup packet tells the packet and the type of its request.", "quantifier": "all pairs of requests of any kind in any pieces, all pairs of replies of any length, all pairs of setup packets", "why_tests_cant": "that different inputs give different texts is about all pairs of inputs; masks and maps that lose information show only for values that a test does not use", "anchors": ["usbip/usbip.go:127-136", "usbip/usbip.go:155-172", "usbip/usbip_server.go:102-172", "usb/usb.go:156-175", "usb/usb.go:185-187", "usb/usb_device.go:70-72"]}
{"id": "C156", "title": "What a host can make the HID server keep is bounded", "statement": "Of a request that is not complete the server keeps at most 7609 bytes, whatever length was announced; it hands no longer message to the authenticators; and all that it keeps for a host is bounded.", "quantifier": "all sequences of reports of up to 64 bytes, all authenticators behind the server, every number of channels", "why_tests_cant": "bounds on memory are about the longest and most hostile sequences; a server that never gives back a channel passes every test of ordinary length", "anchors": ["ctap_hid/transaction.go:23-95", "ctap_hid/ctap_hid.go:54-70", "ctap_hid/channel.go:26-84"]}
{"id": "C157", "title": "What a client can make the USB/IP server hold and send is in proportion to what it sends", "statement": "The server answers or holds one request for each eight bytes received, holds no buffer when all timers have run out, and the bytes it sends and holds are at most a thousand for each byte received.", "quantifier": "every stream of bytes in any pieces, every interleaving of reader, timers, callbacks and device", "why_tests_cant": "proportion between input and memory is about the most hostile input; the server trusts an announced length up to 2^32, which no test dares to announce", "anchors": ["usbip/usbip_server.go:120-178", "usb/usb_device.go:66-97", "util/request_buffer.go:20-61"]}
{"id": "C158", "title": "The goroutines of a request do not pile up", "statement": "While a CBOR request is processed there are at most two goroutines beside its handler, none of them ever blocks at a channel for good, at most one KEEPALIVE is sent per expiration of the timer, and once the request is answered all of them return within one more expiration.", "quantifier": "every schedule of the loop, the waits, the select and the handler", "why_tests_cant": "a goroutine that stays blocked in one schedule of many is not seen by a test that looks at replies", "anchors": ["util/util.go:131-150", "ctap_hid/channel.go:92-97"]}
{"id": "C159", "title": "Recorded PIN requests give no more guesses", "statement": "Whoever has recorded a conversation with the device, can send its requests again and otherwise only offers wrong PINs, is told at most eight times that a PIN is wrong; a request for the PIN token sent again tells nothing new and changes nothing but the number of guesses left.", "quantifier": "every state, every recorded request for the token, any number of wrong guesses in between", "why_tests_cant": "a test offers right and wrong PINs with fresh requests; that an old request stays good is about every later state", "anchors": ["ctap/ctap.go:564-586", "ctap/ctap.go:430-433", "fido_client/fido_client.go:168-179"]}
{"id": "C160", "title": "A login that names no credential uses the newest", "statement": "After a registration with a relying party, a login for it without an allow list is answered with the new credential; with an allow list it is answered with a credential named there.", "quantifier": "every state of the device, every request for registration and login, every conversation without deletions in between", "why_tests_cant": "a test registers once and logs in; which of several credentials answers, after any conversation, is about every order of the vault", "anchors": ["fido_client/fido_client.go:107-119", "identities/identity_vault.go:41-87", "ctap/ctap.go:322-377"]}
{"id": "C161", "title": "Deleting a credential leaves the others as they answer", "statement": "The credential that answers logins of a relying party without an allow list also answers them after another credential was deleted.", "quantifier": "every state of the device, every deletion and every login after it", "why_tests_cant": "a test deletes the only or the last credential; the effect needs three credentials in a certain order", "anchors": ["identities/identity_vault.go:59-68", "fido_client/fido_client.go:107-119", "fido_client/fido_client.go:278-284"]}
{"id": "C162", "title": "An account has one resident credential", "statement": "A registration that asks for a resident key and succeeds leaves at most one credential for each pair of relying party and account: an older one of the same account is overwritten (CTAP 2.0, 5.1).", "quantifier": "every state of the device, every registration request", "why_tests_cant": "a test registers one account once; the statement is about every state reached before", "anchors": ["ctap/ctap.go:203-264", "fido_client/fido_client.go:87-105", "identities/identity_vault.go:39-57"]}
{"id": "C163", "title": "A login that names no credential tells the account", "statement": "A successful login without an allow list tells, besides the credential, the account id of the user, so that the relying party knows who logs in (CTAP 2.0, 5.2).", "quantifier": "every state of the device and every login request", "why_tests_cant": "the tests look at the signature; what no answer contains is a statement about all answers", "anchors": ["ctap/ctap.go:317-377"]}
