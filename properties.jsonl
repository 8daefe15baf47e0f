{"id": "C01", "title": "Receive ring buffer is a lossless bounded FIFO", "statement": "Whatever interleaving of byte arrivals and byte reads happens on a channel, the bytes the protocol layer reads out are exactly the bytes that arrived, in order, without loss, duplication or invention, as long as no more than 511 unread bytes are pending; when the buffer is full a push is refused and changes nothing.", "quantifier": "every initial content, every finite sequence of push/pop/push_buf/pop_buf calls with arbitrary bytes and lengths, every head/tail wrap position", "why_tests_cant": "head/tail wrap interacts with every fill level and every call interleaving; a test visits a handful of the 512*512 index pairs and histories", "anchors": ["src/osdp_common.c: osdp_rb_push, osdp_rb_push_buf, osdp_rb_pop, osdp_rb_pop_buf", "src/osdp_common.h: struct osdp_rb"]}
{"id": "C02", "title": "CRC field is the standard CRC-16/CCITT (poly 0x1021, init 0x1D0F)", "statement": "For every byte string, the two check bytes put on the wire equal the textbook bit-serial CRC-16 with polynomial x^16+x^12+x^5+1 and initial value 0x1D0F, so any conforming peer accepts the packet.", "quantifier": "every byte string of every length", "why_tests_cant": "a table of known-answer vectors covers finitely many strings; the optimised byte-wise formula must agree on all of them", "anchors": ["src/osdp_common.c: crc16_itu_t, osdp_compute_crc16"]}
{"id": "C03", "title": "CRC detects every corruption confined to 16 consecutive bits", "statement": "If a packet that passes the CRC test is altered only inside a window of at most 16 consecutive bits (in particular any one or two adjacent bytes), wherever that window lies, the altered packet does not pass the CRC test.", "quantifier": "every packet of every length, every position of the window, every error pattern inside it", "why_tests_cant": "error patterns x positions x packet contents cannot be enumerated", "anchors": ["src/osdp_common.c: crc16_itu_t", "src/osdp_phy.c: phy_check_packet"]}
{"id": "C04", "title": "Checksum makes the byte sum zero and detects every single-byte corruption", "statement": "A packet accepted in checksum mode has all its bytes summing to 0 modulo 256, the checksum the library computes always makes it so, and changing exactly one byte of an accepted packet always makes the checksum test fail.", "quantifier": "every byte string of every length, every position, every replacement byte", "why_tests_cant": "same as for CRC: unbounded strings and positions", "anchors": ["src/osdp_phy.c: osdp_compute_checksum, phy_check_packet"]}
{"id": "C05", "title": "AES-128 decryption inverts encryption for every key and block", "statement": "With the bundled software cipher, decrypting what was encrypted under the same key gives back the original, for single blocks and for CBC over any number of blocks with any IV.", "quantifier": "every 16-byte key, every IV, every message that is a whole number of blocks", "why_tests_cant": "2^128 keys x unbounded messages; known-answer tests touch a few", "anchors": ["src/crypto/tinyaes_src.c: KeyExpansion, Cipher, InvCipher, AES_CBC_encrypt_buffer, AES_CBC_decrypt_buffer", "src/crypto/tinyaes.c: osdp_encrypt, osdp_decrypt"]}
{"id": "C06", "title": "Secure-channel data block decrypts to exactly what was encrypted", "statement": "For every payload (any bytes, including ones ending in 0x80 or zeros) encrypted by one side, the other side, holding the same session keys and chaining value, recovers exactly that payload and its length.", "quantifier": "every payload byte string of every length, every session key and chaining value, both directions", "why_tests_cant": "padding removal scans backwards over data-dependent bytes; payloads ending in 0x80/0x00 at every block offset cannot be enumerated", "anchors": ["src/osdp_sc.c: osdp_encrypt_data, osdp_decrypt_data"]}
{"id": "C07", "title": "Secure-channel handshake agrees on keys", "statement": "If CP and PD hold the same base key, then whatever random numbers both choose, the CP accepts the PD's cryptogram, the PD accepts the CP's cryptogram, and afterwards both sides hold identical session keys and the same reply-MAC chaining value.", "quantifier": "every base key, every pair of random numbers, every client UID", "why_tests_cant": "2^128 keys x 2^128 nonces", "anchors": ["src/osdp_sc.c: osdp_compute_session_keys, osdp_compute_cp_cryptogram, osdp_compute_pd_cryptogram, osdp_verify_cp_cryptogram, osdp_verify_pd_cryptogram, osdp_compute_rmac_i", "src/osdp_cp.c: cp_build_command, cp_decode_response", "src/osdp_pd.c: pd_decode_command, pd_build_reply"]}
{"id": "C08", "title": "CP activates secure channel only with a PD that proved the key", "statement": "The CP marks the secure channel active only after a REPLY_CCRYPT whose cryptogram equals the AES encryption of (CP random || PD random) under the session key derived from the CP's base key (or SCBK-D when that was chosen); any other cryptogram takes the PD out of the handshake without activating it.", "quantifier": "every reply byte string in every CP state and every history", "why_tests_cant": "adversarial replies in every handshake state cannot be enumerated", "anchors": ["src/osdp_cp.c: cp_decode_response, state_check_reply, get_next_ok_state", "src/osdp_sc.c: osdp_verify_pd_cryptogram"]}
{"id": "C09", "title": "PD activates secure channel only on a correct CP cryptogram", "statement": "A PD turns the secure channel on only when the 16 bytes of a received CMD_SCRYPT equal the AES encryption of (PD random || CP random) under the current session encryption key; otherwise it answers with a failure status and stays unsecured.", "quantifier": "every received byte stream, every PD state and history", "why_tests_cant": "needs all states and all inputs", "anchors": ["src/osdp_pd.c: pd_decode_command CMD_SCRYPT, pd_build_reply REPLY_RMAC_I", "src/osdp_sc.c: osdp_verify_cp_cryptogram"]}
{"id": "C10", "title": "A plain packet survives the trip CP to PD and PD to CP", "statement": "Any command or reply payload that fits is framed by the sender and, after being delivered intact (in any chunking and after any amount of line noise that contains no start-of-message byte), is accepted by the receiver, which gets exactly that payload; with or without the leading mark byte.", "quantifier": "every payload, every address, every sequence number state, every chunking, every noise prefix", "why_tests_cant": "payloads x chunkings x receiver states are unbounded", "anchors": ["src/osdp_phy.c: osdp_phy_packet_init, osdp_phy_packet_finalize, phy_check_header, phy_check_packet, osdp_phy_check_packet, osdp_phy_decode_packet"]}
{"id": "C11", "title": "A secure packet survives the trip and both ends stay in step", "statement": "While both sides hold the same session keys and MAC chain, any payload sent by one (MAC only or encrypted) is accepted by the other with exactly that payload, and both sides' MAC chains are again equal afterwards; hence after any number of command/reply exchanges the session is still usable.", "quantifier": "every session key, every chain value, every sequence of payloads of any length in both directions", "why_tests_cant": "the chain state depends on the whole history of the session", "anchors": ["src/osdp_phy.c: osdp_phy_packet_finalize, osdp_phy_decode_packet", "src/osdp_sc.c: osdp_compute_mac"]}
{"id": "C12", "title": "No unauthenticated packet is processed inside a secure session (PD)", "statement": "While the secure channel is active, the PD hands the content of a packet with a non-handshake security block to the command decoder only if its four MAC bytes equal the MAC the PD computes over the packet under the session keys and chain; otherwise it answers NAK(6) and drops the session. A packet without security block is never processed in that state.", "quantifier": "every packet content, every session state", "why_tests_cant": "adversarial packets cannot be enumerated", "anchors": ["src/osdp_phy.c: osdp_phy_decode_packet", "src/osdp_pd.c: pd_receive_and_process_command"]}
{"id": "C13", "title": "Inside a secure session every processed command is authenticated", "statement": "While the secure channel is active, a PD never executes a command from a packet that carries no valid MAC.", "quantifier": "every packet content, every session state", "why_tests_cant": "one must consider every possible forged packet", "anchors": ["src/osdp_phy.c: osdp_phy_decode_packet (SCS_11..SCS_14 path)"]}
{"id": "C14", "title": "ENFORCE_SECURE: PD application is never reached outside a secure channel", "statement": "A PD set up with ENFORCE_SECURE never invokes the application command callback, never changes its address, baud rate or key and never transfers file data on behalf of a received packet unless the secure channel is active; outside a secure channel it only answers ID, CAP, CHLNG and SCRYPT and NAKs(6) everything else.", "quantifier": "every received byte stream, every callback behaviour, every history of refreshes", "why_tests_cant": "requires all inputs and all reachable states", "anchors": ["src/osdp_pd.c: pd_decode_command, osdp_pd_update"]}
{"id": "C15", "title": "PD key changes only by an accepted KEYSET inside a secure channel", "statement": "The base key of a PD changes only when a KEYSET command of type 1 with a 16 byte key was received inside an active secure channel and the application accepted it; the new key is exactly the one received and the running session is dropped so that the new key must be proven.", "quantifier": "every received byte stream, every callback behaviour, every history", "why_tests_cant": "requires all inputs and all reachable states", "anchors": ["src/osdp_pd.c: pd_decode_command CMD_KEYSET, osdp_pd_update"]}
{"id": "C16", "title": "SCBK-D is usable only in install mode, which a KEYSET ends", "statement": "A PD that is not in install mode never runs a handshake with the default key SCBK-D; install mode is never entered at run time and a successful KEYSET ends it for good.", "quantifier": "every received byte stream, every history of refreshes and API calls after setup", "why_tests_cant": "the flag can be influenced by any handshake packet at any time", "anchors": ["src/osdp_phy.c: osdp_phy_decode_packet", "src/osdp_pd.c: osdp_pd_update, osdp_pd_setup", "src/osdp_sc.c: osdp_compute_session_keys"]}
{"id": "C17", "title": "PD drops an idle secure session", "statement": "If more than 8 s have passed since the PD last accepted a valid command in the secure session (extended only by KEEPACTIVE), no later packet is processed in that session: the PD treats the secure channel as inactive before looking at new bytes.", "quantifier": "every clock sequence, every history", "why_tests_cant": "depends on all timings", "anchors": ["src/osdp_pd.c: osdp_pd_update, pd_decode_command CMD_KEEPACTIVE"]}
{"id": "C18", "title": "Sequence number 0 restarts communication and drops the secure session", "statement": "A valid packet with sequence number 0 always gets accepted by the PD's sequence check in every state and leaves the secure channel inactive; a packet with any other number is accepted only if it repeats the last number or is its successor in the cycle 1,2,3.", "quantifier": "every PD state, every packet", "why_tests_cant": "all histories of sequence numbers", "anchors": ["src/osdp_phy.c: phy_check_packet, osdp_phy_get_seq_number"]}
{"id": "C19", "title": "CP sequence numbers cycle 0,1,2,3,1,2,3,...", "statement": "After a reset the CP numbers its transmissions 0, then cycles 1,2,3 for ever; a BUSY answer makes the next transmission reuse the number of the command that was refused.", "quantifier": "every number of transmissions and every pattern of BUSY answers", "why_tests_cant": "unbounded histories", "anchors": ["src/osdp_phy.c: osdp_phy_packet_init, osdp_phy_get_seq_number, phy_check_packet"]}
{"id": "C20", "title": "A PD never answers a command addressed to another device", "statement": "A well-formed command packet carrying another PD's address causes no transmission, no callback and no change of the secure channel, and the packet is consumed as a whole, so a following packet is received normally; a command to the broadcast address is processed and answered with address 0x7F.", "quantifier": "every packet to every foreign address, every PD state", "why_tests_cant": "all packets x all states", "anchors": ["src/osdp_phy.c: phy_check_packet, osdp_phy_packet_init", "src/osdp_pd.c: pd_receive_and_process_command"]}
{"id": "C21", "title": "PD only speaks when spoken to, at most once per refresh", "statement": "In one refresh a PD transmits at most one packet, and transmits only if a complete packet addressed to it (or broadcast) passed its CRC/checksum in that very refresh.", "quantifier": "every byte stream, chunking, state", "why_tests_cant": "all inputs and states", "anchors": ["src/osdp_pd.c: osdp_pd_update, pd_send_reply"]}
{"id": "C22", "title": "Transmitted packets are well formed and respect the peer's buffer", "statement": "Every packet the library sends starts with (optional mark and) SOM, carries the right address/direction bit, a length field equal to its real length, a valid CRC, and its total length never exceeds the packet buffer nor the receive size announced by the peer.", "quantifier": "every state, every payload", "why_tests_cant": "all payload sizes x peer sizes x security modes", "anchors": ["src/osdp_phy.c: osdp_phy_packet_init, osdp_phy_packet_finalize", "src/osdp_common.h: get_tx_buf_size"]}
{"id": "C23", "title": "Receiving arbitrary bytes never writes outside the packet buffer", "statement": "Whatever bytes arrive, in whatever chunks, the receive path stays inside its packet buffer and never leaves it with an inconsistent fill level.", "quantifier": "every byte stream, every chunking, every reachable receive state", "why_tests_cant": "memory safety over all inputs; fuzzing samples only", "anchors": ["src/osdp_phy.c: phy_check_header, osdp_phy_check_packet"]}
{"id": "C24", "title": "Receive result does not depend on chunking", "statement": "How the bytes of a packet are split over refresh calls does not change what the receiver makes of the packet, as long as the reply timeout is not hit.", "quantifier": "every packet, every split", "why_tests_cant": "2^n splits", "anchors": ["src/osdp_phy.c: osdp_channel_receive, phy_check_header, osdp_phy_check_packet"]}
{"id": "C25", "title": "Commands arrive at the PD application exactly as submitted at the CP", "statement": "For each output, LED, buzzer, text, comset, manufacturer, keyset and status command with fields in their documented ranges, the structure the PD's callback receives equals the one passed to the CP, field by field.", "quantifier": "every value of every field of every command kind", "why_tests_cant": "product of all field ranges and all data contents", "anchors": ["src/osdp_cp.c: cp_build_command, cp_translate_cmd", "src/osdp_pd.c: pd_decode_command"]}
{"id": "C26", "title": "Events arrive at the CP application exactly as submitted at the PD", "statement": "For each card read (raw/wiegand), key press, manufacturer reply and status event within documented sizes, the event the CP's callback receives equals the one queued at the PD.", "quantifier": "every value of every field, all data contents", "why_tests_cant": "product of all field ranges", "anchors": ["src/osdp_pd.c: pd_translate_event, pd_build_reply", "src/osdp_cp.c: cp_decode_response"]}
{"id": "C27", "title": "PD identity and capabilities reported to the CP are exact", "statement": "After the ID and CAP exchange the CP API returns exactly the vendor, model, version, serial and firmware the PD was set up with (in their wire widths) and the compliance/num_items of every capability the PD declared, including the implicit ones.", "quantifier": "every id, every capability table", "why_tests_cant": "all id values x all capability tables", "anchors": ["src/osdp_pd.c: pd_build_reply REPLY_PDID/REPLY_PDCAP, osdp_pd_set_attributes", "src/osdp_cp.c: cp_decode_response, osdp_cp_get_pd_id, osdp_cp_get_capability"]}
{"id": "C28", "title": "PD events are delivered in order, exactly once, one per POLL", "statement": "Events accepted by notify are reported in the order accepted, each in the answer to exactly one POLL, until flushed; a notify is refused (and changes nothing) exactly when the pool is exhausted.", "quantifier": "every interleaving of notify, flush and received commands", "why_tests_cant": "unbounded histories", "anchors": ["src/osdp_pd.c: osdp_pd_notify_event, osdp_pd_flush_events, pd_decode_command CMD_POLL"]}
{"id": "C29", "title": "CP commands are taken in order, each at most once", "statement": "Commands accepted by send_command are handed to the protocol in the order accepted and each at most once; send_command is refused (and changes nothing) when the PD is not online, or the pool is exhausted, or a KEYSET is submitted without secure channel.", "quantifier": "every interleaving of send, flush and refresh", "why_tests_cant": "unbounded histories", "anchors": ["src/osdp_cp.c: osdp_cp_send_command, osdp_cp_flush_commands, cp_get_online_command"]}
{"id": "C30", "title": "PD executes control commands only within declared capabilities", "statement": "The PD calls the application for output, LED, buzzer, text and status commands only if the matching capability has a non-zero compliance level and the addressed item number is below the declared number of items (for buzzer/text: at least one item).", "quantifier": "every command content, every capability table", "why_tests_cant": "all inputs x tables", "anchors": ["src/osdp_pd.c: pd_cmd_cap_ok, pd_decode_command"]}
{"id": "C31", "title": "A command the PD refuses is reported to the CP as NAK", "statement": "If the PD's capability check or application callback refuses a received output, LED or buzzer command, the reply is a NAK.", "quantifier": "every refused command", "why_tests_cant": "all command contents, capability tables and callback behaviours", "anchors": ["src/osdp_pd.c: pd_decode_command CMD_OUT/CMD_LED/CMD_BUZ"]}
{"id": "C32", "title": "COMSET changes address and baud rate atomically and only as validated", "statement": "The PD's address and baud rate change only through a COMSET whose address is below 0x7F and whose baud rate is one of the six legal ones and which the application accepted; the reply still goes out under the old address and reports the new parameters.", "quantifier": "every received packet, callback behaviour and history", "why_tests_cant": "all inputs and states", "anchors": ["src/osdp_pd.c: pd_decode_command CMD_COMSET, pd_build_reply REPLY_COM"]}
{"id": "C33", "title": "ENFORCE_SECURE: CP goes online only with an active secure channel", "statement": "A CP-side PD entry with ENFORCE_SECURE is in the online state only while its secure channel is active and was established with the configured SCBK (never SCBK-D); so no application command and no POLL is ever sent in plain text to it.", "quantifier": "every reply stream, clock and API history", "why_tests_cant": "all histories of a large state machine", "anchors": ["src/osdp_cp.c: get_next_ok_state, get_next_err_state, state_update, cp_keyset_complete"]}
{"id": "C34", "title": "CP state machine only moves along the documented edges", "statement": "From every state the next CP state is one of the documented successors: online is entered only from capability detection (no secure channel), from a finished handshake, or from a failed one without ENFORCE_SECURE; offline is left only to the initial state.", "quantifier": "every state, reply and clock", "why_tests_cant": "all inputs x states", "anchors": ["src/osdp_cp.c: get_next_ok_state, get_next_err_state, state_update"]}
{"id": "C35", "title": "CP retries an unanswered command at most 8 times", "statement": "If a PD stops answering, the CP transmits a given command at most 9 times, each retry at least 800 ms after the 200 ms timeout, then takes the PD offline; it never transmits again before 300 s have passed.", "quantifier": "every clock sequence of refresh calls", "why_tests_cant": "unbounded refresh/time sequences", "anchors": ["src/osdp_cp.c: cp_phy_state_update, state_update, cp_state_change"]}
{"id": "C36", "title": "PDs sharing a channel never have two commands outstanding", "statement": "Of all PDs with the same non-zero channel id at most one is waiting for a reply at any time, in every refresh schedule.", "quantifier": "every number of PDs, every channel assignment, every sequence of refreshes and replies", "why_tests_cant": "all interleavings of all PDs", "anchors": ["src/osdp_cp.c: cp_channel_acquire, cp_channel_release, cp_refresh, osdp_cp_refresh"]}
{"id": "C37", "title": "CP refresh serves PDs round robin", "statement": "Each refresh continues with the PD after the last one served and, unless the single shared channel is busy, serves every PD exactly once; no PD is starved.", "quantifier": "every number of PDs, every starting point", "why_tests_cant": "all counts and schedules", "anchors": ["src/osdp_cp.c: osdp_cp_refresh, cp_add_pd"]}
{"id": "C38", "title": "CP accepts only the reply that belongs to the command", "statement": "While online, a reply is accepted for a command only if it is ACK or the reply type specified for that command (for POLL: the event reports); anything else takes the PD offline and is not reported as success.", "quantifier": "every command/reply pair", "why_tests_cant": "all pairs in all states", "anchors": ["src/osdp_cp.c: cp_check_online_response, state_update"]}
{"id": "C39", "title": "A command is reported successful only if the PD answered it", "statement": "With notifications enabled, a command-status notification saying 'success' is issued only if the PD's reply to that very command was received and acceptable; and the CP commits a new key only if the PD acknowledged the KEYSET.", "quantifier": "every command, reply, failure and history", "why_tests_cant": "all failure points", "anchors": ["src/osdp_cp.c: state_update, notify_command_status, cp_keyset_complete"]}
{"id": "C40", "title": "Status masks report exactly the PDs that are online / secured", "statement": "Bit i of the status mask (byte i/8, bit i mod 8) is set iff PD i is online; bit i of the secure-channel mask iff PD i has an active secure channel with a real key; all other bits of the written bytes are zero and no byte beyond ceil(n/8) is written.", "quantifier": "every number of PDs, every state combination", "why_tests_cant": "2^n combinations", "anchors": ["src/osdp_common.c: osdp_get_status_mask, osdp_get_sc_status_mask"]}
{"id": "C41", "title": "File transfer reproduces the file exactly", "statement": "For every file content, size and chunk size, a transfer over a link that loses nothing makes the PD's write callback receive the file's bytes at their right offsets, without gap or overlap, and both sides finish in the done state exactly when all bytes are transferred.", "quantifier": "every file content and size, every packet size, every read chunking chosen by the application", "why_tests_cant": "unbounded files", "anchors": ["src/osdp_file.c: osdp_file_cmd_tx_build, osdp_file_cmd_tx_decode, osdp_file_cmd_stat_build, osdp_file_cmd_stat_decode"]}
{"id": "C42", "title": "File transfer tolerates retransmission", "statement": "If the CP repeats a file chunk because the PD's answer got lost, the file at the PD is still complete and correct when the PD declares it done.", "quantifier": "every file, every lost answer", "why_tests_cant": "all loss patterns", "anchors": ["src/osdp_file.c: osdp_file_cmd_tx_decode, osdp_file_cmd_stat_build"]}
{"id": "C43", "title": "No remote input makes the library abort", "statement": "No packet from the bus makes a PD or CP terminate the process by an assertion or dereference a null pointer.", "quantifier": "every byte stream, state and configuration", "why_tests_cant": "all inputs and states", "anchors": ["src/osdp_common.c: osdp_cmd_name", "src/osdp_file.c: asserts", "src/osdp_pd.c: assert_buf_len, CMD_LSTAT"]}
{"id": "C44", "title": "A PD answers every valid command addressed to it", "statement": "Every packet addressed to the PD that passes CRC and sequence check is answered (possibly by NAK) in the same refresh, provided the channel accepts the bytes.", "quantifier": "every packet and state", "why_tests_cant": "all inputs and states", "anchors": ["src/osdp_pd.c: osdp_pd_update, pd_send_reply"]}
{"id": "C45", "title": "Malformed commands are NAKed with the documented reason", "statement": "A command with a wrong length is answered NAK(2), an unknown command code NAK(3), a sequence error NAK(4), a security block on a device without secure channel NAK(5), and a violated security condition NAK(6); none of them reaches the application.", "quantifier": "every malformed packet", "why_tests_cant": "all lengths x codes x states", "anchors": ["src/osdp_pd.c: pd_decode_command", "src/osdp_phy.c: phy_check_packet, osdp_phy_decode_packet"]}
{"id": "C46", "title": "CP runtime flag changes are restricted", "statement": "osdp_cp_modify_flag changes exactly the requested flags among ENFORCE_SECURE, INSTALL_MODE and IGN_UNSOLICITED, and rejects any other flag without effect.", "quantifier": "every flag word", "why_tests_cant": "2^32 flag words x states", "anchors": ["src/osdp_cp.c: osdp_cp_modify_flag"]}
{"id": "C47", "title": "Every event handed to the CP application was received in a reply", "statement": "The CP event callback is called with an event only as a consequence of a reply carrying exactly that event, once per reply.", "quantifier": "every reply stream and history", "why_tests_cant": "all histories", "anchors": ["src/osdp_cp.c: cp_decode_response, state_update, do_event_callback"]}
{"id": "C48", "title": "Offline PDs are left alone for the retry period", "statement": "Once the CP takes a PD offline, the CP transmits nothing to it until more than 300 s have passed, then restarts from the ID request with sequence number 0.", "quantifier": "every clock sequence", "why_tests_cant": "unbounded time sequences", "anchors": ["src/osdp_cp.c: get_next_ok_state, cp_state_change"]}
{"id": "C49", "title": "A PD opens a secure session only for a peer that knows its base key", "statement": "Whatever packets arrive after setup, a PD that was set up with a base key and is not in install mode has a secure channel open only if some received cryptogram was computed from that base key (directly or through the session keys derived from it).", "quantifier": "all setups with a key, all packet sequences", "why_tests_cant": "tests run the regular handshake; an adversary may omit or reorder its steps, including before the first challenge", "anchors": ["src/osdp_pd.c:CMD_SCRYPT", "src/osdp_sc.c:osdp_verify_cp_cryptogram", "src/osdp_sc.c:osdp_compute_session_keys"]}
{"id": "C50", "title": "A recorded secure packet is not executed a second time", "statement": "An authenticated command packet that the PD executed once is not executed again when the same bytes, together with any other bytes of the recorded session, are sent to the PD later.", "quantifier": "all recorded sessions, all replays", "why_tests_cant": "replay needs adversarial schedules across session ends; unit tests only check that a single modified MAC is refused", "anchors": ["src/osdp_pd.c:CMD_SCRYPT", "src/osdp_pd.c:REPLY_RMAC_I", "src/osdp_phy.c:phy_decode_packet"]}
{"id": "C51", "title": "A command repeated with the same sequence number is not executed twice", "statement": "If the CP repeats a command packet with an unchanged sequence number (because the reply got lost), the PD repeats its reply without invoking the application a second time.", "quantifier": "all commands, all times of repetition", "why_tests_cant": "needs loss of a reply between two refresh calls for every command kind", "anchors": ["src/osdp_phy.c:phy_check_packet", "src/osdp_pd.c:pd_decode_command"]}
{"id": "C52", "title": "Events from a PD with an open secure channel are authentic", "statement": "While the secure channel to a PD is active, the CP hands an event to the application only if the reply that carried it was authenticated with a MAC under the session keys.", "quantifier": "all CP states with an active secure channel, all byte streams on the line", "why_tests_cant": "an attacker may put any bytes on the line; a test injects a few chosen ones", "anchors": ["src/osdp_phy.c:osdp_phy_decode_packet", "src/osdp_cp.c:cp_decode_response"]}
{"id": "C53", "title": "No reply of a PD drives the CP into undefined behaviour", "statement": "Whatever bytes arrive from a PD, osdp_cp_refresh finishes without an out-of-bounds access, assertion failure or other undefined behaviour.", "quantifier": "all reachable CP states, all byte streams, all chunkings", "why_tests_cant": "the space of replies and states is unbounded", "anchors": ["src/osdp_cp.c:cp_decode_response", "src/osdp_phy.c:osdp_phy_decode_packet"]}
{"id": "C54", "title": "A lost command is repaired by retransmission", "statement": "If the packet that carries a command is lost on the line and nothing else is, the CP sends the command again, the PD executes it, and the PD stays online.", "quantifier": "all reachable connected CP/PD pairs, all commands, all times of loss", "why_tests_cant": "which packet is lost, in which states and with which sequence numbers, is unbounded", "anchors": ["src/osdp_cp.c:cp_phy_state_update", "src/osdp_phy.c:osdp_phy_packet_init", "src/osdp_phy.c:phy_check_packet"]}
{"id": "C55", "title": "A lost reply is repaired by retransmission", "statement": "If the packet that carries a reply is lost on the line and nothing else is, the CP repeats the command, gets a reply, and the connection (with its secure channel, if any) continues.", "quantifier": "all reachable connected CP/PD pairs, in and outside a secure channel", "why_tests_cant": "as for C54; the existing tests do not drop packets", "anchors": ["src/osdp_cp.c:cp_phy_state_update", "src/osdp_phy.c:phy_check_packet", "src/osdp_phy.c:osdp_phy_decode_packet"]}
{"id": "C56", "title": "An event survives the loss of the reply that carries it", "statement": "An event that the PD application submitted reaches the CP application even if the reply that carries it is lost on the line once.", "quantifier": "all connected CP/PD pairs, all events", "why_tests_cant": "any event, any moment of loss", "anchors": ["src/osdp_pd.c:pd_decode_command", "src/osdp_cp.c:cp_phy_state_update"]}
{"id": "C57", "title": "Every command gets its own number of attempts", "statement": "A command is attempted OSDP_CMD_MAX_RETRIES more times before the CP gives the PD up, regardless of losses that were repaired earlier.", "quantifier": "all histories of a connection", "why_tests_cant": "depends on the whole history of the connection", "anchors": ["src/osdp_cp.c:cp_phy_state_update", "src/osdp_phy.c:osdp_phy_state_reset"]}
{"id": "C58", "title": "On a line that loses nothing every command and every event arrives exactly once and in order", "statement": "While a CP and a PD are connected and the line delivers what is sent in time, then however the refreshes of both sides interleave and whenever commands and events are submitted, the PD application is asked to execute the submitted commands, and the CP application is told the submitted events, in the order of submission, none missing and none twice; the CP stays online, a secure channel stays up, no call fails with undefined behaviour, and one exchange per command and then per event is enough.", "quantifier": "all connected CP/PD pairs, in a secure channel or outside one if the CP does not want one; all finite sequences of refreshes and submissions in any order; commands that are acknowledged without data (output, LED, buzzer, text, manufacturer) and accepted by the application; every packet arrives whole in one refresh", "why_tests_cant": "unbounded interleavings of two state machines with submissions at any point; tests run a few fixed sequences", "anchors": ["src/osdp_cp.c:state_update", "src/osdp_cp.c:cp_phy_state_update", "src/osdp_pd.c:osdp_pd_update", "src/osdp_pd.c:osdp_pd_notify_event", "src/osdp_cp.c:osdp_cp_send_command"]}
{"id": "C59", "title": "A CP and a PD with matching settings find each other and start working", "statement": "After setup with the same address and the same key (or both without one), after a restart of the CP while the PD still has a session, and after the CP gave the PD up and its waiting time is over, a fixed number of exchanges on a line that delivers what is sent (two without a key, four with one) ends with the PD online at the CP, in a secure channel if there is a key, both sides ready for commands and events, and nothing lost from the queues.", "quantifier": "all such pairs reachable by any history of calls, whatever session, sequence number or queued events the PD has; all random numbers, clocks and chunkings of the deliveries; PD with a declared receive size of at least 95 bytes and nothing half received", "why_tests_cant": "all histories of the PD before the meeting and all random challenges; tests use freshly set up pairs", "anchors": ["src/osdp_cp.c:get_next_state", "src/osdp_cp.c:cp_state_change", "src/osdp_cp.c:state_update", "src/osdp_pd.c:osdp_pd_setup", "src/osdp_phy.c:phy_check_packet"]}
{"id": "C60", "title": "A change of the key leaves both ends with the new key and in a new session", "statement": "When the CP's application sends a KEYSET command in a session, or the CP reached the PD with the default key and hands over its own, then on a line that delivers what is sent the PD's application is called exactly once with that key; if it accepts, both sides store the key, neither uses the default key, the PD has left install mode, and two exchanges later they are in a session made with the new key and ready for commands and events. (On a line that loses the PD's answer this does not hold: the PD has the new key and the CP the old one.)", "quantifier": "all pairs reachable by any history of calls, all keys, random numbers, clocks, queued events and chunkings of the deliveries; the PD has an application that accepts the key and its session has not timed out", "why_tests_cant": "all keys, histories and random challenges, and the moment between the PD storing the key and the CP hearing of it", "anchors": ["src/osdp_cp.c:cp_keyset_complete", "src/osdp_cp.c:fill_local_keyset_cmd", "src/osdp_cp.c:get_next_state", "src/osdp_pd.c:pd_decode_command", "src/osdp_pd.c:osdp_update"]}
{"id": "C61", "title": "Devices that share a line do not disturb each other", "statement": "While a PD hears traffic that is not for it, that is stray bytes, intact packets of the CP for other PDs, and packets of other PDs, in any order, any number, and cut into pieces in any way, it sends nothing, calls no application, and nothing of its state changes but its receive buffers: number, session keys, session state, settings, queued events and file transfer stay. When the line is silent its buffers become empty, and a CP and PD that were working together go on in the same session. (The code guarantees this only for packets of other PDs without the start byte 0x53 behind their first byte: it steps over the header of such a packet and searches for a start byte inside it.)", "quantifier": "all PD states reachable by any history of calls, all sequences of refreshes with any bytes in any chunks as long as a refresh comes in time (room in the ring buffer, no packet older than 200 ms, session not timed out)", "why_tests_cant": "all interleavings of the traffic of the other devices and all ways in which it is cut into reads", "anchors": ["src/osdp_phy.c:phy_check_header", "src/osdp_phy.c:osdp_phy_check_packet", "src/osdp_phy.c:phy_check_packet", "src/osdp_pd.c:pd_receive_and_process_command", "src/osdp_pd.c:osdp_pd_update"]}
{"id": "C62", "title": "Several devices on one line are all served, each exactly", "statement": "A CP works with any number of PDs with different addresses on one line, and every PD hears everything that is put on the line. As long as nothing is lost, each PD is done with earlier traffic when the CP sends to it, and no PD answers with a packet that has a second start byte inside: for each PD, the commands its application was asked to execute, then at most one under way, then those still queued, are exactly the commands handed in for this PD, in their order, none missing, none twice, none of another PD; the same for events. All PDs stay online and in their sessions, at most one command or answer is on the line at a time, and no call ends in undefined behaviour or an abort.", "quantifier": "any number of PDs, inside or outside a session, any order of refreshes of the CP and of the PDs, any times, any way the traffic of the others is cut into reads, commands and events handed in at any time", "why_tests_cant": "all interleavings of several devices and all contents; a test runs one schedule with a few devices", "anchors": ["src/osdp_cp.c:state_update", "src/osdp_cp.c:cp_refresh", "src/osdp_cp.c:osdp_cp_refresh", "src/osdp_phy.c:phy_check_header", "src/osdp_phy.c:phy_check_packet", "src/osdp_pd.c:osdp_pd_update"]}
{"id": "C63", "title": "A device that falls silent is given up in bounded time and taken up again when it is back", "statement": "At any moment of any exchange, inside or outside a session, nothing more is heard from a PD. If the CP is refreshed at least every g milliseconds, there is a moment at which the PD is offline (the status query shows it as not online) within five times the longest duration of one exchange, and five more for each byte that had been received and not looked at and for each queued command. If nothing was received and not looked at when the silence began, no refresh in it ends in undefined behaviour or an abort. If also no change of the key was under way, the queued commands are output, LED, buzzer, text or manufacturer commands that the PD can execute, and both hold the same key or neither needs one: when the PD is offline after the silence and the line works again, the first refresh after the waiting time followed by four exchanges (two without a key) brings CP and PD online again.", "quantifier": "any history of calls without file transfer, any state and phase of the CP's entry, any intervals between refreshes, any state of the PD", "why_tests_cant": "the bound must hold from every state the entry can be in and for every pacing of the refreshes; a test tries one moment of failure and one pacing", "anchors": ["src/osdp_cp.c:cp_phy_state_update", "src/osdp_cp.c:state_update", "src/osdp_cp.c:get_next_err_state", "src/osdp_cp.c:cp_get_online_command"]}
{"id": "C64", "title": "Inside a secure session nothing but command and reply codes travels in clear, and a base key is sent in no other state", "statement": "While a secure session is open on the CP's side, every packet it sends carries a MAC under the session keys and, unless the command is a bare code, its data encrypted; a KEYSET command is never sent outside a session. While the session of a PD is open and it reads a packet of any content whose number is not 0 (such a packet ends the session), whatever it sends is an answer with MAC and encrypted data, a bare reply code with MAC, a step of a new handshake that contains nothing but serial number, random number and cryptograms, or a NAK in clear that ends the session.", "quantifier": "every reachable state of CP and PD with an open session, every packet received, valid or forged, every application behaviour and any channel write result", "why_tests_cant": "the leak to exclude is one among all combinations of queued events, command results, forged input and transmit failures; a test looks at the packets of chosen exchanges", "anchors": ["src/osdp_phy.c:osdp_phy_packet_init", "src/osdp_phy.c:phy_packet_finalize", "src/osdp_pd.c:pd_build_reply", "src/osdp_cp.c:cp_build_command"]}
{"id": "C65", "title": "The memory of a context is used only while it is allocated and is returned completely by teardown", "statement": "For every sequence of set-up, addition of PDs, registration of file operations, sending and flushing of commands or events, refreshes and teardown, and for every pattern of failing allocations, the library uses no block that is not allocated, frees none twice, and after teardown (or after a set-up that returned NULL) the blocks in use are those from before the set-up.", "quantifier": "every sequence of API calls, every PD list, every pattern of failing allocations, every choice of commands and events taken in a refresh", "why_tests_cant": "allocation failures and late additions multiply the paths; an access to freed memory often has no visible effect in a test", "anchors": ["src/osdp_cp.c:cp_add_pd", "src/osdp_cp.c:osdp_cp_setup", "src/osdp_cp.c:osdp_cp_teardown", "src/osdp_cp.c:cp_cmd_queue_init", "src/osdp_pd.c:osdp_pd_setup", "src/osdp_pd.c:osdp_pd_teardown", "src/osdp_file.c:osdp_file_register_ops"]}
{"id": "C66", "title": "The file functions of the application are called in order: opened once, used while open, closed once", "statement": "Whatever the other side sends, the file functions registered by the application are called like those of a careful program: no file is opened while another one is open, reads, writes and closes happen only between a successful open and its close, and the file is closed once before the next one is opened.", "quantifier": "every history of a PD and of a CP with one PD: every packet received, every command sent, every answer of the file functions including failures, any number of transfers", "why_tests_cant": "the order is at stake where transfers are aborted, restarted, cancelled or answered with strange status numbers; tests run complete transfers", "anchors": ["src/osdp_file.c:osdp_file_cmd_tx_decode", "src/osdp_file.c:osdp_file_cmd_stat_build", "src/osdp_file.c:osdp_file_cmd_tx_build", "src/osdp_file.c:osdp_file_cmd_stat_decode", "src/osdp_file.c:osdp_file_tx_command", "src/osdp_file.c:osdp_file_tx_abort"]}
{"id": "C67", "title": "The progress of a file transfer that a query reports is true", "statement": "When the application asks for the status of a file transfer, the answer is the size of the file and the number of its bytes that have been transferred and acknowledged (CP) or received and written (PD): it never exceeds the size, it starts with 0 when a file is opened, it grows only when an acknowledgement arrives, by exactly the bytes that were read for it, and reaches the size only when everything is transferred. Without a transfer the query fails with an error.", "quantifier": "every history of a CP with one PD, every reply received, every answer of the file functions, any number of transfers; at a PD every transfer on a line that loses nothing", "why_tests_cant": "the answer is to be right between any two calls of any history with aborts, cancellations, repeated and strange replies; tests look at it during a few successful transfers", "anchors": ["src/osdp_file.c:osdp_get_file_tx_status", "src/osdp_file.c:osdp_file_cmd_stat_decode", "src/osdp_file.c:osdp_file_cmd_tx_build", "src/osdp_file.c:osdp_file_cmd_stat_build"]}
{"id": "C68", "title": "An idle device is polled every 50 ms, neither more often nor later", "statement": "A PD that is online and has nothing to be told is polled: the first refresh later than 50 ms after the end of the last exchange begins a poll and the refresh after it transmits the poll. Between two transmissions of a poll for the same PD, repetitions included, more than 50 ms pass, whatever calls are made and whatever arrives in between.", "quantifier": "every history of a CP with one PD, every sequence of refresh times that does not run backwards, everything received", "why_tests_cant": "the distance of two polls depends on when refreshes happen, on answers that come late, are broken or stay away and on commands sent in between; tests run with one fixed tick and an ideal device", "anchors": ["src/osdp_cp.c:cp_get_online_command", "src/osdp_cp.c:cp_phy_state_update", "src/osdp_cp.c:cp_state_change", "src/osdp_config.h.in:OSDP_PD_POLL_TIMEOUT_MS"]}
{"id": "C69", "title": "Every command is reported as completed exactly once and in order", "statement": "With notifications enabled and a callback registered, the CP application gets exactly one completion notification for each command that was taken from the queue and whose exchange is over, with the kind of that command, in the order in which the commands were submitted. No command is reported twice, and nothing is reported that was not submitted.", "quantifier": "every history of one PD entry of a CP: all calls, everything received, lost answers, repetitions, refusals, offline periods and restarts of the secure channel", "why_tests_cant": "an exchange can end in many ways, each of which is another path to the notification; tests look at single commands that are answered at once", "anchors": ["src/osdp_cp.c:notify_command_status", "src/osdp_cp.c:state_update", "src/osdp_cp.c:cp_translate_cmd"]}
{"id": "C70", "title": "Status notifications tell the truth", "statement": "With notifications enabled and a callback registered: after every call the latest secure channel notification tells whether the channel to the PD is active; a PD status notification is given exactly when the PD comes online (1) or goes offline (0), once; and the outcome in a command notification is 0 for a command that the PD carried out and -1 for one that failed, as the header documents.", "quantifier": "every history of one PD entry of a CP: all calls, everything received, at every time", "why_tests_cant": "the channel is opened and closed on many paths (handshake, key change, wrong answers, timeouts, requests of the PD) and each has to notify; a missing notification shows only as a wrong belief later", "anchors": ["src/osdp_cp.c:cp_state_change", "src/osdp_cp.c:notify_sc_status", "src/osdp_cp.c:notify_pd_status", "src/osdp_cp.c:notify_command_status", "include/osdp.h:osdp_event_notification_type"]}
{"id": "C71", "title": "The PD application is called only with commands that were received", "statement": "Whenever the PD's command callback is called in a refresh, a packet arrived by that refresh that is intact, is addressed to this PD (or to all) and has an acceptable sequence number, and the calls of the refresh are the first ones of the commands that this one packet asks for, in their order and with exactly the field values in it.", "quantifier": "every reachable state of a PD, everything received in the call, every behaviour of the application, inside and outside a session", "why_tests_cant": "a test shows that given packets lead to the right calls; that no other bytes on the line, in any state, lead to a call is a statement about all inputs", "anchors": ["src/osdp_pd.c:pd_decode_command", "src/osdp_pd.c:do_command_callback", "src/osdp_file.c:osdp_file_cmd_tx_decode", "src/osdp_phy.c:osdp_phy_check_packet", "src/osdp_phy.c:osdp_phy_decode_packet"]}
{"id": "C72", "title": "KEEPACTIVE keeps a secure session open for the time it names, and nothing else does for more than 8 s", "statement": "After a PD answered a KEEPACTIVE for n ms with ACK inside a secure session, the session stays usable for n ms without another packet. No packet other than KEEPACTIVE keeps a session open for more than 8 s after it.", "quantifier": "every history of a PD, every clock sequence, every n", "why_tests_cant": "an upper bound over everything that can be received, at all times", "anchors": ["src/osdp_pd.c:pd_decode_command CMD_KEEPACTIVE", "src/osdp_pd.c:osdp_pd_update", "doc/protocol/commands-and-replies.rst"]}
{"id": "C73", "title": "The panel changes the address and baud rate of a PD only by a COMSET", "statement": "The address and the baud rate that the CP uses for a PD change only when that PD answered a COMSET command with COM, and then to exactly the values in that reply.", "quantifier": "every history of one PD entry of a CP: all calls, everything received, at every time", "why_tests_cant": "says that no other input, in any state, changes them", "anchors": ["src/osdp_cp.c:cp_decode_response REPLY_COM", "src/osdp_cp.c:check_online_response", "src/osdp_cp.c:state_update"]}
{"id": "C74", "title": "Every handshake of the panel uses a random number drawn for it", "statement": "Every time the CP starts a secure channel handshake it draws eight random bytes; the CHLNG packets of that handshake carry exactly these bytes, the answer is judged by them, and no other handshake uses them unless the generator repeats itself.", "quantifier": "every history of one PD entry of a CP: all calls, everything received, every output of the random number generator", "why_tests_cant": "a statement about all handshakes of all histories; the case in which a number is used again needs a particular failure", "anchors": ["src/osdp_cp.c:cp_state_change", "src/osdp_cp.c:get_next_err_state", "src/osdp_cp.c:cp_build_command CMD_CHLNG", "src/osdp_sc.c:osdp_sc_setup"]}
{"id": "C75", "title": "A PD makes session keys only in answering a challenge, with a random number drawn for it", "statement": "The session keys and the random number of a PD change only in the refresh in which it answers a CHLNG command: the number is drawn in that refresh, and the keys are made from its base key (or SCBK-D) and the eight bytes of that CHLNG.", "quantifier": "every history of a PD: all calls, everything received, every output of the random number generator", "why_tests_cant": "says that nothing else that can be received, in any state, replaces the keys or the number", "anchors": ["src/osdp_pd.c:pd_build_reply REPLY_CCRYPT", "src/osdp_pd.c:pd_decode_command CMD_CHLNG", "src/osdp_sc.c:osdp_compute_session_keys"]}
{"id": "C76", "title": "A control panel proves its key only to a device that has proved the same key", "statement": "Whatever a control panel transmits as SCRYPT is made from the random numbers of this handshake with a base key that the PD has proved before, in an intact, correctly numbered CCRYPT reply to the challenge with the same number of the panel; SCBK-D is used only if the panel announces SCBK-D.", "quantifier": "every history of an entry of a control panel: all calls, everything received, every output of the random number generator", "why_tests_cant": "says that no sequence of received bytes makes the panel reveal a cryptogram to a device that does not know the key", "anchors": ["src/osdp_cp.c:cp_build_command CMD_SCRYPT", "src/osdp_sc.c:osdp_compute_cp_cryptogram", "src/osdp_cp.c:cp_decode_response REPLY_CCRYPT"]}
