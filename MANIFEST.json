{"claims": [
 {"property": "C01", "status": "proved", "theorems": ["C01_fifo", "C01_conserves", "C01_capacity"], "note": ""},
 {"property": "C02", "status": "proved", "theorems": ["C02_crc_textbook"], "note": ""},
 {"property": "C03", "status": "partial", "theorems": ["C03_burst_partial", "C03_two_adjacent_bytes_refuted", "C03_mode_bit_refuted"], "note": "false as stated"},
 {"property": "C04", "status": "proved", "theorems": ["C04_checksum"], "note": ""},
 {"property": "C05", "status": "proved", "theorems": ["C05_aes_inverse"], "note": ""},
 {"property": "C06", "status": "proved", "theorems": ["C06_data_block"], "note": ""},
 {"property": "C07", "status": "partial", "theorems": ["C07_handshake", "C07_same_scbk_refuted"], "note": "Full handshake run of panel and device, every base key, random numbers and client UID, ends with keys, chaining value and sequence number agreeing. The key meant is the one in use: refuted for a device in install mode that stays on SCBK-D after one challenge under it although both hold the same SCBK."},
 {"property": "C08", "status": "proved", "theorems": ["C08_key_proved", "C08_no_other"], "note": "Session keys and cryptogram in terms of the single-block cipher; a wrong cryptogram never leads on in the handshake. Without ENFORCE_SECURE the panel then tries the default key (by design)."},
 {"property": "C09", "status": "partial", "theorems": ["C09_cryptogram", "C09_same_refresh_refuted"], "note": "Proved over whole runs: an open session implies a received SCRYPT with the right cryptogram, in this or an earlier refresh. False for 'in this refresh': a nine byte packet without cryptogram re-opens the session (C09_same_refresh_refuted)."},
 {"property": "C10", "status": "proved", "theorems": ["C10_command", "C10_reply"], "note": "Packets without security block, both directions, for all reachable sender and receiver states; the handshake packets are under C07."},
 {"property": "C11", "status": "proved", "theorems": ["C11_command", "C11_reply", "C11_session"], "note": "Each payload arrives unchanged and both ends agree again; by induction after any number of exchanges."},
 {"property": "C12", "status": "proved", "theorems": ["C12_wrong_mac", "C12_no_block"], "note": ""},
 {"property": "C13", "status": "partial", "theorems": ["C13_authentic_partial", "C13_unauthenticated_refuted"], "note": "Holds except for packets with handshake block types 17..20 and number 0; false for those (KEYSET without MAC executed in a session)."},
 {"property": "C14", "status": "partial", "theorems": ["C14_enforced", "C14_stale_answer_refuted"], "note": "Callback, file operations, address, baud rate, key: proved. False as regards answers: a stale answer can be re-sent in clear."},
 {"property": "C15", "status": "partial", "theorems": ["C15_keys", "C15_other_calls", "C15_old_key_session_refuted"], "note": "Key changes: proved over whole runs. The clause 'the new key must be proven' is false."},
 {"property": "C16", "status": "partial", "theorems": ["C16_default_key", "C16_keyset_ends", "C16_default_session_refuted"], "note": "Derivation and install mode: proved. A session keyed from SCBK-D can be resumed after install mode ended (refuted)."},
 {"property": "C17", "status": "proved", "theorems": ["C17_idle", "C17_expired"], "note": "8000 ms after the last intact packet for the device the session is treated as closed; KEEPACTIVE never extends it (see DESIGN.md findings)."},
 {"property": "C18", "status": "proved", "theorems": ["C18_sequence", "C18_zero_closes", "C18_last_accepted_refuted"], "note": "\"last number\" is the device's counter, which also advances on refused packets; the reading \"last accepted number\" is refuted"},
 {"property": "C19", "status": "partial", "theorems": ["C19_cycle", "C19_busy", "C19_first", "C19_gap_refuted", "C19_busy_number_refuted"], "note": "Numbers cycle as stated unless a transmission fails (its number is used up) and BUSY reuses the number only if the BUSY reply has number 0; both exceptions proved by witnesses."},
 {"property": "C20", "status": "proved", "theorems": ["C20_foreign", "C20_broadcast"], "note": "the broadcast mark of the device may outlive its packet, so later answers can also carry 0x7F"},
 {"property": "C21", "status": "proved", "theorems": ["C21_spoken_to"], "note": ""},
 {"property": "C22", "status": "proved", "theorems": ["C22_peripheral", "C22_panel"], "note": "Both sides."},
 {"property": "C23", "status": "partial", "theorems": ["C23_receive_partial", "C23_mark_overflow_refuted"], "note": "false as stated: one byte is written behind the buffer for a marked packet of length 256"},
 {"property": "C24", "status": "partial", "theorems": ["C24_same_partial", "C24_pd", "C24_cp", "C24_split_refuted"], "note": "Proved for every packet long enough for the security block it announces. For packets of 6 bytes with the security-block bit it is false: decoding reads stale buffer bytes at a place that depends on whether the mark came in the same piece (C24_split_refuted)."},
 {"property": "C25", "status": "proved", "theorems": ["C25_command"], "note": "Every command of the eight kinds with fields in range that the panel has queued reaches the callback of the device exactly once with the same fields, in and outside a session, through sending, framing, encryption, reception and decoding. Not part of what travels (upto): the timer of a permanent LED setting, array bytes beyond the length, the report fields of a status query. KEYSET with a type other than 1 is refused by the panel."},
 {"property": "C26", "status": "partial", "theorems": ["C26_event", "C26_direction_refuted"], "note": "Every event of the four kinds in range reaches the panel's callback with the same fields at the next poll, in and outside a session. The full statement is false: the direction of a card read does not travel and arrives as 0 (refuted theorem)."},
 {"property": "C27", "status": "proved", "theorems": ["C27_identity"], "note": "From the device's history (setup and later capability calls) to what the panel's interface returns after the ID and CAP exchange."},
 {"property": "C28", "status": "proved", "theorems": ["C28_fifo", "C28_one_per_poll", "C28_answer", "C28_notify"], "note": "Exact report bytes are proved for a POLL in clear; inside a session order and multiplicity are proved, the bytes are encrypted."},
 {"property": "C29", "status": "proved", "theorems": ["C29_order", "C29_served", "C29_refusals"], "note": ""},
 {"property": "C30", "status": "proved", "theorems": ["C30_covered"], "note": ""},
 {"property": "C31", "status": "partial", "theorems": ["C31_refused_partial", "C31_records", "C31_output_refuted"], "note": "TEXT, MFG, COMSET: NAK(9) iff refused. OUT, LED, BUZ: always ACK, so the property is false for them; what they do is proved exactly."},
 {"property": "C32", "status": "proved", "theorems": ["C32_comset", "C32_answer"], "note": ""},
 {"property": "C33", "status": "partial", "theorems": ["C33_online", "C33_sent", "C33_set_later_refuted"], "note": "Holds for entries created with ENFORCE_SECURE and without INSTALL_MODE whose flags stay; setting the flag at run time does not have the effect (refuted)."},
 {"property": "C34", "status": "proved", "theorems": ["C34_edges"], "note": ""},
 {"property": "C35", "status": "partial", "theorems": ["C35_count", "C35_gap", "C35_offline_partial", "C35_offline_refuted"], "note": "Count and spacing hold; \"then offline\" fails in a handshake without ENFORCE_SECURE (refuted)."},
 {"property": "C36", "status": "partial", "theorems": ["C36_alone_partial", "C36_add_refuted"], "note": "Proved for every number of PDs, every channel assignment and every run, at every moment inside a refresh, as long as no PD is added after set-up. False after osdp_cp_add_pd: witness."},
 {"property": "C37", "status": "partial", "theorems": ["C37_round_partial", "C37_turn", "C37_stall", "C37_add_refuted"], "note": "Proved as long as no PD is added after set-up: exact cyclic order of the turns, when and how long a refresh stops early, and that a PD is passed over only while another one on its channel waits. False after osdp_cp_add_pd: the old PD is starved for ever."},
 {"property": "C38", "status": "partial", "theorems": ["C38_answer", "C39_key_refuted"], "note": "Full except that a KEYSET whose transmission failed restarts the handshake instead of going offline (witness C39_key_refuted)."},
 {"property": "C39", "status": "partial", "theorems": ["C39_status_partial", "C39_key_partial", "C39_status_refuted", "C39_key_refuted"], "note": "True when the command was transmitted; false when its transmission failed: stale reply code."},
 {"property": "C40", "status": "proved", "theorems": ["C40_status", "C40_secure"], "note": "Every number of PDs and every run of the panel; the status mask of a panel without PDs reads a missing entry and is excluded by the hypothesis."},
 {"property": "C41", "status": "partial", "theorems": ["C41_transfer", "C41_unaligned_refuted"], "note": "Proved for every content, every way the application cuts its reads and every line that loses nothing, with and without a session, as long as the largest chunk fits a packet (chunk_fits). Without that side condition it is false: with a receive buffer of 250 bytes and a session the padded chunk does not fit, the panel sends nothing and goes offline."},
 {"property": "C42", "status": "partial", "theorems": ["C42_write_partial", "C42_bytes_partial", "C42_repeat_refuted"], "note": "False of the code: the repeated chunk carries a new number, the device counts it a second time and declares the transfer done although the second half was never written. Proved: whatever is repeated or reordered, every write is the data and offset of a received fragment, in clear or enciphered, so that no byte of the file gets to a wrong place."},
 {"property": "C43", "status": "partial", "theorems": ["C43_total_partial", "C43_assert_refuted", "C43_null_refuted", "C43_small_refuted"], "note": "False as stated: remotely reachable assertions and a null call. Proved for the device: with a careful application every refresh ends except on a list of packets given exactly."},
 {"property": "C44", "status": "partial", "theorems": ["C44_answered_partial", "C44_every_partial", "C44_silent_refuted"], "note": "C44_every_partial covers every valid packet, plain or secured, in any reachable state: answered in the same refresh by one intact packet with its number, or one of three listed exceptions (no room for a command, file fragment not taken by the application, announced buffer below 69 bytes). Missing: those exceptions, for which the property is false (C44_silent_refuted), and panels that announced 69 to 164 bytes before."},
 {"property": "C45", "status": "partial", "theorems": ["C45_malformed", "C45_sequence", "C45_unnamed_refuted"], "note": "false as stated for a few codes without a name on an ENFORCE_SECURE device (null pointer)"},
 {"property": "C46", "status": "proved", "theorems": ["C46_flags"], "note": ""},
 {"property": "C47", "status": "partial", "theorems": ["C47_told_partial", "C47_once", "C47_raw_refuted"], "note": "Every event handed out while online was reported by a reply, once; a stale request can hand out other data when the entry gets online (refuted, even the key)."},
 {"property": "C48", "status": "proved", "theorems": ["C48_quiet", "C48_restart"], "note": ""},
 {"property": "C49", "status": "partial", "theorems": ["C49_base_key_partial", "C49_zero_key_refuted"], "note": "False as stated: witness with zero key and zero random numbers right after setup. Proved: a device set up with a key and not in install mode has a session open only if it was opened by a received cryptogram under a session key made from a base key it held, or under the zero key when it had made no session key before."},
 {"property": "C50", "status": "partial", "theorems": ["C50_chain_partial", "C50_replay_refuted"], "note": "False across sessions: verbatim replay of a recorded session executes the command again. Proved: while a session is open, a repeated packet is executed only if the truncated MACs over its bytes under the keys and chaining values of both times coincide, and its number is due."},
 {"property": "C51", "status": "partial", "theorems": ["C51_session_partial", "C51_repeat_refuted"], "note": "False in clear: the repeated command is executed again. Proved inside a session: the repeated packet is not executed and the session is dropped, unless the truncated MACs before and after the answer coincide."},
 {"property": "C52", "status": "partial", "theorems": ["C52_authentic_partial", "C52_forged_refuted"], "note": "Refuted: a reply in an SCS_12 block is accepted without MAC inside a session. Proved: every event of an online entry with an open session comes from a reply heard in the same refresh, with a security block that is either of a handshake type or has the right MAC; never from a plain reply."},
 {"property": "C53", "status": "partial", "theorems": ["C53_total_partial", "C53_keypad_refuted", "C53_small_refuted", "C53_ftstat_refuted", "C53_silence_refuted"], "note": "False as stated: a 65-byte keypad report overflows the event; more cases with file transfers. Proved: with a careful application without file transfers every refresh ends except on a list of replies given exactly."},
 {"property": "C54", "status": "partial", "theorems": ["C54_repaired_refuted"], "note": "False of the code; refuted for every command and every plain pair: the repetition carries the next number, the device refuses it, the panel goes offline."},
 {"property": "C55", "status": "partial", "theorems": ["C55_lost_reply_partial", "C55_session_refuted"], "note": "Proved for polls outside a session; false in a session, where one lost reply costs the connection."},
 {"property": "C56", "status": "partial", "theorems": ["C56_event_refuted"], "note": "False of the code; refuted for every event outside a session."},
 {"property": "C57", "status": "partial", "theorems": ["C57_counted_partial", "C57_retries_refuted"], "note": "False of the code: the count is kept over the life of the connection; proved how it is counted."},
 {"property": "C58", "status": "proved", "theorems": ["C58_exact", "C58_holds", "C58_goes_on", "C58_served"], "note": "For panel and device that are connected, in a session or with a panel that does not want one. A packet arrives whole in one refresh, within 200 ms of the command; the session does not time out. Commands are output, LED, buzzer, text and manufacturer commands the device has the capability for and its application accepts; status, communication, key set and file commands are not in this theorem (C25 to C29, C41 treat one exchange of them)."},
 {"property": "C59", "status": "proved", "theorems": ["C59_comes_online", "C59_comes_online_plain", "C59_recovers", "C59_from_setup"], "note": "The device application has a callback; C58 takes over from the final state."},
 {"property": "C60", "status": "partial", "theorems": ["C60_rotates", "C60_provisions", "C60_halfway", "C60_lost_answer_refuted"], "note": "Proved for lines without losses; refuted for a line that loses the answer to KEYSET. The panel does not use the default key when it rotates (else it hands over its own key first)."},
 {"property": "C61", "status": "partial", "theorems": ["C61_undisturbed_partial", "C61_goes_on", "C61_drains", "C61_works_on", "C61_injected_refuted", "C61_session_refuted"], "note": "Proved for packets of other devices without a start byte behind their first byte; with one inside the statement is false of the code (two witnesses)."},
 {"property": "C62", "status": "partial", "theorems": ["C62_exact_partial", "C62_holds_partial", "C62_alone_partial", "C62_goes_on_partial", "C62_catches_up_partial", "C62_panel_partial", "C62_next_turn_partial", "C62_turns"], "note": "Proved when no device answers with a packet that has a second start byte inside (with one C61 is refuted) and each device is done with earlier traffic when the panel sends to it; also for the panel as a whole, where the channel lock keeps the exchanges apart."},
 {"property": "C63", "status": "proved", "theorems": ["C63_gives_up", "C63_goes_on", "C63_heals"], "note": "No file transfer in the history of the panel. C63_heals needs that no change of the key was under way when the silence began (C39_key_refuted tells why) and speaks of a device that hears nothing during the silence."},
 {"property": "C64", "status": "proved", "theorems": ["C64_device", "C64_panel", "C64_restart_refuted"], "note": "C64_restart_refuted is not part of the claim: it shows why the packet number 0 is excepted (a plain packet with number 0 makes a device that does not insist on sessions read out its events in clear)."},
 {"property": "C65", "status": "partial", "theorems": ["C65_panel_partial", "C65_released", "C65_device_partial", "C65_agrees", "C65_add_refuted", "C65_setup_refuted"], "note": "Proved for all call sequences and allocation failures when PDs are added only to a panel without PDs; no leak in any case. False of the code when PDs are added to a panel that has some (their command storage stays in the freed array, for every such case), and for a device when the second allocation fails (null pointer in the clean-up)."},
 {"property": "C66", "status": "partial", "theorems": ["C66_device", "C66_panel_partial", "C66_empty_refuted", "C66_unreadable_refuted", "C66_twice_refuted"], "note": "Full statement proved for the PD (C66_device). At the CP it is false of the code: an empty or unreadable file is never closed, and after a status report of unknown number for the last fragment a closed file may be read or closed again; C66_panel_partial proves the order with exactly these exceptions."},
 {"property": "C67", "status": "partial", "theorems": ["C67_progress", "C67_bounds", "C67_forward", "C41_transfer", "C67_unregistered_refuted", "C67_repeated_refuted"], "note": "Proved for every history of the CP with file functions registered, and on both sides for a transfer on a line that loses nothing (C41_transfer). Two parts are false of the code: before file functions are registered the query follows a null pointer, and a PD counts a repeated fragment twice."},
 {"property": "C68", "status": "partial", "theorems": ["C68_gap_partial", "C68_gap_refuted", "C68_due"], "note": "C68_due is the full \"not later\" half. C68_gap_partial (the \"not more often\" half) excludes the option to ignore unknown answers, for which C68_gap_refuted shows that it is false, and a device that asks for polls during a file transfer."},
 {"property": "C69", "status": "partial", "theorems": ["C69_once_partial", "C69_order_partial", "C69_mfg_refuted", "C69_unsent_refuted", "C69_unasked_refuted"], "note": "Each command taken from the queue is reported once and in order, except (refuted): manufacturer commands not answered with ACK and status queries of unknown kind are never reported, and the KEYSET the panel sends by itself to replace the default key is reported without having been submitted."},
 {"property": "C70", "status": "partial", "theorems": ["C70_channel", "C70_device_partial", "C70_offline_refuted", "C70_outcome_refuted"], "note": "The secure channel part is proved in full; PD status notifications come exactly when they should, but going offline is notified with the value for online, and the outcomes of commands are not the documented values (both refuted by execution)."},
 {"property": "C71", "status": "proved", "theorems": ["C71_asked"], "note": "The flags in the announcement of a file are left open: they are not part of the message."},
 {"property": "C72", "status": "partial", "theorems": ["C72_limit_partial", "C72_keepactive_refuted"], "note": "No packet, KEEPACTIVE included, keeps a session open for more than 8 s; KEEPACTIVE has no effect."},
 {"property": "C73", "status": "partial", "theorems": ["C73_changed_partial", "C73_unasked_refuted"], "note": "They change only by a COM reply from the PD with the new values, but the reply need not answer a COMSET."},
 {"property": "C74", "status": "partial", "theorems": ["C74_challenge_partial", "C74_kept_partial", "C74_fresh_refuted"], "note": "The challenge carries the bytes drawn in the refresh that entered the challenge state, and the answer is judged by them. Missing: the retry with the default key after a failed challenge is a new handshake without a new draw (refuted)."},
 {"property": "C75", "status": "partial", "theorems": ["C75_keys_partial", "C75_unasked_refuted"], "note": "Number drawn in the same refresh and key made from the bytes of a received CHLNG. Missing: that this CHLNG is the packet answered; a malformed later packet makes the device build the answer again with a new number (refuted)."},
 {"property": "C76", "status": "proved", "theorems": ["C76_proof_second"], "note": ""}
]}
