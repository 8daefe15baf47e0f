# Formal model of libosdp: design

## 1. What is modelled

The model is written in Gallina (Rocq/Coq 8.16.1) under `rocq/theories`.  It follows the C sources
function by function.  Every definition cites the file and lines it stands for and says where it
simplifies.

| model file | C source |
|---|---|
| `Base.v` | integer widths, byte arrays, and the outcome type |
| `Rb.v`, `Crc.v` | `osdp_common.c`: ring buffer, CRC, checksum |
| `Aes.v` | `crypto/tinyaes_src.c`, `crypto/tinyaes.c`: key expansion, both directions, ECB, CBC |
| `Types.v` | `osdp_common.h`, `osdp_file.h`, `include/osdp.h`: structures, flags, codes |
| `Sc.v` | `osdp_sc.c` |
| `Phy.v` | `osdp_phy.c`: sender, receiver, checks, decoding, sequence numbers |
| `File.v` | `osdp_file.c`, both sides |
| `Pd.v` | `osdp_pd.c` |
| `Cp.v` | `osdp_cp.c`: one attached PD |
| `CpCtx.v` | `osdp_cp.c`: list of PDs, channel locks, refresh loop, set-up; status masks of `osdp_common.c` |
| `CpApi.v` | `osdp_cp_modify_flag` on the flag word |
| `Mem.v` | the heap: `osdp_cp_setup`, `osdp_cp_add_pd`, `osdp_pd_setup`, both teardowns, `osdp_file_register_ops`, storage of commands and events |

`Spec*.v` hold the vocabulary of the theorems.  They do not use the functions of the model except to
run it (`pd_do`, `cp_do`, the observable outputs, and the fields that the interface reports).
`Props*.v` hold the property theorems, each with `Print Assumptions` and a concrete instance.
`Ex*.v` hold the concrete devices and panels of those instances.  The other files are proofs.

### Shape of the model

* `struct osdp_pd` is a record, the flag word a record of booleans.
* The 256 byte packet buffer keeps its stale bytes, because the code reads them in some cases.
* The result of a call is `Ok`, `UB why` or `Die why`.  Out-of-bounds accesses, calls through a null
  pointer, wide shifts and broken application contracts are `UB`.  Failed assertions are `Die`.
  A run continues only after `Ok`.  Statements that say "for all runs" are about runs without UB;
  C23, C43, C45 and C53 say where UB and aborts can be reached.
* The environment is an argument of each call: the clock, the pieces `recv` returns, the number of
  bytes `send` accepts, the random bytes, and the answers of command, event and file callbacks.  The
  theorems quantify over it.
* One refresh of one PD is one step; the other API calls are further steps.  `pd_reach` and `cp_reach`
  are the states that any sequence of calls leads to from set-up, `pd_runs` and `cp_runs` also record
  the history.

### Simplifications

* The clock is read once per refresh.  The C code reads it several times in a row.
* Build options are the default ones: no `OPT_OSDP_SKIP_MARK_BYTE`, no packet trace, tiny-AES back
  end, static allocation off.
* Memory allocation succeeds except where the pool of queue blocks is full, and except in `Mem.v`, where every
  allocation may fail.  `Mem.v` leaves the protocol out (which commands a refresh takes is a parameter).
* A `recv` that returns an error is a `recv` that returns nothing.
* Commands and events carry arrays as lists with a separate length, as in C; array sizes of the
  structures are kept as type assumptions (`env_typed`, `call_typed`, `cp_call_typed`).

### Not modelled

* The submodule `utils` (empty in the checkout): slab, queue, disjoint set, logger and assertion
  macros are taken at their evident meaning; `Mem.v` says what it assumes of slab and queue.
* OpenSSL and MbedTLS back ends, `osdp_diag.c` and other logging, packet capture, channel flush
  callback, language bindings, examples and tests.

## 2. Trusted base

* The Coq kernel (and `coqchk`, which the gate runs).  The virtual machine is used by `vm_compute` for
  finite sweeps and witnesses; `coqchk` re-checks these without it.
* `Print Assumptions` says "Closed under the global context" for every theorem named in
  `MANIFEST.json`: no axioms, neither own nor from libraries.
* The correspondence of model and C text.  It was made by reading; nothing was compiled or run.
* No functional extensionality, no classical axioms, no `Admitted`, no switched-off checks.
  (The seven `ssrunder` constants the gate lists come with loading a library file.  No theorem
  depends on them.)

## 3. Properties

The full statements are in `properties.jsonl`.  Status "partial" means that the statement as written
is false of the code or that a side condition is missing; the note says which.  Then a theorem
`..._refuted` gives the witness, and the part that does hold is proved beside it where there is one.

### C01 Receive ring buffer is a lossless bounded FIFO — proved

Modelled by Rb.v, the array with head and tail.  Refinement to a bounded queue of bytes, induction over any sequence of calls.
Theorems (PropsLink.v): `C01_fifo`, `C01_conserves`, `C01_capacity`.

### C02 CRC field is the standard CRC-16/CCITT (poly 0x1021, init 0x1D0F) — proved

Modelled by Crc.v.  The shift-and-xor form is linear over GF(2); equality with the bitwise textbook CRC on 16 basis vectors, then induction on the string.
Theorems (PropsLink.v): `C02_crc_textbook`.

### C03 CRC detects every corruption confined to 16 consecutive bits — partial

Modelled by Crc.v, packet check of Phy.v.  Linearity and injectivity of the byte step for 16 bit bursts; witnesses for what is not detected.
Theorems (PropsLink.v): `C03_burst_partial`, `C03_two_adjacent_bytes_refuted`, `C03_mode_bit_refuted`.
false as stated

### C04 Checksum makes the byte sum zero and detects every single-byte corruption — proved

Modelled by Crc.v.  Modular arithmetic over lists.
Theorems (PropsLink.v): `C04_checksum`.

### C05 AES-128 decryption inverts encryption for every key and block — proved

Modelled by Aes.v, all of tinyaes_src.c.  Inverse of each transformation (sweeps over one byte only), induction over rounds.
Theorems (PropsLink.v): `C05_aes_inverse`.

### C06 Secure-channel data block decrypts to exactly what was encrypted — proved

Modelled by Sc.v.  Inverse of CBC by induction over blocks, padding lemma.
Theorems (PropsLink.v): `C06_data_block`.

### C07 Secure-channel handshake agrees on keys — partial

Modelled by Sc.v, Phy.v, Pd.v, Cp.v.  The four handshake packets followed through sender, receiver and both state machines; the states at the end are compared.
Theorems (PropsHand.v): `C07_handshake`, `C07_same_scbk_refuted`.
Full handshake run of panel and device, every base key, random numbers and client UID, ends with keys, chaining value and sequence number agreeing. The key meant is the one in use: refuted for a device in install mode that stays on SCBK-D after one challenge under it although both hold the same SCBK.

### C08 CP activates secure channel only with a PD that proved the key — proved

Modelled by Cp.v.  Invariant over runs of a panel entry; specification of the cryptogram from the single-block cipher.
Theorems (PropsCp1.v): `C08_key_proved`, `C08_no_other`.
Session keys and cryptogram in terms of the single-block cipher; a wrong cryptogram never leads on in the handshake. Without ENFORCE_SECURE the panel then tries the default key (by design).

### C09 PD activates secure channel only on a correct CP cryptogram — partial

Modelled by Pd.v.  Invariant over whole histories of the device.
Theorems (PropsPd2.v): `C09_cryptogram`, `C09_same_refresh_refuted`.
Proved over whole runs: an open session implies a received SCRYPT with the right cryptogram, in this or an earlier refresh. False for 'in this refresh': a nine byte packet without cryptogram re-opens the session (C09_same_refresh_refuted).

### C10 A plain packet survives the trip CP to PD and PD to CP — proved

Modelled by Phy.v.  Symbolic execution of sender and receiver on arbitrary payload and arbitrary splitting.
Theorems (PropsTrip.v): `C10_command`, `C10_reply`.
Packets without security block, both directions, for all reachable sender and receiver states; the handshake packets are under C07.

### C11 A secure packet survives the trip and both ends stay in step — proved

Modelled by Phy.v, Sc.v.  Round trip of the encrypted and MACed packet; relation in_step between both ends; induction over exchanges.
Theorems (PropsTrip.v): `C11_command`, `C11_reply`, `C11_session`.
Each payload arrives unchanged and both ends agree again; by induction after any number of exchanges.

### C12 No unauthenticated packet is processed inside a secure session (PD) — proved

Modelled by Phy.v, Pd.v.  Case analysis of the receive path of a device in session.
Theorems (PropsPd1.v): `C12_wrong_mac`, `C12_no_block`.

### C13 Inside a secure session every processed command is authenticated — partial

Modelled by Phy.v, Pd.v.  As C12; witness for the handshake block types.
Theorems (PropsPd2.v): `C13_authentic_partial`, `C13_unauthenticated_refuted`.
Holds except for packets with handshake block types 17..20 and number 0; false for those (KEYSET without MAC executed in a session).

### C14 ENFORCE_SECURE: PD application is never reached outside a secure channel — partial

Modelled by Pd.v.  Invariant and case analysis of one refresh over all inputs.
Theorems (PropsPd2.v): `C14_enforced`, `C14_stale_answer_refuted`.
Callback, file operations, address, baud rate, key: proved. False as regards answers: a stale answer can be re-sent in clear.

### C15 PD key changes only by an accepted KEYSET inside a secure channel — partial

Modelled by Pd.v.  Frame lemmas for the key over all calls, induction over histories.
Theorems (PropsPd2.v): `C15_keys`, `C15_other_calls`, `C15_old_key_session_refuted`.
Key changes: proved over whole runs. The clause 'the new key must be proven' is false.

### C16 SCBK-D is usable only in install mode, which a KEYSET ends — partial

Modelled by Pd.v, Sc.v.  As C15, with the flag for the default key.
Theorems (PropsPd2.v): `C16_default_key`, `C16_keyset_ends`, `C16_default_session_refuted`.
Derivation and install mode: proved. A session keyed from SCBK-D can be resumed after install mode ended (refuted).

### C17 PD drops an idle secure session — proved

Modelled by Pd.v.  Time stamps as integers, induction over histories.
Theorems (PropsPd2.v): `C17_idle`, `C17_expired`.
8000 ms after the last intact packet for the device the session is treated as closed; KEEPACTIVE never extends it (see DESIGN.md findings).

### C18 Sequence number 0 restarts communication and drops the secure session — proved

Modelled by Phy.v, Pd.v.  Case analysis of the packet check.
Theorems (PropsPd1.v): `C18_sequence`, `C18_zero_closes`, `C18_last_accepted_refuted`.
"last number" is the device's counter, which also advances on refused packets; the reading "last accepted number" is refuted

### C19 CP sequence numbers cycle 0,1,2,3,1,2,3,... — partial

Modelled by Phy.v, Cp.v.  Induction over the transmissions of a run.
Theorems (PropsCp1.v): `C19_cycle`, `C19_busy`, `C19_first`, `C19_gap_refuted`, `C19_busy_number_refuted`.
Numbers cycle as stated unless a transmission fails (its number is used up) and BUSY reuses the number only if the BUSY reply has number 0; both exceptions proved by witnesses.

### C20 A PD never answers a command addressed to another device — proved

Modelled by Phy.v, Pd.v.  Case analysis of the packet check, over any received bytes.
Theorems (PropsPd1.v): `C20_foreign`, `C20_broadcast`.
the broadcast mark of the device may outlive its packet, so later answers can also carry 0x7F

### C21 PD only speaks when spoken to, at most once per refresh — proved

Modelled by Pd.v.  Case analysis of one refresh.
Theorems (PropsPd1.v): `C21_spoken_to`.

### C22 Transmitted packets are well formed and respect the peer's buffer — proved

Modelled by Phy.v, Pd.v, Cp.v.  Every OTx output of any reachable state against a specification of frames.
Theorems (PropsCp1.v, PropsPd1.v): `C22_peripheral`, `C22_panel`.
Both sides.

### C23 Receiving arbitrary bytes never writes outside the packet buffer — partial

Modelled by Phy.v.  Invariant on the fill level of the packet buffer; witness for byte 257.
Theorems (PropsPd1.v): `C23_receive_partial`, `C23_mark_overflow_refuted`.
false as stated: one byte is written behind the buffer for a marked packet of length 256

### C24 Receive result does not depend on chunking — partial

Modelled by Phy.v.  A receiver specification that sees only the concatenation of the pieces; simulation.
Theorems (PropsTrip.v): `C24_same_partial`, `C24_pd`, `C24_cp`, `C24_split_refuted`.
Proved for every packet long enough for the security block it announces. For packets of 6 bytes with the security-block bit it is false: decoding reads stale buffer bytes at a place that depends on whether the mark came in the same piece (C24_split_refuted).

### C25 Commands arrive at the PD application exactly as submitted at the CP — proved

Modelled by Cp.v, Phy.v, Sc.v, Pd.v.  Panel and device on one line: command from the queue, through the wire, to the callback.
Theorems (PropsTalk.v): `C25_command`.
Every command of the eight kinds with fields in range that the panel has queued reaches the callback of the device exactly once with the same fields, in and outside a session, through sending, framing, encryption, reception and decoding. Not part of what travels (upto): the timer of a permanent LED setting, array bytes beyond the length, the report fields of a status query. KEYSET with a type other than 1 is refused by the panel.

### C26 Events arrive at the CP application exactly as submitted at the PD — partial

Modelled by Pd.v, Phy.v, Sc.v, Cp.v.  As C25 in the other direction.
Theorems (PropsTalk.v): `C26_event`, `C26_direction_refuted`.
Every event of the four kinds in range reaches the panel's callback with the same fields at the next poll, in and outside a session. The full statement is false: the direction of a card read does not travel and arrives as 0 (refuted theorem).

### C27 PD identity and capabilities reported to the CP are exact — proved

Modelled by Pd.v, Cp.v.  Two rounds of the line; codec lemmas for identity and capability list; induction over the capability calls.
Theorems (PropsTalk.v): `C27_identity`.
From the device's history (setup and later capability calls) to what the panel's interface returns after the ID and CAP exchange.

### C28 PD events are delivered in order, exactly once, one per POLL — proved

Modelled by Pd.v.  History induction on the event queue.
Theorems (PropsPd2.v): `C28_fifo`, `C28_one_per_poll`, `C28_answer`, `C28_notify`.
Exact report bytes are proved for a POLL in clear; inside a session order and multiplicity are proved, the bytes are encrypted.

### C29 CP commands are taken in order, each at most once — proved

Modelled by Cp.v.  History induction on the command queue.
Theorems (PropsCp1.v): `C29_order`, `C29_served`, `C29_refusals`.

### C30 PD executes control commands only within declared capabilities — proved

Modelled by Pd.v.  Case analysis over all commands.
Theorems (PropsPd2.v): `C30_covered`.

### C31 A command the PD refuses is reported to the CP as NAK — partial

Modelled by Pd.v.  Exact answer for every command and callback result.
Theorems (PropsPd2.v): `C31_refused_partial`, `C31_records`, `C31_output_refuted`.
TEXT, MFG, COMSET: NAK(9) iff refused. OUT, LED, BUZ: always ACK, so the property is false for them; what they do is proved exactly.

### C32 COMSET changes address and baud rate atomically and only as validated — proved

Modelled by Pd.v.  Exact effect of COMSET.
Theorems (PropsPd2.v): `C32_comset`, `C32_answer`.

### C33 ENFORCE_SECURE: CP goes online only with an active secure channel — partial

Modelled by Cp.v.  Invariant over runs with fixed flags.
Theorems (PropsCp1.v): `C33_online`, `C33_sent`, `C33_set_later_refuted`.
Holds for entries created with ENFORCE_SECURE and without INSTALL_MODE whose flags stay; setting the flag at run time does not have the effect (refuted).

### C34 CP state machine only moves along the documented edges — proved

Modelled by Cp.v.  Case analysis of state_update over all inputs.
Theorems (PropsCp1.v): `C34_edges`.

### C35 CP retries an unanswered command at most 8 times — partial

Modelled by Cp.v.  Invariant on retry counter and time stamps over runs.
Theorems (PropsCp1.v): `C35_count`, `C35_gap`, `C35_offline_partial`, `C35_offline_refuted`.
Count and spacing hold; "then offline" fails in a handshake without ENFORCE_SECURE (refuted).

### C36 PDs sharing a channel never have two commands outstanding — partial

Modelled by CpCtx.v.  Invariant on the channel locks, at every moment inside a refresh.
Theorems (PropsCtx.v): `C36_alone_partial`, `C36_add_refuted`.
Proved for every number of PDs, every channel assignment and every run, at every moment inside a refresh, as long as no PD is added after set-up. False after osdp_cp_add_pd: witness.

### C37 CP refresh serves PDs round robin — partial

Modelled by CpCtx.v.  Turn order as a function of the refresh loop, induction on its iterations.
Theorems (PropsCtx.v): `C37_round_partial`, `C37_turn`, `C37_stall`, `C37_add_refuted`.
Proved as long as no PD is added after set-up: exact cyclic order of the turns, when and how long a refresh stops early, and that a PD is passed over only while another one on its channel waits. False after osdp_cp_add_pd: the old PD is starved for ever.

### C38 CP accepts only the reply that belongs to the command — partial

Modelled by Cp.v.  Case analysis of the reply path.
Theorems (PropsCp2.v): `C38_answer`, `C39_key_refuted`.
Full except that a KEYSET whose transmission failed restarts the handshake instead of going offline (witness C39_key_refuted).

### C39 A command is reported successful only if the PD answered it — partial

Modelled by Cp.v.  History of the last transmission; the reported status against it.
Theorems (PropsCp2.v): `C39_status_partial`, `C39_key_partial`, `C39_status_refuted`, `C39_key_refuted`.
True when the command was transmitted; false when its transmission failed: stale reply code.

### C40 Status masks report exactly the PDs that are online / secured — proved

Modelled by CpCtx.v.  Induction on the number of PDs, bit arithmetic.
Theorems (PropsCtx.v): `C40_status`, `C40_secure`.
Every number of PDs and every run of the panel; the status mask of a panel without PDs reads a missing entry and is excluded by the hypothesis.

### C41 File transfer reproduces the file exactly — partial

Modelled by File.v, Cp.v, Pd.v, Phy.v, Sc.v.  Panel and device on one line: one round moves a piece; well-founded induction on what is left.
Theorems (PropsFile.v): `C41_transfer`, `C41_unaligned_refuted`.
Proved for every content, every way the application cuts its reads and every line that loses nothing, with and without a session, as long as the largest chunk fits a packet (chunk_fits). Without that side condition it is false: with a receive buffer of 250 bytes and a session the padded chunk does not fit, the panel sends nothing and goes offline.

### C42 File transfer tolerates retransmission — partial

Modelled by File.v, Cp.v, Pd.v.  Witness.
Theorems (PropsFile.v, PropsFrag.v): `C42_write_partial`, `C42_bytes_partial`, `C42_repeat_refuted`.
False of the code: the repeated chunk carries a new number, the device counts it a second time and declares the transfer done although the second half was never written. Proved: whatever is repeated or reordered, every write is the data and offset of a received fragment, in clear or enciphered, so that no byte of the file gets to a wrong place.

### C43 No remote input makes the library abort — partial

Modelled by Pd.v, Cp.v.  Invariant over runs and case analysis of a refresh over all inputs; witnesses for the exceptions.
Theorems (PropsPd2.v, PropsTotal.v, PropsTotal2.v): `C43_total_partial`, `C43_assert_refuted`, `C43_null_refuted`, `C43_small_refuted`.
False as stated: remotely reachable assertions and a null call. Proved for the device: with a careful application every refresh ends except on a list of packets given exactly.

### C44 A PD answers every valid command addressed to it — partial

Modelled by Pd.v, Phy.v, File.v.  Case analysis over all commands and over every way a packet can be decoded; a bound on the length of every answer, also after encryption, shows that it fits (PdAll.v); witnesses for the exceptions.
Theorems (PropsPd2.v, PropsSay.v): `C44_answered_partial`, `C44_every_partial`, `C44_silent_refuted`.
C44_every_partial covers every valid packet, plain or secured, in any reachable state: answered in the same refresh by one intact packet with its number, or one of three listed exceptions (no room for a command, file fragment not taken by the application, announced buffer below 69 bytes). Missing: those exceptions, for which the property is false (C44_silent_refuted), and panels that announced 69 to 164 bytes before.

### C45 Malformed commands are NAKed with the documented reason — partial

Modelled by Pd.v.  Exact NAK code for every malformed command.
Theorems (PropsPd1.v): `C45_malformed`, `C45_sequence`, `C45_unnamed_refuted`.
false as stated for a few codes without a name on an ENFORCE_SECURE device (null pointer)

### C46 CP runtime flag changes are restricted — proved

Modelled by Cp.v, CpApi.v.  Bit level specification of the flag word.
Theorems (PropsCp2.v): `C46_flags`.

### C47 Every event handed to the CP application was received in a reply — partial

Modelled by Cp.v.  History induction from events back to replies.
Theorems (PropsCp2.v): `C47_told_partial`, `C47_once`, `C47_raw_refuted`.
Every event handed out while online was reported by a reply, once; a stale request can hand out other data when the entry gets online (refuted, even the key).

### C48 Offline PDs are left alone for the retry period — proved

Modelled by Cp.v.  Time stamps, induction over runs.
Theorems (PropsCp2.v): `C48_quiet`, `C48_restart`.

### C49 A PD opens a secure session only for a peer that knows its base key — partial

Modelled by Pd.v.  Invariant over call histories on the origin of the session key and of the opening cryptogram (PdOwn.v); witness for the zero key.
Theorems (PropsOwn.v, PropsPd2.v): `C49_base_key_partial`, `C49_zero_key_refuted`.
False as stated: witness with zero key and zero random numbers right after setup. Proved: a device set up with a key and not in install mode has a session open only if it was opened by a received cryptogram under a session key made from a base key it held, or under the zero key when it had made no session key before.

### C50 A recorded secure packet is not executed a second time — partial

Modelled by Pd.v.  Two executions of the same bytes force two MAC equations (PdOwn.v); witness across sessions.
Theorems (PropsOwn.v, PropsPd2.v): `C50_chain_partial`, `C50_replay_refuted`.
False across sessions: verbatim replay of a recorded session executes the command again. Proved: while a session is open, a repeated packet is executed only if the truncated MACs over its bytes under the keys and chaining values of both times coincide, and its number is due.

### C51 A command repeated with the same sequence number is not executed twice — partial

Modelled by Pd.v.  As C50, with the second call on the state after the first (PdOwn.v); witness in clear.
Theorems (PropsOwn.v, PropsPd2.v): `C51_session_partial`, `C51_repeat_refuted`.
False in clear: the repeated command is executed again. Proved inside a session: the repeated packet is not executed and the session is dropped, unless the truncated MACs before and after the answer coincide.

### C52 Events from a PD with an open secure channel are authentic — partial

Modelled by Cp.v.  Decoder lemma (AuthProofs.v), invariant that an online entry keeps no event for later (CpAuth.v); witness for handshake blocks.
Theorems (PropsAuth.v, PropsCp2.v): `C52_authentic_partial`, `C52_forged_refuted`.
Refuted: a reply in an SCS_12 block is accepted without MAC inside a session. Proved: every event of an online entry with an open session comes from a reply heard in the same refresh, with a security block that is either of a handshake type or has the right MAC; never from a plain reply.

### C53 No reply of a PD drives the CP into undefined behaviour — partial

Modelled by Cp.v.  Invariant over runs and case analysis of a refresh over all inputs; witnesses for the exceptions.
Theorems (PropsCp2.v, PropsTotal2.v): `C53_total_partial`, `C53_keypad_refuted`, `C53_small_refuted`, `C53_ftstat_refuted`, `C53_silence_refuted`.
False as stated: a 65-byte keypad report overflows the event; more cases with file transfers. Proved: with a careful application without file transfers every refresh ends except on a list of replies given exactly.

### C54 A lost command is repaired by retransmission — partial

Modelled by Cp.v, Pd.v, Phy.v.  Forward simulation of panel and device over six calls (Lost.v, Lost2.v); the numbers by case analysis.
Theorems (PropsLost.v): `C54_repaired_refuted`.
False of the code; refuted for every command and every plain pair: the repetition carries the next number, the device refuses it, the panel goes offline.

### C55 A lost reply is repaired by retransmission — partial

Modelled by Cp.v, Pd.v, Phy.v.  Forward simulation over seven calls, with the line invariant of Talk.v kept when the reply is lost (Lost2.v); witness for the session.
Theorems (PropsLost.v): `C55_lost_reply_partial`, `C55_session_refuted`.
Proved for polls outside a session; false in a session, where one lost reply costs the connection.

### C56 An event survives the loss of the reply that carries it — partial

Modelled by Cp.v, Pd.v, Phy.v.  Same simulation with an event in the queue.
Theorems (PropsLost.v): `C56_event_refuted`.
False of the code; refuted for every event outside a session.

### C57 Every command gets its own number of attempts — partial

Modelled by Cp.v, Phy.v.  Same simulation with the retry count; computed history of eight repaired losses.
Theorems (PropsLost.v): `C57_counted_partial`, `C57_retries_refuted`.
False of the code: the count is kept over the life of the connection; proved how it is counted.

### C58 On a line that loses nothing every command and every event arrives exactly once and in order — proved

Modelled by Cp.v, Pd.v, Phy.v, Sc.v.  Invariant over the joint state of panel, device and line with four phases of an exchange (Run1.v to Run3.v); every action keeps it and accounts for commands and events; induction over the sequence of actions.
Theorems (PropsRun.v): `C58_exact`, `C58_holds`, `C58_goes_on`, `C58_served`.
For panel and device that are connected, in a session or with a panel that does not want one. A packet arrives whole in one refresh, within 200 ms of the command; the session does not time out. Commands are output, LED, buzzer, text and manufacturer commands the device has the capability for and its application accepts; status, communication, key set and file commands are not in this theorem (C25 to C29, C41 treat one exchange of them).

### C59 A CP and a PD with matching settings find each other and start working — proved

Modelled by Cp.v, Pd.v, Phy.v, Sc.v, CpCtx.v.  Forward simulation of both ends, exchange by exchange; a packet with number 0 is received by any device as by one without session (Boot.v); the handshake of C07 with what it leaves alone (Shake.v); composition in Boot2.v.
Theorems (PropsBoot.v): `C59_comes_online`, `C59_comes_online_plain`, `C59_recovers`, `C59_from_setup`.
The device application has a callback; C58 takes over from the final state.

### C60 A change of the key leaves both ends with the new key and in a new session — partial

Modelled by Cp.v, Pd.v, Phy.v, Sc.v.  Forward simulation of the KEYSET exchange inside a session (Keys.v: key_exchange), the panel state after the answer (key_online, key_given), then the handshake of C07 with the new key; the lost answer as a computed witness.
Theorems (PropsKey.v): `C60_rotates`, `C60_provisions`, `C60_halfway`, `C60_lost_answer_refuted`.
Proved for lines without losses; refuted for a line that loses the answer to KEYSET. The panel does not use the default key when it rotates (else it hands over its own key first).

### C61 Devices that share a line do not disturb each other — partial

Modelled by Pd.v, Phy.v.  One refresh on benign traffic by case analysis of the front of the pending bytes (Bus.v: bus_step), induction over the refreshes; two computed witnesses for replies with a start byte inside.
Theorems (PropsBus.v): `C61_undisturbed_partial`, `C61_goes_on`, `C61_drains`, `C61_works_on`, `C61_injected_refuted`, `C61_session_refuted`.
Proved for packets of other devices without a start byte behind their first byte; with one inside the statement is false of the code (two witnesses).

### C62 Several devices on one line are all served, each exactly — partial

Modelled by Cp.v, CpCtx.v, Pd.v, Phy.v, Sc.v.  The invariant of C58 for each pair together with that of C61 for what the device overheard (Share.v); one action at one station keeps it for all (Share2.v); for the panel as a whole the lock invariant of C36 discharges that the others are silent (Panel.v); induction over the run.
Theorems (PropsPanel.v, PropsShare.v): `C62_exact_partial`, `C62_holds_partial`, `C62_alone_partial`, `C62_goes_on_partial`, `C62_catches_up_partial`, `C62_panel_partial`, `C62_next_turn_partial`, `C62_turns`.
Proved when no device answers with a packet that has a second start byte inside (with one C61 is refuted) and each device is done with earlier traffic when the panel sends to it; also for the panel as a whole, where the channel lock keeps the exchanges apart.

### C63 A device that falls silent is given up in bounded time and taken up again when it is back — proved

Modelled by Cp.v, Phy.v.  A measure of the time left, over the phase, retry count, state, unread bytes and queue length, that every refresh in silence keeps or lowers (Silent.v); what the entry keeps in silence is enough for the recovery of C59 (Heal.v).
Theorems (PropsSilent.v): `C63_gives_up`, `C63_goes_on`, `C63_heals`.
No file transfer in the history of the panel. C63_heals needs that no change of the key was under way when the silence began (C39_key_refuted tells why) and speaks of a device that hears nothing during the silence.

### C64 Inside a secure session nothing but command and reply codes travels in clear, and a base key is sent in no other state — proved

Modelled by Pd.v, Cp.v, Phy.v, Sc.v.  Case analysis of a refresh with the session open: every way to an answer either keeps the session, leaves a handshake reply or a NAK (Secret.v); the form of every transmission follows from the packet builder (Secret.v, SecretCp.v). Encrypted means: the data appear only as argument of AES-CBC under the session key; the strength of AES is not part of the model.
Theorems (PropsSecret.v): `C64_device`, `C64_panel`, `C64_restart_refuted`.
C64_restart_refuted is not part of the claim: it shows why the packet number 0 is excepted (a plain packet with number 0 makes a device that does not insist on sessions read out its events in clear).

### C65 The memory of a context is used only while it is allocated and is returned completely by teardown — partial

Modelled by Mem.v, CpCtx.v.  Ownership invariant: the live blocks are those from before plus those the context owns, without repetition; kept by every call (MemProofs.v). A second invariant places the storage of every PD in the current array; it is lost when PDs are added to some.
Theorems (PropsMem.v): `C65_panel_partial`, `C65_released`, `C65_device_partial`, `C65_agrees`, `C65_add_refuted`, `C65_setup_refuted`.
Proved for all call sequences and allocation failures when PDs are added only to a panel without PDs; no leak in any case. False of the code when PDs are added to a panel that has some (their command storage stays in the freed array, for every such case), and for a device when the second allocation fails (null pointer in the clean-up).

### C66 The file functions of the application are called in order: opened once, used while open, closed once — partial

Modelled by File.v, Pd.v, Cp.v.  Two automata over the calls of the file functions, one per side; invariant: the automaton agrees with the state of the transfer, followed through every function that can reach the file code (OpenPd.v, OpenCp.v). The full statement holds for the PD. At the CP it is false in three ways, each shown by a run (C66_empty_refuted, C66_unreadable_refuted, C66_twice_refuted); C66_panel_partial has exactly these as extra transitions.
Theorems (PropsOpen.v): `C66_device`, `C66_panel_partial`, `C66_empty_refuted`, `C66_unreadable_refuted`, `C66_twice_refuted`.
Full statement proved for the PD (C66_device). At the CP it is false of the code: an empty or unreadable file is never closed, and after a status report of unknown number for the last fragment a closed file may be read or closed again; C66_panel_partial proves the order with exactly these exceptions.

### C67 The progress of a file transfer that a query reports is true — partial

Modelled by File.v, Cp.v, Pd.v.  A reckoning of the progress from the calls of the file functions and the status reports heard, kept in agreement with the record of the transfer by every function that touches it (ProgCp.v); that acknowledgements do count, on both sides, is part of the transfer theorem of C41, whose statement contains the answer of the query between the rounds (SpecFile.v, Xfer.v).
Theorems (PropsFile.v, PropsProg.v): `C67_progress`, `C67_bounds`, `C67_forward`, `C41_transfer`, `C67_unregistered_refuted`, `C67_repeated_refuted`.
Proved for every history of the CP with file functions registered, and on both sides for a transfer on a line that loses nothing (C41_transfer). Two parts are false of the code: before file functions are registered the query follows a null pointer, and a PD counts a repeated fragment twice.

### C68 An idle device is polled every 50 ms, neither more often nor later — partial

Modelled by Cp.v, Phy.v.  From the transmission of a poll on, an invariant bounds the two time stamps of the entry from below by the time of that transmission, in every phase of the exchange; a poll in the making already lies 50 ms later (PollCp.v). For the other direction the time stamp is bounded from above by the latest refresh of the history and does not move while the entry rests.
Theorems (PropsPoll.v): `C68_gap_partial`, `C68_gap_refuted`, `C68_due`.
C68_due is the full "not later" half. C68_gap_partial (the "not more often" half) excludes the option to ignore unknown answers, for which C68_gap_refuted shows that it is false, and a device that asks for polls during a file transfer.

### C69 Every command is reported as completed exactly once and in order — partial

Modelled by Cp.v.  A balance over each refresh: either nothing is reported and the command under way is the one just taken, or the command under way is reported and nothing is under way any more (OnceCp.v); the history then follows by induction. The exceptions (commands of the manufacturer answered with data, status queries of unknown kind) are refutations by execution.
Theorems (PropsOnce.v): `C69_once_partial`, `C69_order_partial`, `C69_mfg_refuted`, `C69_unsent_refuted`, `C69_unasked_refuted`.
Each command taken from the queue is reported once and in order, except (refuted): manufacturer commands not answered with ACK and status queries of unknown kind are never reported, and the KEYSET the panel sends by itself to replace the default key is reported without having been submitted.

### C70 Status notifications tell the truth — partial

Modelled by Cp.v, Phy.v.  Outputs are split into stretches, each of which takes an application that goes by the latest notification from the truth before it to the truth after it; where the reception of a packet closes the session silently, the error path behind it always notifies (TellCp.v). The wrong values are refutations by execution.
Theorems (PropsTell.v): `C70_channel`, `C70_device_partial`, `C70_offline_refuted`, `C70_outcome_refuted`.
The secure channel part is proved in full; PD status notifications come exactly when they should, but going offline is notified with the value for online, and the outcomes of commands are not the documented values (both refuted by execution).

### C71 The PD application is called only with commands that were received — proved

Modelled by Pd.v, Phy.v, File.v.  What a payload asks for is stated by the layout of each message (SpecHeard.v, asks), not by the decoder. A case analysis of the decoder shows that its calls are a prefix of it; the payload is that of the packet in the receive buffer (HeardPd.v). That packets inside a session are authentic is C13.
Theorems (PropsHeard.v): `C71_asked`.
The flags in the announcement of a file are left open: they are not part of the message.

### C72 KEEPACTIVE keeps a secure session open for the time it names, and nothing else does for more than 8 s — partial

Modelled by Pd.v.  The 8 s bound follows from the step lemma about the session's time stamp (PdHist.v, stamp_step). KEEPACTIVE advances the time stamp, but the refresh then overwrites it with the present; the refutation executes this.
Theorems (PropsKeep.v): `C72_limit_partial`, `C72_keepactive_refuted`.
No packet, KEEPACTIVE included, keeps a session open for more than 8 s; KEEPACTIVE has no effect.

### C73 The panel changes the address and baud rate of a PD only by a COMSET — partial

Modelled by Cp.v.  A case analysis of one refresh follows address and baud rate from the received reply to the end of the refresh (CommCp.v). That the reply need not answer a COMSET is a refutation by execution.
Theorems (PropsComm.v): `C73_changed_partial`, `C73_unasked_refuted`.
They change only by a COM reply from the PD with the new values, but the reply need not answer a COMSET.

### C74 Every handshake of the panel uses a random number drawn for it — partial

Modelled by Cp.v, Sc.v.  Induction over the history: while the entry is in a handshake its random number is the one of the refresh that began it (DrawnCp.v), and the transmitted challenge contains it. That the second attempt, with the default key, uses the number of the first is a refutation by execution.
Theorems (PropsDrawn.v): `C74_challenge_partial`, `C74_kept_partial`, `C74_fresh_refuted`.
The challenge carries the bytes drawn in the refresh that entered the challenge state, and the answer is judged by them. Missing: the retry with the default key after a failed challenge is a new handshake without a new draw (refuted).

### C75 A PD makes session keys only in answering a challenge, with a random number drawn for it — partial

Modelled by Pd.v, Sc.v.  Invariant over histories: a pending CCRYPT answer belongs to a challenge in the history whose bytes the device has kept (ChlngPd.v). That the packet which makes the device answer again need not be a challenge is a refutation by execution.
Theorems (PropsChlng.v): `C75_keys_partial`, `C75_unasked_refuted`.
Number drawn in the same refresh and key made from the bytes of a received CHLNG. Missing: that this CHLNG is the packet answered; a malformed later packet makes the device build the answer again with a new number (refuted).

### C76 A control panel proves its key only to a device that has proved the same key — proved

Modelled by Cp.v, Sc.v.  The bytes of the SCRYPT packet follow from the command builder (ScryptCp.v); that the key was proved is the invariant over histories of C08 (CpHist.v).
Theorems (PropsScrypt.v): `C76_proof_second`.

## 4. Findings

Behaviour of the code that contradicts the properties or the documentation.  The first list is proved
in Coq by the theorem in parentheses, the second was seen while modelling and is not stated as a
theorem.

### Proved

* A device in session executes a KEYSET without MAC when it comes in a packet with a handshake block
  and number 0 (`C13_unauthenticated_refuted`).
* `osdp_cp_add_pd` moves the PDs into a new array and frees the old one, but the slab of each old PD still points
  to its storage in the old array: every later command for an old PD is written into freed memory
  (`C65_add_refuted`).
* `osdp_pd_setup` with memory for the context only reads through a null pointer in its clean-up
  (`C65_setup_refuted`).
* A nine byte packet without cryptogram re-opens a session (`C09_same_refresh_refuted`).
* Right after set-up the session keys are zero; a peer that knows nothing opens a session
  (`C49_zero_key_refuted`).
* A recorded session, played back, executes its commands again (`C50_replay_refuted`).  A command
  repeated with the same number is executed again (`C51_repeat_refuted`).
* A plain packet with number 0 ends the session of a device that does not insist on sessions; the card
  that waits is then read out in clear (`C64_restart_refuted`).
* The panel accepts an event without MAC inside a session if it comes in an SCS_12 block
  (`C52_forged_refuted`).
* A keypad report with 65 keys overflows the event of the panel (`C53_keypad_refuted`).  A marked
  packet of length 256 writes one byte behind the receive buffer (`C23_mark_overflow_refuted`).
* Remote bytes reach assertions and a call through a null pointer (`C43_assert_refuted`,
  `C43_null_refuted`, `C45_unnamed_refuted`).  A peer that announces a small receive buffer stops either
  side at an assertion with its next larger event or command (`C43_small_refuted`, `C53_small_refuted`).
* A file status report with extra data stops the panel, and so does silence after it gave up a transfer
  because the file cannot be read (`C53_ftstat_refuted`, `C53_silence_refuted`).
* A stale answer can be sent again in clear by a device that enforces the secure channel
  (`C14_stale_answer_refuted`).
* After a KEYSET the session keyed from the old key goes on, or can be resumed
  (`C15_old_key_session_refuted`, `C16_default_session_refuted`).
* In install mode a device stays on the default key after one challenge under it
  (`C07_same_scbk_refuted`).
* ENFORCE_SECURE set at run time on an online PD does not close the plain channel
  (`C33_set_later_refuted`).
* A transmission that fails leaves a gap in the numbers, and its command can be reported successful by
  a stale reply code (`C19_gap_refuted`, `C39_status_refuted`, `C39_key_refuted`).
* A BUSY answer with a number other than 0 makes the panel repeat under a new number
  (`C19_busy_number_refuted`).
* A handshake that is not answered does not lead to offline without ENFORCE_SECURE
  (`C35_offline_refuted`).
* `osdp_cp_add_pd` at run time resets the channel locks: two commands on one channel
  (`C36_add_refuted`), and an old PD that is never served again (`C37_add_refuted`).
* A stale event request hands packet bytes, even a key, to the application (`C47_raw_refuted`).
* The direction of a card read is lost (`C26_direction_refuted`).
* OUT, LED and BUZ are acknowledged although the application refused them (`C31_output_refuted`).
* Several valid commands get no answer (`C44_silent_refuted`).
* The packet check does not cover all 16 bit bursts: corruption of the control bit selects the weaker
  checksum (`C03_mode_bit_refuted`, `C03_two_adjacent_bytes_refuted`).
* A file chunk repeated after a lost answer is counted twice (`C42_repeat_refuted`).  In a session a
  chunk may not fit the receive buffer after padding (`C41_unaligned_refuted`).
* A command that is lost once costs the connection: the repetition carries the next sequence number,
  which the device refuses (`C54_repaired_refuted`).  A lost reply costs the connection in a session
  (`C55_session_refuted`); outside one, the command is executed twice and an event in the lost reply
  is gone (`C56_event_refuted`).
* The number of repetitions is counted over the life of a connection, not per command
  (`C57_counted_partial`, `C57_retries_refuted`).

### Seen while modelling

* Refusal of LSTAT, ISTAT, OSTAT and RSTAT by the application gives NAK 2 instead of 9.
* A repeated chunk that overruns the size fails an assertion of the device.  A device that is still in
  the old transfer when the panel starts again keeps the old offset.
* The status KEEP_ALIVE of a file transfer is rejected by the panel.
* The panel does not close a file that it opened with size 0 or less (C66_empty_refuted), nor one whose read
  fails or returns nothing (C66_unreadable_refuted).  After a status report of unknown number for the last
  fragment the file is closed but the transfer goes on: a cancellation closes it again, or it is read after
  the close (C66_twice_refuted).
* The query for the progress of a file transfer follows a null pointer before file functions are registered
  (C67_unregistered_refuted).  A device counts bytes and not places: the first half of a file sent twice is
  reported as the whole file and closes it (C67_repeated_refuted).
* With the option to ignore unknown answers, such an answer to a poll does not set the time stamp that spaces the
  polls (osdp_cp.c:868-874): after a slow refresh two polls can follow each other within a few ms (C68_gap_refuted).
* The completion of a manufacturer specific command is notified only if the answer is an ACK (osdp_cp.c:1246-1250); one
  answered with MFGREP, or refused, is never notified (C69_mfg_refuted).  A status query of unknown kind is accepted, but
  dropped without transmission or notification (osdp_cp.c:761-799, C69_unsent_refuted).  The KEYSET by which the panel
  itself replaces the default key is notified like one of the application (C69_unasked_refuted).
* KEEPACTIVE does not extend a session: the time stamp it advances (osdp_pd.c:572) is overwritten in the same
  refresh (osdp_pd.c:1037; C72_keepactive_refuted).
* Going offline is notified as PD status 1, documented as online (osdp_cp.c:1205, include/osdp.h:845;
  C70_offline_refuted).
* The outcome of a command is notified as 1 for success and 0 for failure (osdp_cp.c:1258), while the header documents 0
  for success and -1 for failure (include/osdp.h:832): a failed command looks successful (C70_outcome_refuted).
* Registering file functions during a transfer forgets the open file, on both sides.
* RAW reports overflow like keypad reports.  TEXT with a length above 32 reads past the array.
* A malformed ACK (with data) reports success and then goes offline.
* After a challenge, a packet that is refused without a NAK (security block too short) makes a device build its pending
  CCRYPT again, with a new random number; the handshake with the panel then fails (C75_unasked_refuted).
* The second handshake attempt of a panel, with the default key, reuses the random number of the first: the state does
  not change, so osdp_sc_setup is not called (osdp_cp.c:1144-1148, 1206-1208; C74_fresh_refuted).
* REPLY_COM to a POLL changes address and baud rate at the panel (osdp_cp.c:544-557; C73_unasked_refuted): the device
  is taken offline and then looked for at the new address.
* OFFLINE notifies online = true in some paths; the status argument of a command is a boolean.
* Channel id 0 never excludes.  `osdp_get_status_mask` with no PD reads a missing entry.
* BUSY retries are not bounded.
* A packet for another address makes the panel take its PD offline.
* The detection of the mark byte depends on how the bytes are cut into pieces; packets of 6 or 7 bytes
  with the security bit are decoded from stale bytes (the exclusion in C24).
* A partial packet older than 200 ms drops the session of a device.
* SCRYPT failing with the default key in use leaves USE_SCBKD set although the PD goes online.
* An SCS_11/13 reply with data byte 0 switches a panel in install mode to the default key.
* A plain NAK is always accepted in a session, and a plain ACK to KEYSET.
* The panel reuses its random number when the challenge is repeated.
* A queued KEYSET whose session was lost is dropped silently.
* When the answer to KEYSET is lost the device has the new key and the panel the old one; the repeated
  command is refused (the device left the session) and the next attempt fails as well
  (C60_lost_answer_refuted).
* A device steps over the packet of another device by five bytes only and searches for a start byte behind
  them.  A packet inside the card data of another reader is executed and answered (C61_injected_refuted);
  four bytes of card data that look like a bad header end the session of a device (C61_session_refuted).

## 5. Mutation tests

`seeded/LOG.jsonl` lists wrong programs that were tried against the theorems in a scratch copy: the
definition edited, the edit, the claim it breaks, the theorems that failed, and what was tightened.
