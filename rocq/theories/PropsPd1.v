(** Property theorems C12, C18, C20 - C23, C45: what a peripheral device does with a received packet. *)
From Verif Require Import Base ListLemmas Crc SpecCrc Aes Rb RbProofs Types Sc Phy File Pd SpecRx SpecFrame
  SpecSec SpecCmd SpecPd RxProofs PdRx PdCore PhyTx PdTx PdReply PdStep PdWire PdFwd PdRun PdSpeak PdPlain PdSec PdRefuse PdFacts ExPd.
From Coq Require Import ZifyBool ZifyNat.
Local Opaque RB_SIZE.

(** C12.  In an open session, a packet of a session block type (21..24) whose four MAC bytes are not
    the MAC over the packet under the session keys and chain never has an effect: nothing is
    called, no setting, event, file or key changes, the session is dropped; if the line takes the
    answer, it is exactly NAK(6). *)
Theorem C12_wrong_mac : forall e p f rest,
  pd_reach p -> call_typed (Refresh e) -> next_frame e p f rest ->
  f_intact f -> f_mine (address p) f -> seq_ok (seqn p) (f_seq f) -> f_seq f <> 0 ->
  session_open e p = true -> f_scb f = true -> 7 <= zlen f -> 21 <= f_sctype f <= 24 ->
  f_mac f <> firstn 4 (osdp_mac (s_mac1 (sc p)) (s_mac2 (sc p)) (r_mac (sc p)) (f_covered f)) ->
  (forall q o, pd_refresh e p = Ok (q, o) ->
     only_tx o /\ app_view q = app_view p /\ sc_active (fl q) = false /\ pending q = rest) /\
  (69 <= tx_buf_size p -> 256 <= e_tx e ->
   exists q o, pd_refresh e p = Ok (q, o) /\ answers o (answer_addr p f) (f_seq f) [65; 6]).
Proof.
  intros e p f rest R T N V M S S0 SO. rewrite <- session_open_eq in SO.
  exact (bad_mac e p f rest (env_typed e T) (reach_inv p R) N V M S S0 SO).
Qed.
Print Assumptions C12_wrong_mac.

(* device in a real session; a POLL with a made-up MAC *)
Example C12_example :
  let f := scb_frame 101 2 21 [] ([96] ++ [1; 2; 3; 4]) in
  let e := ex_env 1200 [f] in
  pd_reach ex_pd_sc /\ call_typed (Refresh e) /\ next_frame e ex_pd_sc f [] /\ f_intact f /\
  f_mine (address ex_pd_sc) f /\ seq_ok (seqn ex_pd_sc) (f_seq f) /\ session_open e ex_pd_sc = true /\
  f_mac f <> firstn 4 (osdp_mac (s_mac1 (sc ex_pd_sc)) (s_mac2 (sc ex_pd_sc)) (r_mac (sc ex_pd_sc)) (f_covered f)) /\
  outs_of (pd_refresh e ex_pd_sc) = [OTx (plain_frame 229 2 [65; 6])].
Proof.
  cbv zeta. split; [exact (proj1 ex_pd_sc_reach)|]. split; [apply ex_env_typed; vm_compute; reflexivity|].
  split; [apply (next_frame_test _ _ []); [auto|vm_compute; reflexivity|vm_compute; reflexivity]|].
  split; [apply intact_test; vm_compute; reflexivity|].
  split; [left; vm_compute; reflexivity|]. split; [right; right; vm_compute; reflexivity|].
  split; [vm_compute; reflexivity|]. split; [vm_compute; discriminate|]. vm_compute; reflexivity.
Qed.

(** C12.  In an open session a packet without security block has no effect either, whatever it
    holds (unless its number is 0, which ends the session). *)
Theorem C12_no_block : forall e p f rest,
  pd_reach p -> call_typed (Refresh e) -> next_frame e p f rest ->
  f_intact f -> f_mine (address p) f -> seq_ok (seqn p) (f_seq f) -> f_seq f <> 0 ->
  session_open e p = true -> f_scb f = false ->
  forall q o, pd_refresh e p = Ok (q, o) -> only_tx o /\ app_view q = app_view p /\ pending q = rest.
Proof.
  intros e p f rest R T N V M S S0 SO. rewrite <- session_open_eq in SO.
  exact (plain_in_session e p f rest (env_typed e T) (reach_inv p R) N V M S S0 SO).
Qed.
Print Assumptions C12_no_block.

Example C12_no_block_example :
  let f := plain_frame 101 2 [104; 0; 1; 0; 0] in
  let e := ex_env 1200 [f] in
  next_frame e ex_pd_sc f [] /\ f_intact f /\ session_open e ex_pd_sc = true /\
  is_ok (pd_refresh e ex_pd_sc) = true /\ length (outs_of (pd_refresh e ex_pd_sc)) = 1%nat.
Proof.
  cbv zeta. split; [apply (next_frame_test _ _ []); [auto|vm_compute; reflexivity|vm_compute; reflexivity]|].
  split; [apply intact_test; vm_compute; reflexivity|]. vm_compute. auto.
Qed.

(** C18.  Number 0 is accepted in every state and ends an open session; any other number is
    accepted iff it repeats the device's counter or is its successor in 1 2 3; a packet that is
    accepted goes to the command decoder (with the session closed if the number was 0), one that is not
    accepted has no effect and is answered NAK(4), and the session stays as it was. *)
Theorem C18_sequence : forall e p f rest,
  pd_reach p -> call_typed (Refresh e) -> next_frame e p f rest -> f_intact f -> f_mine (address p) f ->
  (f_seq f = 0 \/ f_seq f = seqn p \/ f_seq f = seq_next (seqn p) ->
     exists p1, seqn p1 = f_seq f /\ app_view p1 = app_view p /\ frame_of p1 = f /\
       sc_active (fl p1) = (session_open e p && negb (f_seq f =? 0)) /\
       pd_refresh e p = bind (rap_k e (p1, KNone)) (pd_finish e)) /\
  (~ (f_seq f = 0 \/ f_seq f = seqn p \/ f_seq f = seq_next (seqn p)) ->
     (forall q o, pd_refresh e p = Ok (q, o) ->
        only_tx o /\ app_view q = app_view p /\ pending q = rest /\ sc_active (fl q) = session_open e p) /\
     (session_open e p = false -> 69 <= tx_buf_size p -> 256 <= e_tx e ->
        exists q o, pd_refresh e p = Ok (q, o) /\ answers o (answer_addr p f) (seq_next (seqn p)) [65; 4])).
Proof.
  intros e p f rest R T N V M. split.
  - intros S. exact (seq_accepted e p f rest (env_typed e T) (reach_inv p R) N V M S).
  - intros S. exact (refused_sequence e p f rest (env_typed e T) (reach_inv p R) N V M S).
Qed.
Print Assumptions C18_sequence.

(** C18.  After a packet with number 0 the session is open only if that very packet was the
    SCRYPT of a new handshake. *)
Theorem C18_zero_closes : forall e p f rest q o,
  pd_reach p -> call_typed (Refresh e) -> next_frame e p f rest -> f_intact f -> f_mine (address p) f ->
  f_seq f = 0 -> pd_refresh e p = Ok (q, o) -> sc_active (fl q) = true -> reply_id q = 120.
Proof.
  intros e p f rest q o R T N V M S. exact (zero_closes e p f rest q o (env_typed e T) (reach_inv p R) N V M S).
Qed.
Print Assumptions C18_zero_closes.

Example C18_example :
  let f := plain_frame 101 0 [96] in
  let e := ex_env 1200 [f] in
  next_frame e ex_pd_sc f [] /\ f_intact f /\ f_mine (address ex_pd_sc) f /\ seqn ex_pd_sc = 1 /\
  sc_active (fl ex_pd_sc) = true /\ sc_active (fl (state_of (pd_refresh e ex_pd_sc))) = false /\
  (* number 3 while the counter stands at 0 *)
  let p := state_of (pd_refresh e ex_pd_sc) in
  outs_of (pd_refresh (ex_env 1300 [plain_frame 101 3 [97; 0]]) p) = [OTx (plain_frame 229 1 [65; 4])].
Proof.
  cbv zeta. split; [apply (next_frame_test _ _ []); [auto|vm_compute; reflexivity|vm_compute; reflexivity]|].
  split; [apply intact_test; vm_compute; reflexivity|]. split; [left; vm_compute; reflexivity|]. vm_compute. auto.
Qed.

(** C18, read as "the last number the device accepted", is false: a refused packet still moves the counter, so
    repeating the refused packet gets it executed.  Here the last accepted number is 1, number 3 is
    refused once and accepted the second time. *)
Theorem C18_last_accepted_refuted : exists p e1 e2 e3 p1 p2 p3 o1 o2 o3 f,
  pd_reach p /\ call_typed (Refresh e1) /\ call_typed (Refresh e2) /\ call_typed (Refresh e3) /\
  f = plain_frame 101 3 [104; 0; 1; 0; 0] /\ e_rx e2 = [f] /\ e_rx e3 = [f] /\
  e_rx e1 = [plain_frame 101 1 [96]] /\ pd_refresh e1 p = Ok (p1, o1) /\ o1 = [OTx (plain_frame 229 1 [64])] /\
  pd_refresh e2 p1 = Ok (p2, o2) /\ o2 = [OTx (plain_frame 229 2 [65; 4])] /\
  pd_refresh e3 p2 = Ok (p3, o3) /\ o3 = [OCmd (COutput 0 1 0); OTx (plain_frame 229 3 [64])].
Proof.
  set (p := state_of (run_from (ex_info false None) 4 (ex_start ++ [Refresh (ex_env 900 [plain_frame 101 0 [96]])]))).
  exists p, (ex_env 1000 [plain_frame 101 1 [96]]), (ex_env 1100 [plain_frame 101 3 [104; 0; 1; 0; 0]]),
    (ex_env 1200 [plain_frame 101 3 [104; 0; 1; 0; 0]]).
  eexists. eexists. eexists. eexists. eexists. eexists. eexists.
  split. { apply run_reach; [apply ex_info_typed; exact I| |vm_compute; reflexivity].
           repeat apply Forall_cons; try apply Forall_nil; try exact I; apply ex_env_typed; vm_compute; reflexivity. }
  do 3 (split; [apply ex_env_typed; vm_compute; reflexivity|]).
  do 4 (split; [reflexivity|]).
  split; [vm_compute; reflexivity|]. split; [vm_compute; reflexivity|].
  split; [vm_compute; reflexivity|]. split; [vm_compute; reflexivity|].
  split; vm_compute; reflexivity.
Qed.
Print Assumptions C18_last_accepted_refuted.

(** C20.  A packet for another address causes no transmission and no callback, leaves settings,
    events, keys, counter and session alone, and is consumed as a whole. *)
Theorem C20_foreign : forall e p f rest,
  pd_reach p -> call_typed (Refresh e) -> next_frame e p f rest -> f_intact f ->
  f_addr f <> address p -> f_addr f <> 127 ->
  exists q, pd_refresh e p = Ok (q, []) /\ pending q = rest /\ app_view q = app_view p /\
    sc q = sc p /\ seqn q = seqn p /\ sc_active (fl q) = session_open e p /\ broadcast (fl q) = broadcast (fl p).
Proof.
  intros e p f rest R T N V M1 M2.
  apply (foreign_silent e p f rest (env_typed e T) (reach_inv p R) N V). unfold f_mine. intros [X|X]; auto.
Qed.
Print Assumptions C20_foreign.

(* the packet for device 55 is skipped, the one behind it answered in the next refresh *)
Example C20_example :
  let f := plain_frame 55 0 [96] in let g := plain_frame 101 0 [96] in
  let e := ex_env 1000 [f ++ g] in
  next_frame e ex_pd f g /\ f_intact f /\ f_addr f <> address ex_pd /\ f_addr f <> 127 /\
  outs_of (run ex_pd [Refresh e; Refresh (ex_env 1001 [])]) = [OTx (plain_frame 229 0 [64])].
Proof.
  cbv zeta. split; [apply (next_frame_test _ _ []); [auto|vm_compute; reflexivity|vm_compute; reflexivity]|].
  split; [apply intact_test; vm_compute; reflexivity|]. split; [vm_compute; discriminate|]. split; [vm_compute; discriminate|].
  vm_compute; reflexivity.
Qed.

(** C20.  Whatever a device transmits in answer to a broadcast packet carries address 0x7F (with
    the reply bit: 255) and the number of that packet's turn. *)
Theorem C20_broadcast : forall e p q o d,
  pd_reach p -> call_typed (Refresh e) -> pd_refresh e p = Ok (q, o) -> In (OTx d) o ->
  exists noise mk f rest F w k, arrived e p = noise ++ mk ++ f ++ rest /\ f_shape false f /\ f_intact f /\
    f_mine (address p) f /\ d = firstn k F /\ (0 < k <= length F)%nat /\ (F = w \/ F = 255 :: w) /\
    nth 1 w 0 = (if (f_addr f =? 127) || broadcast (fl p) then 255 else address p mod 128 + 128).
Proof.
  intros e p q o d R T H D. exact (broadcast_answer e p q o d (env_typed e T) (reach_inv p R) H D).
Qed.
Print Assumptions C20_broadcast.

Example C20_broadcast_example :
  outs_of (pd_refresh (ex_env 1000 [plain_frame 127 0 [97; 0]]) ex_pd)
  = [OTx (plain_frame 255 0 [69; 238; 255; 192; 2; 1; 120; 86; 52; 18; 1; 1; 1])].
Proof. vm_compute. reflexivity. Qed.

(** C21.  In one refresh a device transmits at most once, and only if a complete and intact command
    packet for it (or broadcast) is among the bytes it holds after reading the line. *)
Theorem C21_spoken_to : forall e p q o,
  pd_reach p -> call_typed (Refresh e) -> pd_refresh e p = Ok (q, o) ->
  (tx_count o <= 1)%nat /\
  (forall d, In (OTx d) o -> exists noise mk f rest, arrived e p = noise ++ mk ++ f ++ rest /\
     ~ In 83 noise /\ zlen mk <= 1 /\ f_shape false f /\ f_intact f /\ (f_addr f = address p \/ f_addr f = 127)).
Proof.
  intros e p q o R T H. exact (spoken_to e p q o (env_typed e T) (reach_inv p R) H).
Qed.
Print Assumptions C21_spoken_to.

(* two commands at once: the second one is answered in the next refresh *)
Example C21_example :
  let e := ex_env 1000 [plain_frame 101 0 [96] ++ plain_frame 101 1 [96]] in
  outs_of (pd_refresh e ex_pd) = [OTx (plain_frame 229 0 [64])] /\
  outs_of (pd_refresh (ex_env 1001 []) (state_of (pd_refresh e ex_pd))) = [OTx (plain_frame 229 1 [64])].
Proof. vm_compute. auto. Qed.

(** C22 (peripheral side).  Every transmission is the beginning of a packet that starts with an optional mark
    and the start byte, carries the device's address with the reply bit, the number of the command,
    a length field equal to its length and a valid CRC, and is not longer than the packet buffer
    nor than the receive size the other side announced. *)
Theorem C22_peripheral : forall e p q o d,
  pd_reach p -> call_typed (Refresh e) -> pd_refresh e p = Ok (q, o) -> In (OTx d) o ->
  exists F k f mk w, d = firstn k F /\ (0 < k <= length F)%nat /\ F = mk ++ w /\ (mk = [] \/ mk = [255]) /\
    bytes w /\ nth 0 w 0 = 83 /\ f_reply w = true /\ f_len w = zlen w /\ f_crc w = true /\ crc_valid w /\
    f_seq w = seq_after (seqn p) (f_seq f) /\
    nth 1 w 0 = (if (f_addr f =? 127) || broadcast (fl p) then 255 else address p mod 128 + 128) /\
    zlen F <= 256 /\ (peer_rx q <> 0 -> zlen F <= peer_rx q).
Proof.
  intros e p q o d R T H D. exact (packet_shape e p q o d (env_typed e T) (reach_inv p R) H D).
Qed.
Print Assumptions C22_peripheral.

Example C22_example :
  outs_of (pd_refresh (ex_env 1000 [255 :: plain_frame 101 0 [98; 0]]) ex_pd)
  = [OTx (255 :: plain_frame 229 0 [70; 2; 1; 2; 4; 1; 1; 5; 1; 1; 6; 1; 1; 8; 1; 0; 9; 1; 0; 10; 0; 1; 16; 2; 0])].
Proof. vm_compute. reflexivity. Qed.

(** C23 (part that holds).  Receiving any bytes in any portions leaves the packet buffer consistent and
    never writes outside it, except in one case: a packet with mark byte whose length field is
    exactly 256. *)
Theorem C23_receive_partial : forall e p,
  pd_reach p -> call_typed (Refresh e) ->
  (exists q k, check_packet e p = Ok (q, k) /\ length (pbuf q) = 256%nat /\ 0 <= pblen q <= 256) \/
  (check_packet e p = UB OobWrite /\
   exists noise f, arrived e p = noise ++ 255 :: f /\ nth 0 f 0 = 83 /\ f_reply f = false /\ f_len f = 256 /\ 256 <= zlen f).
Proof.
  intros e p R T. exact (receive_bounds e p (reach_inv p R) (proj1 T)).
Qed.
Print Assumptions C23_receive_partial.

Example C23_example :
  match check_packet (ex_env 1000 [repeat 83 64; repeat 83 64; [7; 83]]) ex_pd with
  | Ok (q, k) => (pblen q, k) = (5, KFmt) | _ => False end.
Proof. vm_compute. reflexivity. Qed.

(** C23 is false as stated: 257 bytes on the line (mark, start byte, own address, length 256)
    make the device write behind its packet buffer. *)
Theorem C23_mark_overflow_refuted : exists p e,
  pd_reach p /\ call_typed (Refresh e) /\ zlen (concat (e_rx e)) = 257 /\
  check_packet e p = UB OobWrite /\ pd_refresh e p = UB OobWrite.
Proof.
  exists ex_pd, (ex_env 1000 [[255; 83; 101; 0; 1; 4] ++ zeros 58; zeros 64; zeros 64; zeros 64; [0]]).
  split; [exact ex_pd_reach|]. split; [apply ex_env_typed; vm_compute; reflexivity|].
  split; [vm_compute; reflexivity|]. split; vm_compute; reflexivity.
Qed.
Print Assumptions C23_mark_overflow_refuted.

(** C45.  Outside a session: a known command with a wrong data length is answered NAK(2), an
    unknown code NAK(3); with ENFORCE_SECURE every code but ID, CAP, CHLNG and SCRYPT NAK(6); a secure
    channel command on a device without that capability NAK(5).  In no case is the application reached or a
    setting changed. *)
Theorem C45_malformed : forall e p f rest c d,
  pd_reach p -> call_typed (Refresh e) -> next_frame e p f rest -> f_intact f -> f_mine (address p) f ->
  seq_ok (seqn p) (f_seq f) -> f_scb f = false -> session_open e p = false \/ f_seq f = 0 ->
  f_payload f = c :: d ->
  forall k,
    (k = 2 /\ (enforce (fl p) = false \/ In c public_codes) /\ length_wrong c d) \/
    (k = 3 /\ (enforce (fl p) = false \/ In c public_codes) /\ ~ In c known_codes) \/
    (k = 5 /\ (enforce (fl p) = false \/ In c public_codes) /\ c_comp (nth 9 (caps p) (mkCap 0 0 0)) = 0 /\
       ((c = 118 /\ zlen d = 8) \/ (c = 119 /\ zlen d = 16) \/
        (c = 117 /\ zlen d = 18 /\ nth 0 d 0 = 1 /\ nth 1 d 0 = 16))) \/
    (k = 6 /\ enforce (fl p) = true /\ ~ In c public_codes /\ ~ unnamed c) ->
  (forall q o, pd_refresh e p = Ok (q, o) -> only_tx o /\ app_view q = app_view p /\ pending q = rest) /\
  (69 <= tx_buf_size p -> 256 <= e_tx e ->
   exists q o, pd_refresh e p = Ok (q, o) /\ answers o (answer_addr p f) (f_seq f) [65; k]).
Proof.
  intros e p f rest c d R T N V M S SB SO PY k C.
  pose proof (env_typed e T) as K. pose proof (reach_inv p R) as I.
  destruct C as [(-> & A & W)|[(-> & A & W)|[(-> & A & W & X)|(-> & A & W & X)]]].
  - exact (refused_length e p f rest c d K I N V M S SB SO PY A W).
  - exact (refused_unknown e p f rest c d K I N V M S SB SO PY A W).
  - exact (refused_nosc e p f rest c d K I N V M S SB SO PY A W X).
  - exact (refused_enforce e p f rest c d K I N V M S SB SO PY A W X).
Qed.
Print Assumptions C45_malformed.

Example C45_example :
  outs_of (pd_refresh (ex_env 1000 [plain_frame 101 0 [104; 0; 1; 0]]) ex_pd) = [OTx (plain_frame 229 0 [65; 2])] /\
  outs_of (pd_refresh (ex_env 1000 [plain_frame 101 0 [200; 0]]) ex_pd) = [OTx (plain_frame 229 0 [65; 3])] /\
  outs_of (pd_refresh (ex_env 1000 [plain_frame 101 0 [104; 0; 1; 0; 0]]) ex_pd_enf) = [OTx (plain_frame 229 0 [65; 6])] /\
  outs_of (run ex_pd [SetCaps [mkCap 9 0 0]; Refresh (ex_env 1000 [plain_frame 101 0 [118; 1; 2; 3; 4; 5; 6; 7; 8]])])
    = [OTx (plain_frame 229 0 [65; 5])].
Proof. vm_compute. auto. Qed.

(** C45.  A packet that is out of sequence is answered NAK(4). *)
Theorem C45_sequence : forall e p f rest,
  pd_reach p -> call_typed (Refresh e) -> next_frame e p f rest -> f_intact f -> f_mine (address p) f ->
  ~ seq_ok (seqn p) (f_seq f) -> session_open e p = false -> 69 <= tx_buf_size p -> 256 <= e_tx e ->
  exists q o, pd_refresh e p = Ok (q, o) /\ answers o (answer_addr p f) (seq_next (seqn p)) [65; 4] /\
    app_view q = app_view p.
Proof.
  intros e p f rest R T N V M S SO H1 H2.
  destruct (refused_sequence e p f rest (env_typed e T) (reach_inv p R) N V M S) as [A B].
  destruct (B SO H1 H2) as (q & o & X & Y). exists q, o. split; auto. split; auto. exact (proj1 (proj2 (A q o X))).
Qed.
Print Assumptions C45_sequence.

(** C45 is false for ENFORCE_SECURE devices as far as codes without a name in the library's table are concerned:
    such a code makes the device dereference a null pointer instead of answering. *)
Theorem C45_unnamed_refuted : exists p e,
  pd_reach p /\ call_typed (Refresh e) /\ e_rx e = [plain_frame 101 0 [99]] /\ pd_refresh e p = UB NullCall.
Proof.
  exists ex_pd_enf, (ex_env 1000 [plain_frame 101 0 [99]]).
  split; [exact ex_pd_enf_reach|]. split; [apply ex_env_typed; vm_compute; reflexivity|].
  split; [reflexivity|]. vm_compute. reflexivity.
Qed.
Print Assumptions C45_unnamed_refuted.
