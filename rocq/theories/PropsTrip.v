(** Property theorems C10, C11, C24: packets on their way from one side to the other. *)
From Verif Require Import Base ListLemmas Crc SpecCrc Aes Rb RbProofs Types Sc ScProofs Phy File Pd Cp CpCtx PdRun SpecRx SpecFrame SpecSec SpecSession
  SpecPd SpecCp SpecCpRun SpecLink RxProofs RxFwd PdRx PdCore PhyTx PdTx PdReply PdStep PdWire PdFwd CpTx CpRx CpStep CpInv CpFwd Chunk Trip
  ChunkRun LinkProofs LinkStep ExPd ExCp ExLink.
From Coq Require Import ZifyBool ZifyNat.
Local Opaque RB_SIZE aes_ecb_encrypt enc1 osdp_mac osdp_encrypt mac_of.

(** C24.  However the bytes of a packet are split over calls, and whatever noise without start byte
    goes before: nothing is found until the packet is complete; then the verdict is the same, the
    state is the same but for the receive buffers, and so is what decoding makes of the packet.
    Packets too short for the security block they announce are left out. *)
Theorem C24_same_partial : forall p f es1 e1 rest1 es2 e2 rest2,
  pd_reach p \/ (cp_reach p /\ phy_state p = PReplyWait) -> pending p = [] ->
  f_shape (negb (pd_mode (fl p))) f -> 7 <= zlen f <= 255 -> (f_scb f = true -> 8 <= zlen f) ->
  Forall chunk_ok (es1 ++ [e1]) -> delivers (stream (es1 ++ [e1])) f rest1 -> (length rest1 < length (heard (e_rx e1)))%nat ->
  Forall chunk_ok (es2 ++ [e2]) -> delivers (stream (es2 ++ [e2])) f rest2 -> (length rest2 < length (heard (e_rx e2)))%nat ->
  exists p1 p2 q1 q2 k, waited p es1 p1 /\ waited p es2 p2 /\
    check_packet e1 p1 = Ok (q1, k) /\ check_packet e2 p2 = Ok (q2, k) /\
    k <> KWait /\ k <> KNoData /\ buffers_only q1 q2 /\ same_result (decode_packet q1) (decode_packet q2).
Proof.
  intros p f es1 e1 r1 es2 e2 r2 R P Sh L Sc C1 D1 L1 C2 D2 L2.
  assert (W : rx_wf p /\ rx_sync p).
  { destruct R as [R | [R S]]; [|destruct (ci_rx _ (cp_reach_inv _ R) S) as (A & B & _); auto].
    destruct (reach_inv _ R) as [B F Y]. split; [split; [exact (iv_rxb _ B)|exact F]|exact Y]. }
  destruct W as [W Y].
  destruct (deliver es1 e1 p f r1 W Y P C1 Sh (proj2 L) D1 L1) as (a1 & q1 & W1 & _ & K1 & X1 & F1 & G1 & _ & _ & B).
  destruct (deliver es2 e2 p f r2 W Y P C2 Sh (proj2 L) D2 L2) as (a2 & q2 & W2 & _ & K2 & X2 & F2 & G2 & _ & _ & _).
  assert (S8 : f_scb f = false \/ 8 <= zlen f) by (destruct (f_scb f); auto).
  pose proof (same_frame p a1 a2 q1 q2 e1 e2 f X1 X2 G1 G2 F1 F2 B (proj1 L) S8) as (E1 & E2 & E3).
  destruct (check_bytes_verdict q1 f) as [V1 V2].
  destruct (check_packet_bytes q1 f) as [x1 k1], (check_packet_bytes q2 f) as [x2 k2]. cbn [fst snd] in *. subst k2.
  exists a1, a2, x1, x2, k1. exact (conj W1 (conj W2 (conj K1 (conj K2 (conj V1 (conj V2 (conj (core_buffers _ _ (eq_sym E2)) (like_same _ _ E3)))))))).
Qed.
Print Assumptions C24_same_partial.

(* a poll for device 101 at once, and with noise and the mark in four pieces *)
Example C24_example :
  let f := plain_frame 101 0 [96] in
  pending ex_pd = [] /\ f_shape false f /\ zlen f = 8 /\
  feed ex_pd [f] = Some [96] /\
  feed ex_pd [[7; 9; 255]; firstn 3 f; []; skipn 3 f ++ [1; 2]] = Some [96] /\
  delivers (stream (map (fun x => ex_env 2000 [x]) [[7; 9; 255]; firstn 3 f; []; skipn 3 f ++ [1; 2]])) f [1; 2].
Proof.
  cbv zeta. split; [vm_compute; reflexivity|]. split; [vm_compute; repeat split; discriminate|]. split; [vm_compute; reflexivity|].
  split; [vm_compute; reflexivity|]. split; [vm_compute; reflexivity|].
  exists [7; 9], [255]. split; [vm_compute; reflexivity|]. split; [|right; reflexivity]. intros [X|[X|[]]]; discriminate.
Qed.

(** C24.  A device that is refreshed while a packet comes in, less than 200 ms after its first byte
    (and in a session less than 8 s after the last command), shows nothing and changes nothing but
    its receive buffers until the packet is complete; then the packet is the next one it handles. *)
Theorem C24_pd : forall p f es e rest t0,
  pd_reach p -> pending p = [] -> f_shape false f -> zlen f <= 255 ->
  Forall chunk_ok (es ++ [e]) -> Forall env_ok es -> Forall (prompt t0 p) es ->
  delivers (stream (es ++ [e])) f rest -> (length rest < length (heard (e_rx e)))%nat ->
  exists q, idled p es q /\ buffers_only p q /\ next_frame e q f rest.
Proof.
  intros p f es e rest t0 R P Sh L C T In D Lt. pose proof (reach_inv _ R) as I.
  destruct (nothing_pending p (iv_rxb _ (iv_b _ I)) P) as [P0 Rb0].
  apply Forall_app in C as [C Ce]. apply Forall_inv in Ce. rewrite stream_snoc in D.
  destruct (pd_dozes es p t0 (heard (e_rx e)) f rest I Rb0 C T Sh L ltac:(lia) In (deliver_ahead p _ f rest P D) Lt) as (q & Id & Rc & Iq & Rq & Aq).
  exists q. split; [exact Id|]. split; [exact (core_buffers _ _ Rc)|]. split; [exact Sh|]. split; [exact L|].
  apply (ahead_last e q f rest); [exact (conj (iv_rxb _ (iv_b _ Iq)) (iv_fill _ Iq))|exact (iv_sync _ Iq)|exact Rq|exact Ce| |exact L|exact Aq].
  rewrite (iv_mode _ (iv_b _ Iq)). exact Sh.
Qed.
Print Assumptions C24_pd.

(** C24.  The same for a panel that waits for a reply, up to 200 ms after its command. *)
Theorem C24_cp : forall p f es e rest,
  cp_reach p -> phy_state p = PReplyWait -> pending p = [] -> f_shape true f -> zlen f <= 255 ->
  Forall chunk_ok (es ++ [e]) -> Forall env_typed es -> Forall (fun e => e_now e - phy_tstamp p <= 200) es ->
  delivers (stream (es ++ [e])) f rest -> (length rest < length (heard (e_rx e)))%nat ->
  exists q, waiting p es q /\ buffers_only p q /\ next_reply e q f rest.
Proof.
  intros p f es e rest R S P Sh L C T In D Lt. pose proof (cp_reach_inv _ R) as I.
  destruct (ci_rx _ I S) as (W & Y & _). destruct (nothing_pending p (proj1 W) P) as [P0 Rb0].
  apply Forall_app in C as [C Ce]. apply Forall_inv in Ce. rewrite stream_snoc in D.
  destruct (cp_waits es p (heard (e_rx e)) f rest I S Rb0 C T Sh L In (deliver_ahead p _ f rest P D) Lt) as (q & Id & Rc & Iq & Rq & Aq).
  exists q. split; [exact Id|]. split; [exact (core_buffers _ _ Rc)|]. split; [exact Sh|]. split; [exact L|].
  assert (Sq : phy_state q = PReplyWait) by (rewrite <- S; exact (f_equal (fun x => phy_state x) Rc)).
  destruct (ci_rx _ Iq Sq) as (Wq & Yq & _).
  apply (ahead_last e q f rest); [exact Wq|exact Yq|exact Rq|exact Ce| |exact L|exact Aq].
  rewrite (cv_mode _ (ci_b _ Iq)). exact Sh.
Qed.
Print Assumptions C24_cp.

(** C24, refuted for packets shorter than the security block they announce.  Six bytes with checksum and the
    security bit, behind the mark: when mark and packet come in one piece the device refuses them with a NAK;
    when the mark comes in a piece of its own the type of the block is read from another place behind the
    packet, where the last answer of the device (a key press of reader 17) left the byte 17, and the device
    stays silent. *)
Definition ex_short : list Z := [83; 101; 6; 0; 8; 58].
Definition ex_dkey : pd := Eval vm_compute in
  state_of (run_from (ex_info false (Some ex_key)) 4 [SetCallback true; Notify (EKey 17 2 [49; 50]); Refresh (ex_env 1000 [plain_frame 101 0 [96]])]).
Lemma ex_dkey_reach : pd_reach ex_dkey.
Proof.
  assert (E : ex_dkey = state_of (run_from (ex_info false (Some ex_key)) 4 [SetCallback true; Notify (EKey 17 2 [49; 50]); Refresh (ex_env 1000 [plain_frame 101 0 [96]])])) by (vm_compute; reflexivity).
  rewrite E. apply run_reach; [apply ex_info_typed; exact ex_key_ok| |vm_compute; reflexivity].
  apply Forall_cons; [exact Logic.I|]. apply Forall_cons; [split; [apply bytesb_ok; reflexivity|vm_compute; discriminate]|].
  apply Forall_cons; [apply ex_env_typed; vm_compute; reflexivity|apply Forall_nil].
Qed.
Theorem C24_split_refuted : exists p f e1 e2 e3 p1 p2 p3 w,
  pd_reach p /\ pending p = [] /\ f_shape false f /\ zlen f = 6 /\ f_scb f = true /\ e_now e1 = e_now e2 /\ e_now e2 = e_now e3 /\
  heard (e_rx e1) = 255 :: f /\ pd_do (Refresh e1) p = Ok (p1, [OTx w]) /\
  heard (e_rx e2) = [255] /\ pd_do (Refresh e2) p = Ok (p2, []) /\
  heard (e_rx e3) = f /\ pd_do (Refresh e3) p2 = Ok (p3, []) /\ pending p3 = [].
Proof.
  pose (d1 := pd_do (Refresh (ex_env 1100 [255 :: ex_short])) ex_dkey). pose (d2 := pd_do (Refresh (ex_env 1100 [[255]])) ex_dkey).
  pose (d3 := pd_do (Refresh (ex_env 1100 [ex_short])) (state_of d2)).
  exists ex_dkey, ex_short, (ex_env 1100 [255 :: ex_short]), (ex_env 1100 [[255]]), (ex_env 1100 [ex_short]), (state_of d1), (state_of d2), (state_of d3), [255; 83; 229; 9; 0; 4; 65; 6; 217; 200].
  split; [exact ex_dkey_reach|]. split; [vm_compute; reflexivity|]. split; [vm_compute; repeat split; discriminate|].
  do 10 (split; [vm_compute; reflexivity|]). vm_compute. reflexivity.
Qed.
Print Assumptions C24_split_refuted.

(** C10.  Command, no secure channel: what the panel frames and sends, with the mark or without it,
    after any noise without start byte, in any pieces and with anything behind it, is the payload the
    device gets, provided the device has nothing else to read and the sequence number is one it accepts. *)
Theorem C10_command : forall e c p n ty d,
  cp_reach c -> pd_reach p -> pending p = [] -> sc_active (fl c) = false -> sc_active (fl p) = false ->
  cmd_id c <> 118 -> cmd_id c <> 119 -> address c mod 128 = address p -> seq_ok (seqn p) (tx_num c) ->
  bytes d -> 1 <= zlen d -> zlen d + 8 <= n -> 69 <= n <= 256 -> n <= e_tx e ->
  exists c1 m f, transmit e c n ty d = Ok (c1, true, [OTx (m ++ f)]) /\ (m = [] \/ m = [255]) /\
  forall es h rest, Forall chunk_ok (es ++ [h]) -> delivers (stream (es ++ [h])) f rest -> (length rest < length (heard (e_rx h)))%nat ->
  exists p1, takes p es h d p1.
Proof.
  intros e c p n ty d Rc Rp P Ac Ap H1 H2 Ad Sq B L F N TX. pose proof (cp_reach_inv _ Rc) as Ic. pose proof (reach_inv _ Rp) as Ip.
  pose proof (cv_seq _ (ci_b _ Ic)) as Sc. pose proof (cv_mode _ (ci_b _ Ic)) as Mc. pose proof (iv_mode _ (iv_b _ Ip)) as Mp.
  assert (HS : tx_handshake c = false) by (unfold tx_handshake, in_sc_handshake; rewrite Mc; unfold CMD_CHLNG, CMD_SCRYPT, REPLY_CCRYPT, REPLY_RMAC_I; lia).
  destruct (transmit_plain e c n ty d Sc Ac HS B L N F TX) as (b & TR & _).
  destruct (tx_ids c Sc) as (_ & _ & NR & BA & _).
  assert (TA : tx_addr c = address c mod 128) by (unfold tx_addr; rewrite Mc; reflexivity).
  do 3 eexists. split; [exact TR|]. split; [apply mk_cases|]. intros es h rest C D Lt.
  assert (RR : rx_ready p) by (constructor; [exact (conj (iv_rxb _ (iv_b _ Ip)) (iv_fill _ Ip))|exact (iv_sync _ Ip)|exact P|exact (iv_skip _ (iv_b _ Ip))|exact (iv_seq _ (iv_b _ Ip))]).
  pose proof (Z.mod_pos_bound (address c) 128 ltac:(lia)) as MB.
  destruct (take_plain p es h (tx_addr c) (tx_num c) d rest RR C Ap BA) as (q & TK & _).
  - rewrite Mp, TA. symmetry. apply Z.leb_gt. lia.
  - left. rewrite TA, Z.mod_mod by lia. exact Ad.
  - exact NR.
  - exact B.
  - lia.
  - unfold accepts. rewrite Mp. exact Sq.
  - exact D.
  - exact Lt.
  - exists q. exact TK.
Qed.
Print Assumptions C10_command.

(** C10.  Reply: the same from the device to the panel that waits for it.  A BUSY reply with number 0
    is no payload. *)
Theorem C10_reply : forall e c p n ty d,
  cp_reach c -> phy_state c = PReplyWait -> pd_reach p -> pending c = [] -> sc_active (fl c) = false -> sc_active (fl p) = false ->
  reply_id p <> 118 -> reply_id p <> 120 -> address p mod 128 = address c -> seqn p mod 4 = seqn c mod 4 ->
  (seqn c mod 4 = 0 -> d <> [121]) ->
  bytes d -> 1 <= zlen d -> zlen d + 8 <= n -> 69 <= n <= 256 -> n <= e_tx e ->
  exists p1 m f, transmit e p n ty d = Ok (p1, true, [OTx (m ++ f)]) /\ (m = [] \/ m = [255]) /\
  forall es h rest, Forall chunk_ok (es ++ [h]) -> delivers (stream (es ++ [h])) f rest -> (length rest < length (heard (e_rx h)))%nat ->
  exists c1, takes c es h d c1.
Proof.
  intros e c p n ty d Rc Ph Rp P Ac Ap H1 H2 Ad Sq Bz B L F N TX. pose proof (cp_reach_inv _ Rc) as Ic. pose proof (reach_inv _ Rp) as Ip.
  pose proof (cv_seq _ (ci_b _ Ic)) as Sc. pose proof (iv_seq _ (iv_b _ Ip)) as Sp. pose proof (cv_mode _ (ci_b _ Ic)) as Mc. pose proof (iv_mode _ (iv_b _ Ip)) as Mp.
  assert (HS : tx_handshake p = false) by (unfold tx_handshake, in_sc_handshake; rewrite Mp; unfold CMD_CHLNG, CMD_SCRYPT, REPLY_CCRYPT, REPLY_RMAC_I; lia).
  destruct (transmit_plain e p n ty d Sp Ap HS B L N F TX) as (b & TR & _).
  destruct (tx_ids p Sp) as (_ & _ & NR & BA & _).
  assert (TA : tx_addr p = (if broadcast (fl p) then 127 else address p mod 128) + 128) by (unfold tx_addr; rewrite Mp; reflexivity).
  assert (TN : tx_num p = seqn p mod 4) by (unfold tx_num; rewrite Mp; reflexivity).
  do 3 eexists. split; [exact TR|]. split; [apply mk_cases|]. intros es h rest C D Lt.
  destruct (ci_rx _ Ic Ph) as (W & Y & _).
  assert (RR : rx_ready c) by (constructor; [exact W|exact Y|exact P|exact (cv_skip _ (ci_b _ Ic))|exact Sc]).
  pose proof (Z.mod_pos_bound (address p) 128 ltac:(lia)) as MB.
  destruct (take_plain c es h (tx_addr p) (tx_num p) d rest RR C Ac BA) as (q & TK & _).
  - rewrite Mc, TA. symmetry. apply Z.leb_le. destruct (broadcast (fl p)); lia.
  - rewrite TA. destruct (broadcast (fl p)); [right; reflexivity|left]. replace (address p mod 128 + 128) with (address p mod 128 + 1 * 128) by lia. rewrite Z.mod_add, Z.mod_mod by lia. exact Ad.
  - exact NR.
  - exact B.
  - lia.
  - unfold accepts. rewrite Mc. split; [lia|]. intros Z0. apply andb_false_iff. rewrite TN, Sq in Z0.
    destruct d as [|x [|y t]]; [right; reflexivity| |left; rewrite !zlen_cons; pose proof (zlen_nonneg t); lia].
    right. cbn [nth]. apply Z.eqb_neq. intros ->. exact (Bz Z0 eq_refl).
  - exact D.
  - exact Lt.
  - exists q. exact TK.
Qed.
Print Assumptions C10_reply.

(* panel and device that never met: the first command, and the answer to it *)
Definition ex_c1 : pd := state_of (crun_from (ex_cinfo false false false false None) 4 [Update (ex_env 1000 []); Update (ex_env 1000 [])]).
Definition ex_p1 : pd := state_of (run_from (ex_info false None) 4 [SetCallback true; Refresh (ex_env 1000 [plain_frame 101 0 [97; 0]])]).
Lemma ex_c1_reach : cp_reach ex_c1. Proof. ex_crun. Qed.
Example C10_example :
  pending ex_pd = [] /\ sc_active (fl ex_pd) = false /\ address (ex_cp false false) mod 128 = address ex_pd /\ seq_ok (seqn ex_p1) (tx_num ex_c1) /\
  (let w := sent_by (transmit (ex_env 0 []) ex_c1 256 0 [106; 0; 1; 2; 3; 4]) in
   w = 255 :: plain_frame 101 1 [106; 0; 1; 2; 3; 4] /\ feed ex_p1 [[1; 2; 3] ++ firstn 6 w; skipn 6 w] = Some [106; 0; 1; 2; 3; 4]) /\
  phy_state ex_c1 = PReplyWait /\ pending ex_c1 = [] /\ seqn ex_p1 mod 4 = seqn ex_c1 mod 4 /\
  (let w := sent_by (transmit (ex_env 0 []) ex_p1 256 0 [64]) in w <> [] /\ feed ex_c1 [[1; 2; 3] ++ firstn 6 w; skipn 6 w] = Some [64]).
Proof. vm_compute. repeat split; auto; discriminate. Qed.

(** C11.  While keys, chaining value and sequence number agree, whatever command the panel sends,
    authenticated only or encrypted, the device gets exactly that payload, and they agree again,
    both on the chaining value for the next command and on that for the reply. *)
Theorem C11_command : forall c p e n ty code data,
  in_step c p -> quiet c -> quiet p -> payload_ok n ty code data -> n <= e_tx e ->
  exists c1 m f, transmit e c n ty (code :: data) = Ok (c1, true, [OTx (m ++ f)]) /\ (m = [] \/ m = [255]) /\
  forall es h rest, Forall chunk_ok (es ++ [h]) -> delivers (stream (es ++ [h])) f rest -> (length rest < length (heard (e_rx h)))%nat ->
  exists p1, takes p es h (code :: data) p1 /\ in_step_reply c1 p1.
Proof.
  intros c p e n ty code data I Qc Qp PO TX. destruct (step_cmd c p e n ty code data I Qc Qp PO TX) as (c1 & m & f & TR & M & _ & _ & G).
  exists c1, m, f. split; [exact TR|]. split; [exact M|]. intros es h rest C D Lt. destruct (G es h rest C D Lt) as (p1 & TK & I1 & _). exists p1. auto.
Qed.
Print Assumptions C11_command.

(** C11.  And back. *)
Theorem C11_reply : forall c p e n ty code data,
  in_step_reply c p -> quiet c -> length (pbuf p) = 256%nat /\ bytes (pbuf p) -> 1 <= seqn p -> payload_ok n ty code data -> n <= e_tx e ->
  exists p1 m f, transmit e p n ty (code :: data) = Ok (p1, true, [OTx (m ++ f)]) /\ (m = [] \/ m = [255]) /\
  forall es h rest, Forall chunk_ok (es ++ [h]) -> delivers (stream (es ++ [h])) f rest -> (length rest < length (heard (e_rx h)))%nat ->
  exists c1, takes c es h (code :: data) c1 /\ in_step_reply c1 p1.
Proof.
  intros c p e n ty code data I Qc Qp S PO TX. destruct (step_rep c p e n ty code data I Qc Qp S PO TX) as (p1 & m & f & TR & M & _ & _ & G).
  exists p1, m, f. split; [exact TR|]. split; [exact M|]. intros es h rest C D Lt. destruct (G es h rest C D Lt) as (c1 & TK & I1 & _). exists c1. auto.
Qed.
Print Assumptions C11_reply.

(** C11.  After any number of exchanges the two ends agree, so the next command goes through as well. *)
Theorem C11_session : forall c p c' p',
  in_step c p -> quiet c -> quiet p -> exchanges c p c' p' ->
  in_step c' p' /\ quiet c' /\ quiet p' /\
  forall e n ty code data, payload_ok n ty code data -> n <= e_tx e ->
  exists c1 w, transmit e c' n ty (code :: data) = Ok (c1, true, [OTx w]) /\
  forall es h, Forall chunk_ok (es ++ [h]) -> delivers (stream (es ++ [h])) w [] -> heard (e_rx h) <> [] ->
  exists p1, takes p' es h (code :: data) p1 /\ in_step_reply c1 p1.
Proof.
  intros c p c' p' I Qc Qp X. destruct (exchanges_step c p c' p' X I Qc Qp) as (I' & Qc' & Qp').
  split; [exact I'|]. split; [exact Qc'|]. split; [exact Qp'|]. intros e n ty code data PO TX.
  destruct (C11_command c' p' e n ty code data I' Qc' Qp' PO TX) as (c1 & m & f & TR & M & G). exists c1, (m ++ f). split; [exact TR|].
  intros es h C D H. apply (G es h [] C (delivers_marked _ _ _ _ M D)). destruct (heard (e_rx h)); [contradiction|cbn [length]; lia].
Qed.
Print Assumptions C11_session.

(* panel and device after a handshake and a poll: in step; then a text encrypted and a status in clear *)
Example C11_example :
  in_step ex_lc ex_lp /\ quiet ex_lc /\ quiet ex_lp /\
  payload_ok 256 23 107 [0; 1; 0; 1; 1; 2; 72; 105] /\
  (let w := sent_by (transmit (ex_env 0 []) ex_lc 256 23 [107; 0; 1; 0; 1; 1; 2; 72; 105]) in
   feed ex_lp [firstn 9 w; skipn 9 w] = Some [107; 0; 1; 0; 1; 1; 2; 72; 105]).
Proof.
  split. { constructor; [constructor|..]; try (vm_compute; repeat split; first [reflexivity|discriminate]).
    repeat (constructor; [split; [reflexivity|apply bytesb_ok; vm_compute; reflexivity]|]). constructor. }
  split. { repeat (split; [vm_compute; first [reflexivity|repeat split; lia]|]). apply bytesb_ok. vm_compute. reflexivity. }
  split. { repeat (split; [vm_compute; first [reflexivity|repeat split; lia]|]). apply bytesb_ok. vm_compute. reflexivity. }
  split. { split; [lia|]. split; [unfold byte; lia|]. split; [apply bytesb_ok; reflexivity|]. split; [lia|]. vm_compute. discriminate. }
  vm_compute. reflexivity.
Qed.
