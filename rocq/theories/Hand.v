(** The handshake of a secure channel, from both ends. *)
From Verif Require Import Base ListLemmas Crc SpecCrc CrcProofs CrcBurst Aes AesProofs Rb RbProofs
  Types Sc ScProofs Phy PhyCheck File Pd Cp PdRun SpecRx SpecFrame SpecSec SpecSession SpecPd SpecLink RxProofs RxFwd PdRx PdCore PhyTx PdTx PdReply
  PdStep PdWire PdFwd PdSec PdHist2 MacProofs WireSec CpCtx SpecCp SpecCpRun CpTx CpRx CpStep CpInv CpEdge CpFacts CpSum CpFwd Chunk Trip ChunkRun LinkProofs LinkStep CpSend.
From Coq Require Import ZifyBool ZifyNat.
Ltac Zify.zify_post_hook ::= Z.div_mod_to_equations.
Local Opaque aes_ecb_encrypt aes_cbc_encrypt aes_cbc_decrypt mac_of RB_SIZE osdp_mac enc1 osdp_encrypt encrypt_data.

(* --- a handshake frame is received --- *)

(* what the security block of a handshake command does to the receiver *)
Definition noted (ty b : Z) (p : pd) : pd :=
  if ((ty =? 17) || (ty =? 19)) && install (fl p) && (b =? 0) then set_use_scbkd true p else p.

Lemma hs_shape ty b pay : zlen ([3; ty; b] ++ pay) = zlen pay + 3.
Proof. rewrite zlen_app. change (zlen [3; ty; b]) with 3. lia. Qed.

Lemma noted_core ty b p q : rxcore q = rxcore p -> rxcore (noted ty b q) = rxcore (noted ty b p).
Proof.
  intros R. unfold noted. assert (I : install (fl q) = install (fl p)) by exact (f_equal (fun x => install (fl x)) R). rewrite I.
  destruct (_ && _ && _); [|exact R]. change (rxcore (set_use_scbkd true q)) with (set_use_scbkd true (rxcore q)). rewrite R. reflexivity.
Qed.

Lemma noted_rx ty b p : rb (noted ty b p) = rb p /\ pbuf (noted ty b p) = pbuf p.
Proof. unfold noted. destruct (_ && _ && _); split; reflexivity. Qed.

Lemma take_hs p es e a s ty b pay rest : rx_ready p -> Forall chunk_ok (es ++ [e]) ->
  (pd_mode (fl p) = true -> sc_is_capable p = true) -> 17 <= ty <= 20 -> byte b ->
  byte a -> negb (pd_mode (fl p)) = (128 <=? a) -> a mod 128 = address p \/ a mod 128 = 127 ->
  0 <= s <= 3 -> bytes pay -> 1 <= zlen pay <= 245 -> accepts p s false ->
  let f := handshake_frame a s ty b pay in
  delivers (stream (es ++ [e])) f rest -> (length rest < length (heard (e_rx e)))%nat ->
  exists q, takes p es e pay q /\ rxcore q = rxcore (noted ty b (seen f p)) /\ rb_contents (rb q) = rest /\ rx_base q /\ f_seq f = s /\ f_addr f = a mod 128.
Proof.
  intros R C Cap Ht Bb Ba Dir Ad S B L Ac. cbv zeta. intros D Lt.
  assert (FE : handshake_frame a s ty b pay = with_crc (header a (zlen ([3; ty; b] ++ pay) + 7) (12 + s) ++ [3; ty; b] ++ pay)).
  { unfold handshake_frame. rewrite hs_shape. replace (zlen pay + 3 + 7) with (zlen pay + 10) by lia. reflexivity. }
  set (t := [3; ty; b] ++ pay) in *. pose proof (hs_shape ty b pay : zlen t = zlen pay + 3) as LT.
  assert (Bt : bytes t). { unfold t. apply bytes_app. split; [bytes_cons; unfold byte in *; lia|exact B]. }
  destruct (crc_frame a (12 + s) t Ba ltac:(unfold byte; lia) Bt ltac:(lia) ltac:(lia)) as (Sh & V & N1 & N4 & Bf & Zf & Nd & Sb).
  rewrite <- FE in *. set (f := handshake_frame a s ty b pay) in *. rewrite <- Dir in Sh.
  destruct (ctl_sec s S) as [Cs Cc].
  assert (FS : f_seq f = s) by (unfold f_seq; rewrite N4; lia).
  destruct (take_any p es e f rest R C Sh ltac:(lia) ltac:(rewrite (f_crc_of f _ N4); exact Cc) V ltac:(unfold f_mine, f_addr; rewrite N1; exact Ad)) as (q & q1 & Wt & CP & R1 & B1 & F1 & E1 & Rb & S1); [|exact D|exact Lt|].
  { rewrite FS. replace (zlen f =? 8) with false by lia. exact Ac. }
  destruct (seen_rx f q1) as (X1 & X2 & X3 & X4 & X5).
  set (z := seen f q1) in *.
  assert (LB : length (pbuf z) = 256%nat) by (rewrite X1; exact (proj1 (proj2 (proj2 B1)))).
  assert (FU : full z) by exact (seen_full f q1 F1).
  rewrite <- X3 in E1. destruct (frame_from z LB FU) as (Z1 & Z2 & Z3). rewrite E1 in Z1, Z2, Z3.
  assert (PM : pd_mode (fl z) = pd_mode (fl p)) by (rewrite X4; exact (f_equal (fun x => pd_mode (fl x)) R1)).
  assert (CZ : sc_is_capable z = sc_is_capable p) by (rewrite X5; exact (f_equal (fun x => sc_is_capable x) R1)).
  assert (G : forall i, (i < length f)%nat -> nth i (from (pbuf z) (mark_len z)) 0 = nth i f 0) by exact Z2.
  assert (LF : (length f = 10 + length pay)%nat) by (unfold zlen in *; lia).
  assert (G4 : getb (from (pbuf z) (mark_len z)) 4 = 12 + s) by (unfold getb; rewrite G by (clear - LF L; lia); exact N4).
  assert (G5 : getb (from (pbuf z) (mark_len z)) 5 = 3) by (unfold getb; rewrite G by (clear - LF L; lia); apply (Nd 0%nat); unfold t; rewrite app_length; cbn [length]; lia).
  assert (G6 : getb (from (pbuf z) (mark_len z)) 6 = ty) by (unfold getb; rewrite G by (clear - LF L; lia); apply (Nd 1%nat); unfold t; rewrite app_length; cbn [length]; lia).
  assert (G7 : getb (from (pbuf z) (mark_len z)) 7 = b) by (unfold getb; rewrite G by (clear - LF L; lia); apply (Nd 2%nat); unfold t; rewrite app_length; cbn [length]; lia).
  assert (G8 : sub (from (pbuf z) (mark_len z)) 8 (zlen pay) = pay).
  { rewrite Z3 by lia. rewrite FE. unfold with_crc, header, t. rewrite <- !app_assoc. cbn [app].
    match goal with |- sub (?x0 :: ?x1 :: ?x2 :: ?x3 :: ?x4 :: 3 :: ty :: b :: pay ++ ?y) 8 _ = _ =>
      change (sub ([x0; x1; x2; x3; x4; 3; ty; b] ++ pay ++ y) (zlen [x0; x1; x2; x3; x4; 3; ty; b]) (zlen pay) = pay) end.
    apply sub_mid. }
  assert (DP : decode_packet z = Ok (noted ty b z, DData pay)).
  { unfold decode_packet. rewrite G4, G5, G6, G7, Cs, Cc.
    replace (pd_mode (fl z) && negb (sc_is_capable z)) with false by (rewrite PM, CZ; destruct (pd_mode (fl p)); [rewrite Cap by auto|]; reflexivity).
    unfold SCS_11, SCS_13, SCS_14, SCS_15, SCS_18 in *.
    replace ((ty <? 17) || (ty >? 24)) with false by (clear - Ht; lia).
    replace (ty >? 20) with false by (clear - Ht; lia). rewrite andb_false_r.
    replace (21 <=? ty) with false by (clear - Ht; lia). rewrite andb_false_r. fold (noted ty b z).
    destruct FU as (F0 & _). rewrite F0. replace (plen z - mark_len z - 2 - 5 - 3) with (zlen pay) by lia. change (5 + 3) with 8.
    unfold ret_data. replace (zlen pay <=? 0) with false by lia. rewrite G8. reflexivity. }
  exists (noted ty b z). destruct (noted_rx ty b z) as [Y1 Y2]. split. { exists q, z. split; [exact Wt|]. split; [exact CP|exact DP]. }
  split; [apply noted_core; exact (seen_core f p q1 R1)|]. split; [rewrite Y1, X2; exact Rb|].
  split; [unfold rx_base; rewrite Y1, Y2; exact (seen_base f q1 B1)|]. split; [exact FS|]. unfold f_addr. rewrite N1. reflexivity.
Qed.

(* --- a handshake frame is sent --- *)

Lemma hs_wire p a s ty b d : ty < 21 -> zlen d <= 200 ->
  wire_of p ([83; a; 0; 0; 12 + s; 3; ty; b] ++ d) = handshake_frame a s ty b d.
Proof.
  intros T L. unfold wire_of.
  assert (M : macced p ([83; a; 0; 0; 12 + s; 3; ty; b] ++ d) = false).
  { unfold macced. change (getb ([83; a; 0; 0; 12 + s; 3; ty; b] ++ d) 6) with ty. replace (21 <=? ty) with false by lia. apply andb_false_r. }
  rewrite M. unfold handshake_frame. f_equal.
  assert (Z : zlen ([83; a; 0; 0; 12 + s; 3; ty; b] ++ d) + 2 = zlen d + 10).
  { rewrite zlen_app. change (zlen [83; a; 0; 0; 12 + s; 3; ty; b]) with 8. lia. }
  rewrite Z. destruct (bytes0 (zlen d + 10)) as [E1 E2]. { pose proof (zlen_nonneg d). lia. }
  unfold put_len. rewrite E1, E2. reflexivity.
Qed.

Lemma cp_hs_body c ty b d : pd_mode (fl c) = false -> -1 <= seqn c <= 3 -> sc_active (fl c) = false -> in_sc_handshake false (cmd_id c) = true ->
  cmd_body c d (Some (ty, b)) = [83; tx_addr c; 0; 0; 12 + tx_num c; 3; ty; b] ++ d.
Proof.
  intros M S A H. unfold cmd_body. rewrite A, H. destruct (tx_ids c S) as (E1 & E2 & E3 & E4 & E5). unfold tx_ctl in E5. rewrite M in E1, E5. rewrite E1, E5. reflexivity.
Qed.

Lemma pd_hs_body p ty b d : pd_mode (fl p) = true -> -1 <= seqn p <= 3 -> sc_active (fl p) = false -> in_sc_handshake true (reply_id p) = true ->
  reply_body p (Some d) (Some (ty, b)) = [83; tx_addr p; 0; 0; 12 + tx_num p; 3; ty; b] ++ d.
Proof.
  intros M S A H. unfold reply_body. cbv zeta. rewrite A, H. destruct (tx_ids p S) as (E1 & E2 & E3 & E4 & E5). unfold tx_ctl in E5. rewrite M in E1, E5. rewrite E1, E5. reflexivity.
Qed.

Lemma hs_len a s ty b d : zlen (handshake_frame a s ty b d) = zlen d + 10.
Proof. unfold handshake_frame. rewrite zlen_with_crc, !zlen_app. change (zlen (header a (zlen d + 10) (12 + s))) with 5. change (zlen [3; ty; b]) with 3. lia. Qed.

(* the reply phase of the device with a handshake reply *)
Lemma reply_hs e p p2 d ty b : pd_mode (fl p) = true -> pd_typed p -> bytes (e_rand e) -> 69 <= tx_buf_size p <= 256 -> 256 <= e_tx e ->
  -1 <= seqn p <= 3 -> sc_active (fl p) = false -> in_sc_handshake true (reply_id p) = true -> cmd_id p <> 117 -> ty < 21 -> zlen d <= 58 ->
  build_switch e (after_init p) true (reply_room p) = Ok (p2, Some d, Some (ty, b), []) ->
  cmd_id p2 = cmd_id p ->
  exists q, reply_phase e p = Ok (state_reset false q, [OTx (mk_of p ++ handshake_frame (tx_addr p) (tx_num p) ty b d)]) /\
    txcore q = txcore p2 /\ sc q = sc p2 /\ pd_typed q.
Proof.
  intros M T R N TX S A H CK Ty L BS CI.
  assert (SM : reply_smb p = true) by (apply reply_smb_hs; exact H).
  destruct (send_reply_total e p _ M T R N ltac:(rewrite SM; exact BS)) as [[[q ok] o] X].
  destruct (send_reply_spec e p q ok o M T R ltac:(lia) X) as [(A1 & _) | (_ & p2' & pay & ss & m & smb & ob & ot & BS' & _ & (-> & ->) & _ & _ & TC & Tq & -> & Y)]; [lia|].
  rewrite SM, BS in BS'. injection BS' as <- <- <- <-. cbv zeta in Y.
  rewrite (pd_hs_body p ty b d M S A H) in Y. rewrite hs_wire in Y by lia.
  assert (MC : macced p2 ([83; tx_addr p; 0; 0; 12 + tx_num p; 3; ty; b] ++ d) = false).
  { unfold macced. change (getb ([83; tx_addr p; 0; 0; 12 + tx_num p; 3; ty; b] ++ d) 6) with ty. replace (21 <=? ty) with false by lia. apply andb_false_r. }
  rewrite MC in Y. set (f := mk_of p ++ _) in *.
  assert (LF : zlen f <= 69) by (unfold f; rewrite zlen_app, hs_len; pose proof (mk_of_len p); unfold zlen in *; lia).
  destruct Y as [(_ & _ & Y) | (_ & SE & SQ)]; [lia|].
  destruct SE as [(_ & _ & Y) | [(k & _ & _ & _ & Y) | (-> & ->)]]; [lia|lia|].
  exists q. unfold reply_phase. rewrite X, bind_Ok. cbn [app].
  assert (CQ : cmd_id q = cmd_id p) by (rewrite <- CI; exact (f_equal (fun x => cmd_id x) TC)). rewrite CQ. replace (cmd_id p =? CMD_KEYSET) with false by (unfold CMD_KEYSET; lia).
  cbn [andb]. split; [reflexivity|]. split; [exact TC|]. split; [exact SQ|exact Tq].
Qed.

(* --- a refresh that gets a payload --- *)

Lemma pd_hears e p d q : takes (sc_timeout e p) [] e d q -> pd_refresh e p = bind (decode_command e q d) (pd_finish e).
Proof.
  intros (p1 & p2 & W & C & D). inversion W; subst. rewrite refresh_eq, rap_eq, C, bind_Ok. cbn [rap_k]. rewrite D, bind_Ok. reflexivity.
Qed.

Lemma cp_hears e p d q : takes p [] e d q -> process_reply e p = decode_response e q d.
Proof.
  intros (p1 & p2 & W & C & D). inversion W; subst. unfold process_reply. rewrite C, bind_Ok. cbn [bind]. rewrite D. reflexivity.
Qed.

(* --- a handshake command at the device --- *)

(* what a handshake leaves alone at the device and at the panel *)
Definition dkeep (p : pd) := (enforce (fl p), has_cb p, evq p, pid p, scbk (sc p)).
Definition ckeep (p : pd) := (enforce (fl p), sc_disabled (fl p), sc_capable (fl p), cmdq p, file p, idx p, caps p, pid p, peer_rx p, has_scbk (fl p), scbk (sc p), use_scbkd (fl p)).

Lemma hs_device e p s ty b pay : pd_inv p -> chunk_ok e -> quiet p -> sc_is_capable p = true -> 0 <= address p < 127 -> 0 <= s <= 3 -> seq_ok (seqn p) s ->
  ty = 17 \/ ty = 19 -> byte b -> bytes pay -> 1 <= zlen pay <= 200 -> delivers (heard (e_rx e)) (handshake_frame (address p) s ty b pay) [] ->
  exists x, pd_refresh e p = bind (decode_command e x pay) (pd_finish e) /\ pd_typed x /\ rb_wf (rb x) /\ rb_contents (rb x) = [] /\
    sc x = sc p /\ seqn x = s /\ address x = address p /\ caps x = caps p /\ peer_rx x = peer_rx p /\ pd_mode (fl x) = true /\ skip_seq (fl x) = false /\
    install (fl x) = install (fl p) /\ sc_capable (fl x) = sc_capable (fl p) /\ sc_disabled (fl x) = sc_disabled (fl p) /\ 
    use_scbkd (fl x) = use_scbkd (fl p) || (install (fl p) && (b =? 0)) /\ (sc_active (fl p) = false -> sc_active (fl x) = false) /\ dkeep x = dkeep p.
Proof.
  intros I CK Q Cap Ad S Sq Ty Bb Bp L D. set (p0 := sc_timeout e p).
  assert (Q0 : quiet p0) by (unfold p0, sc_timeout; destruct (_ && _); exact Q).
  assert (C0 : sc_is_capable p0 = sc_is_capable p /\ address p0 = address p /\ seqn p0 = seqn p /\ sc p0 = sc p /\ caps p0 = caps p /\ peer_rx p0 = peer_rx p /\
    pd_mode (fl p0) = pd_mode (fl p) /\ skip_seq (fl p0) = skip_seq (fl p) /\ install (fl p0) = install (fl p) /\ sc_capable (fl p0) = sc_capable (fl p) /\ sc_disabled (fl p0) = sc_disabled (fl p) /\
    use_scbkd (fl p0) = use_scbkd (fl p) /\ (sc_active (fl p) = false -> sc_active (fl p0) = false) /\ reply_id p0 = reply_id p /\ eph p0 = eph p /\ dkeep p0 = dkeep p).
  { unfold p0, sc_timeout. destruct (_ && _); repeat (split; [first [reflexivity|auto]|]); reflexivity. }
  destruct C0 as (c1 & c2 & c3 & c4 & c5 & c6 & c7 & c8 & c9 & c10 & c11 & c12 & c13 & c14 & c15 & c16).
  destruct I as [BI _ _]. pose proof (iv_mode p BI) as PM. pose proof (iv_skip p BI) as SK. pose proof (iv_seq p BI) as SQ. pose proof (iv_ty p BI) as TY.
  assert (R0 : rx_ready p0) by (apply quiet_ready; [exact Q0|congruence|lia]).
  assert (Bd : (length (@nil Z) < length (heard (e_rx e)))%nat).
  { destruct D as (nz & mk & E & _). rewrite E, !app_length. assert (0 < zlen (handshake_frame (address p) s ty b pay)) by (rewrite hs_len; lia). unfold zlen in *. cbn [length]. lia. }
  destruct (take_hs p0 [] e (address p) s ty b pay [] R0 ltac:(constructor; [exact CK|constructor]) ltac:(intros _; congruence) ltac:(lia) Bb ltac:(unfold byte; lia)
    ltac:(rewrite c7, PM; cbn [negb]; lia) ltac:(left; rewrite c2; lia) S Bp ltac:(lia) ltac:(unfold accepts; rewrite c7, PM, c3; exact Sq)) as (x & TK & RX & RB & RBS & FS & FA); [unfold stream; cbn [app map concat]; rewrite app_nil_r; exact D|exact Bd|].
  set (f := handshake_frame (address p) s ty b pay) in *.
  assert (FA' : (f_addr f =? 127) = false) by (rewrite FA; lia).
  set (y := noted ty b (seen f p0)) in *.
  assert (P : reply_id y = reply_id p /\ eph y = eph p /\ sc y = sc p /\ seqn y = s /\ address y = address p /\ caps y = caps p /\ peer_rx y = peer_rx p /\ pd_mode (fl y) = true /\ skip_seq (fl y) = false /\
    install (fl y) = install (fl p) /\ sc_capable (fl y) = sc_capable (fl p) /\ sc_disabled (fl y) = sc_disabled (fl p) /\
    use_scbkd (fl y) = use_scbkd (fl p) || (install (fl p) && (b =? 0)) /\ (sc_active (fl p) = false -> sc_active (fl y) = false) /\ dkeep y = dkeep p).
  { assert (SA : seq_after (seqn p0) s = s) by (rewrite c3; unfold seq_after; destruct Sq as [-> | [-> | ->]]; [reflexivity| |]; dif; try lia; dif; lia).
    assert (TT : ((ty =? 17) || (ty =? 19)) = true) by (destruct Ty as [-> | ->]; reflexivity).
    unfold y, noted, seen. rewrite TT. cbn [andb]. rewrite c7, PM. unfold pd_seen. rewrite FS, FA', SA. clearbody p0.
    destruct (s =? 0); simpl; rewrite c9; destruct (install (fl p)), (b =? 0); simpl; rewrite ?orb_true_r, ?orb_false_r; repeat match goal with |- _ /\ _ => split; [assumption || reflexivity || congruence || auto|] end; exact c16.
  }
  destruct P as (p1 & p2 & p3 & p4 & p5 & p6 & p7 & p8 & p9 & p10 & p11 & p12 & p13 & p14 & p15). clearbody y.
  destruct TY as (t1 & t2 & t3 & t4 & _).
  exists x. split; [exact (pd_hears e p pay x TK)|].
  split. { apply mk_typed.
    - assert (E : reply_id x = reply_id y) by exact (f_equal (fun z => reply_id z) RX). rewrite E, p1. exact t1.
    - assert (E : eph x = eph y) by exact (f_equal (fun z => eph z) RX). rewrite E, p2. exact t2.
    - assert (E : caps x = caps y) by exact (f_equal (fun z => caps z) RX). rewrite E, p6. exact t3.
    - assert (E : sc x = sc y) by exact (f_equal (fun z => sc z) RX). rewrite E, p3. exact t4.
    - apply RBS.
    - apply RBS. }
  split; [apply RBS|]. split; [exact RB|].
  rewrite <- p3, <- p5, <- p6, <- p7, <- p10, <- p11, <- p12. rewrite <- p10 in p13. rewrite <- p13. rewrite <- p4 at 1.
  split; [exact (f_equal (fun z => sc z) RX)|]. split; [exact (f_equal (fun z => seqn z) RX)|]. split; [exact (f_equal (fun z => address z) RX)|].
  split; [exact (f_equal (fun z => caps z) RX)|]. split; [exact (f_equal (fun z => peer_rx z) RX)|].
  split; [rewrite <- p8; exact (f_equal (fun z => pd_mode (fl z)) RX)|]. split; [rewrite <- p9; exact (f_equal (fun z => skip_seq (fl z)) RX)|].
  split; [exact (f_equal (fun z => install (fl z)) RX)|]. split; [exact (f_equal (fun z => sc_capable (fl z)) RX)|]. split; [exact (f_equal (fun z => sc_disabled (fl z)) RX)|].
  split; [exact (f_equal (fun z => use_scbkd (fl z)) RX)|]. split; [intros A; rewrite <- (p14 A); exact (f_equal (fun z => sc_active (fl z)) RX)|].
  rewrite <- p15. exact (f_equal dkeep RX).
Qed.

(* keys and cryptograms *)
Definition ek (k r : list Z) : list Z := aes_ecb_encrypt k (session_block 1 130 r).
Definition mk1 (k r : list Z) : list Z := aes_ecb_encrypt k (session_block 1 1 r).
Definition mk2 (k r : list Z) : list Z := aes_ecb_encrypt k (session_block 1 2 r).
Definition crypt (k a b : list Z) : list Z := aes_ecb_encrypt k (firstn 8 a ++ firstn 8 b).
Definition rnd8 (e : env) : list Z := firstn 8 (e_rand e ++ zeros 8).

Lemma blk_crypt k a b : blk k -> r8 a -> r8 b -> blk (crypt k a b).
Proof. intros. apply blk_ecb; [assumption|apply blk_two; assumption]. Qed.

Lemma blk_ek k r : blk k -> r8 r -> blk (ek k r) /\ blk (mk1 k r) /\ blk (mk2 k r).
Proof. intros. unfold ek, mk1, mk2. split; [|split]; (apply blk_ecb; [assumption|apply blk_session; [unfold byte; lia|unfold byte; lia|assumption]]). Qed.

(* what stays the same at the device, and what it is ready for *)
Record dev_ok (p q : pd) (s : Z) : Prop := {
  do_quiet : quiet q;
  do_seq : seqn q = s;
  do_addr : address q = address p;
  do_caps : caps q = caps p;
  do_peer : peer_rx q = peer_rx p;
  do_mode : pd_mode (fl q) = true;
  do_skip : skip_seq (fl q) = false;
  do_inst : install (fl q) = install (fl p);
  do_cap : sc_capable (fl q) = sc_capable (fl p);
  do_dis : sc_disabled (fl q) = sc_disabled (fl p);
  do_bc : broadcast (fl q) = false;
  do_keep : dkeep q = dkeep p
}.

Definition reply_addr (p : pd) (a : Z) : Prop := byte a /\ 128 <= a /\ (a mod 128 = address p \/ a mod 128 = 127).

Lemma tx_reply_addr p : pd_mode (fl p) = true -> 0 <= address p < 127 -> reply_addr p (tx_addr p).
Proof. intros M A. unfold reply_addr, tx_addr, byte. rewrite M. destruct (broadcast (fl p)); lia. Qed.

Lemma dev_chlng e p s b r : pd_inv p -> chunk_ok e -> bytes (e_rand e) -> quiet p -> sc_is_capable p = true -> cap_sc p = true -> 69 <= tx_buf_size p -> 256 <= e_tx e ->
  0 <= address p < 127 -> 0 <= s <= 3 -> seq_ok (seqn p) s -> byte b -> r8 r -> delivers (heard (e_rx e)) (handshake_frame (address p) s 17 b (118 :: r)) [] ->
  let u := use_scbkd (fl p) || (install (fl p) && (b =? 0)) in let k := session_base_key u (sc p) in
  exists q m a, pd_refresh e p = Ok (q, [OTx (m ++ handshake_frame a s 18 (if u then 0 else 1) (118 :: client_uid (sc p) ++ rnd8 e ++ crypt (ek k r) r (rnd8 e)))]) /\
    (m = [] \/ m = [255]) /\ reply_addr p a /\ dev_ok p q s /\ use_scbkd (fl q) = u /\ sc_active (fl q) = false /\
    sc q = mkSc (scbk (sc p)) (ek k r) (mk1 k r) (mk2 k r) (r_mac (sc p)) (c_mac (sc p)) r (rnd8 e) (client_uid (sc p)) (cp_crypt (sc p)) (crypt (ek k r) r (rnd8 e)).
Proof.
  intros I CK BR Q Cap CS N TX Ad S Sq Bb R8 D u k.
  destruct (hs_device e p s 17 b (118 :: r) I CK Q Cap Ad S Sq ltac:(auto) Bb ltac:(bytes_cons; [unfold byte; lia|apply R8]) ltac:(rewrite zlen_cons; unfold zlen; rewrite (proj1 R8); lia) D)
    as (x & RF & TY & RW & RC & e1 & e2 & e3 & e4 & e5 & e6 & e7 & e8 & e9 & e10 & e11 & _ & e12).
  rewrite RF. unfold decode_command. cbv zeta. change (getb (118 :: r) 0) with 118. change (from (118 :: r) 1) with r.
  change (plain_allowed 118) with true. cbn [negb]. rewrite !andb_false_r.
  set (x1 := set_cmd_id 118 (set_reply_id 0 x)).
  change (decode_switch e x1 118 r) with (Some (let (p1, r0) := do_chlng x1 r in Ok (p1, r0, @nil out))).
  unfold do_chlng. replace (zlen r =? 8) with true by (unfold zlen; rewrite (proj1 R8); reflexivity). 
  assert (CX : cap_sc x1 = true) by (unfold cap_sc, cap_at in *; change (caps x1) with (caps x); rewrite e4; exact CS). rewrite CX. cbn [negb bind].
  set (y := set_reply_id REPLY_CCRYPT (set_cp_random r (sc_deactivate x1))). cbn [bind pd_finish].
  replace (bumped e y) with y by reflexivity.
  assert (TX1 : tx_buf_size y = tx_buf_size p) by (unfold tx_buf_size; change (peer_rx y) with (peer_rx x); rewrite e5; reflexivity).
  assert (MY : pd_mode (fl y) = true) by exact e6.
  assert (BY : bytes (rnd8 e)) by (apply r8_rnd; exact BR).
  destruct TY as (t1 & t2 & t3 & t4 & t5 & t6).
  assert (TYy : pd_typed y).
  { apply mk_typed; [unfold byte; simpl; unfold REPLY_CCRYPT; lia|exact t2|exact t3| |exact t5|exact t6].
    destruct t4 as (w1 & w2 & w3 & w4 & w5 & w6 & w7). exact (conj w1 (conj w2 (conj R8 (conj w4 (conj w5 (conj w6 w7)))))). }
  assert (KU : session_base_key (use_scbkd (fl x)) (sc x) = k) by (unfold k, u; rewrite e1, e11; reflexivity).
  set (z := compute_pd_cryptogram (compute_session_keys (set_pd_random (rnd8 e) (after_init y)))).
  assert (SZ : sc z = mkSc (scbk (sc p)) (ek k r) (mk1 k r) (mk2 k r) (r_mac (sc p)) (c_mac (sc p)) r (rnd8 e) (client_uid (sc p)) (cp_crypt (sc p)) (crypt (ek k r) r (rnd8 e))).
  { rewrite <- e1. rewrite <- KU. reflexivity. }
  assert (RM : 60 <= reply_room y).
  { unfold reply_room. pose proof (pd_hdr_len y). pose proof (mk_of_len y). unfold zlen. rewrite app_length. lia. }
  assert (BS : build_switch e (after_init y) true (reply_room y) = Ok (z, Some (118 :: client_uid (sc p) ++ rnd8 e ++ crypt (ek k r) r (rnd8 e)), Some (18, if u then 0 else 1), [])).
  { change (build_switch e (after_init y) true (reply_room y)) with (build_ccrypt e (after_init y) true (reply_room y)).
    unfold build_ccrypt. cbn [negb]. unfold assert_len. replace (33 <? reply_room y) with true by lia. cbv zeta. fold (rnd8 e). fold z. rewrite SZ.
    change (reply_id z) with 118. change (use_scbkd (fl z)) with (use_scbkd (fl x)). rewrite e11. reflexivity. }
  assert (SY : seqn y = s) by exact e2.
  assert (UL : length (client_uid (sc p)) = 8%nat) by (rewrite <- e1; apply t4).
  assert (BC : blk (crypt (ek k r) r (rnd8 e))).
  { apply blk_crypt; [|exact R8|apply r8_rnd; exact BR]. refine (proj1 (blk_ek k r _ R8)). apply blk_base_key. rewrite <- e1. apply t4. }
  assert (N2 : 69 <= tx_buf_size y <= 256) by (pose proof (tx_buf_le p); lia).
  assert (S2 : -1 <= seqn y <= 3) by lia.
  assert (A2 : sc_active (fl y) = false) by reflexivity.
  assert (H2 : in_sc_handshake true (reply_id y) = true) by reflexivity.
  assert (I2 : cmd_id y <> 117) by (change (cmd_id y) with 118; lia).
  assert (L2 : zlen (118 :: client_uid (sc p) ++ rnd8 e ++ crypt (ek k r) r (rnd8 e)) <= 58).
  { assert (RL : length (rnd8 e) = 8%nat) by exact (proj1 (r8_rnd _ BR)). rewrite zlen_cons, !zlen_app. unfold zlen. rewrite UL, RL, (proj1 BC). clear; lia. }
  assert (C2 : cmd_id z = cmd_id y) by reflexivity.
  destruct (reply_hs e y z _ 18 (if u then 0 else 1) MY TYy BR N2 TX S2 A2 H2 I2 ltac:(clear; lia) L2 BS C2) as (q & RP & TC & SQ & TQ).
  rewrite RP. rewrite bind_Ok.
  assert (AY : address y = address p) by exact e3.
  pose proof (tx_reply_addr y MY ltac:(lia)) as RA. unfold reply_addr in RA. rewrite AY in RA.
  assert (NY : tx_num y = s) by (unfold tx_num; rewrite MY, SY; lia). rewrite NY.
  exists (state_reset false q), (mk_of y), (tx_addr y). split; [reflexivity|]. split; [apply mk_cases|]. split; [exact RA|].
  assert (RBq : rb q = rb x) by exact (f_equal (fun w => rb w) TC).
  split. { constructor.
    - apply reset_quiet; rewrite ?RBq; [exact RC|exact RW|split; apply TQ].
    - exact (eq_trans (f_equal (fun w => seqn w) TC) e2).
    - exact (eq_trans (f_equal (fun w => address w) TC) e3).
    - exact (eq_trans (f_equal (fun w => caps w) TC) e4).
    - exact (eq_trans (f_equal (fun w => peer_rx w) TC) e5).
    - exact (eq_trans (f_equal (fun w => pd_mode (fl w)) TC) e6).
    - exact (eq_trans (f_equal (fun w => skip_seq (fl w)) TC) e7).
    - exact (eq_trans (f_equal (fun w => install (fl w)) TC) e8).
    - exact (eq_trans (f_equal (fun w => sc_capable (fl w)) TC) e9).
    - exact (eq_trans (f_equal (fun w => sc_disabled (fl w)) TC) e10).
    - exact (f_equal (fun w => broadcast (fl w)) TC).
    - exact (eq_trans (f_equal dkeep TC) e12). }
  split; [unfold u; rewrite <- e11; exact (f_equal (fun w => use_scbkd (fl w)) TC)|].
  split; [exact (f_equal (fun w => sc_active (fl w)) TC)|]. change (sc (state_reset false q)) with (sc q). rewrite SQ. exact SZ.
Qed.

Lemma eqb_refl a : eqb_bytes a a = true.
Proof. apply eqb_bytes_eq. reflexivity. Qed.

Lemma sc_up t b p : sc (set_sc_tstamp t (set_sc_active b p)) = sc p.
Proof. reflexivity. Qed.

Definition rmac0 (k1 k2 c : list Z) : list Z := aes_ecb_encrypt k2 (aes_ecb_encrypt k1 c).

Lemma dev_scrypt e p s b cc : pd_inv p -> chunk_ok e -> bytes (e_rand e) -> quiet p -> sc_is_capable p = true -> cap_sc p = true -> 69 <= tx_buf_size p -> 256 <= e_tx e ->
  0 <= address p < 127 -> 0 <= s <= 3 -> seq_ok (seqn p) s -> byte b -> blk cc -> delivers (heard (e_rx e)) (handshake_frame (address p) s 19 b (119 :: cc)) [] ->
  sc_active (fl p) = false -> cc = crypt (s_enc (sc p)) (pd_random (sc p)) (cp_random (sc p)) ->
  let m0 := rmac0 (s_mac1 (sc p)) (s_mac2 (sc p)) cc in
  exists q m a, pd_refresh e p = Ok (q, [OTx (m ++ handshake_frame a s 20 1 (120 :: m0))]) /\
    (m = [] \/ m = [255]) /\ reply_addr p a /\ dev_ok p q s /\ (sc_active (fl q) = true /\ use_scbkd (fl q) = use_scbkd (fl p) || (install (fl p) && (b =? 0))) /\
    sc q = cset_r_mac m0 (cset_cp_crypt cc (sc p)).
Proof.
  intros I CK BR Q Cap CS N TX Ad S Sq Bb R8 D A EC m0.
  destruct (hs_device e p s 19 b (119 :: cc) I CK Q Cap Ad S Sq ltac:(auto) Bb ltac:(bytes_cons; [unfold byte; lia|apply R8]) ltac:(rewrite zlen_cons; unfold zlen; rewrite (proj1 R8); lia) D)
    as (x & RF & TY & RW & RC & e1 & e2 & e3 & e4 & e5 & e6 & e7 & e8 & e9 & e10 & eu & e11 & e12). specialize (e11 A).
  rewrite RF. unfold decode_command. cbv zeta. change (getb (119 :: cc) 0) with 119. change (from (119 :: cc) 1) with cc.
  change (plain_allowed 119) with true. cbn [negb]. rewrite !andb_false_r.
  set (x1 := set_cmd_id 119 (set_reply_id 0 x)).
  change (decode_switch e x1 119 cc) with (Some (let (p1, r0) := do_scrypt x1 cc in Ok (p1, r0, @nil out))).
  unfold do_scrypt. replace (zlen cc =? 16) with true by (unfold zlen; rewrite (proj1 R8); reflexivity). 
  assert (CX : cap_sc x1 = true) by (unfold cap_sc, cap_at in *; change (caps x1) with (caps x); rewrite e4; exact CS). rewrite CX.
  change (sc_active (fl x1)) with (sc_active (fl x)). rewrite e11. cbn [negb bind].
  set (y := set_reply_id REPLY_RMAC_I (set_cp_crypt cc x1)). cbn [bind pd_finish].
  assert (BU : bumped e y = y) by (unfold bumped; change (sc_active (fl y)) with (sc_active (fl x)); rewrite e11; reflexivity). rewrite BU.
  assert (TX1 : tx_buf_size y = tx_buf_size p) by (unfold tx_buf_size; change (peer_rx y) with (peer_rx x); rewrite e5; reflexivity).
  assert (MY : pd_mode (fl y) = true) by exact e6.
  destruct TY as (t1 & t2 & t3 & t4 & t5 & t6).
  assert (TYy : pd_typed y).
  { apply mk_typed; [unfold byte; simpl; unfold REPLY_RMAC_I; lia|exact t2|exact t3| |exact t5|exact t6].
    exact (wf_cp_crypt (sc x) cc t4 R8). }
  set (z0 := compute_rmac_i (after_init y)). set (z := set_sc_tstamp (e_now e) (set_sc_active true z0)).
  assert (SZ0 : sc z0 = cset_r_mac m0 (cset_cp_crypt cc (sc p))) by (rewrite <- e1; unfold m0; rewrite <- e1; reflexivity).
  pose proof (sc_up (e_now e) true z0 : sc z = sc z0) as SZ1.
  assert (VF : verify_cp_cryptogram z0 = true).
  { unfold verify_cp_cryptogram. rewrite SZ0. change (eqb_bytes cc (crypt (s_enc (sc p)) (pd_random (sc p)) (cp_random (sc p))) = true). rewrite <- EC. apply eqb_refl. }
  assert (RM : 60 <= reply_room y).
  { unfold reply_room. pose proof (pd_hdr_len y). pose proof (mk_of_len y). unfold zlen. rewrite app_length. lia. }
  assert (BS : build_switch e (after_init y) true (reply_room y) = Ok (z, Some (120 :: m0), Some (20, 1), [])).
  { change (build_switch e (after_init y) true (reply_room y)) with (build_rmac e (after_init y) true (reply_room y)).
    unfold build_rmac. cbn [negb]. unfold assert_len. replace (17 <? reply_room y) with true by lia. cbv zeta. fold z0. rewrite VF, SZ0.
    change (reply_id z0) with 120. reflexivity. }
  assert (SY : seqn y = s) by exact e2.
  assert (BM : blk m0).
  { destruct t4 as ((_ & w1 & w2 & _) & _). rewrite e1 in w1, w2. unfold m0, rmac0. apply blk_ecb; [exact w2|]. apply blk_ecb; [exact w1|exact R8]. }
  assert (N2 : 69 <= tx_buf_size y <= 256) by (pose proof (tx_buf_le p); lia).
  assert (S2 : -1 <= seqn y <= 3) by lia.
  assert (A2 : sc_active (fl y) = false) by exact e11.
  assert (H2 : in_sc_handshake true (reply_id y) = true) by reflexivity.
  assert (I2 : cmd_id y <> 117) by (change (cmd_id y) with 119; lia).
  assert (L2 : zlen (120 :: m0) <= 58) by (rewrite zlen_cons; unfold zlen; rewrite (proj1 BM); clear; lia).
  assert (C2 : cmd_id z = cmd_id y) by reflexivity.
  destruct (reply_hs e y z _ 20 1 MY TYy BR N2 TX S2 A2 H2 I2 ltac:(clear; lia) L2 BS C2) as (q & RP & TC & SQ & TQ).
  rewrite RP. rewrite bind_Ok.
  assert (AY : address y = address p) by exact e3.
  pose proof (tx_reply_addr y MY ltac:(lia)) as RA. unfold reply_addr in RA. rewrite AY in RA.
  assert (NY : tx_num y = s) by (unfold tx_num; rewrite MY, SY; lia). rewrite NY.
  exists (state_reset false q), (mk_of y), (tx_addr y). split; [reflexivity|]. split; [apply mk_cases|]. split; [exact RA|].
  assert (RBq : rb q = rb x) by exact (f_equal (fun w => rb w) TC).
  split. { constructor.
    - apply reset_quiet; rewrite ?RBq; [exact RC|exact RW|split; apply TQ].
    - exact (eq_trans (f_equal (fun w => seqn w) TC) e2).
    - exact (eq_trans (f_equal (fun w => address w) TC) e3).
    - exact (eq_trans (f_equal (fun w => caps w) TC) e4).
    - exact (eq_trans (f_equal (fun w => peer_rx w) TC) e5).
    - exact (eq_trans (f_equal (fun w => pd_mode (fl w)) TC) e6).
    - exact (eq_trans (f_equal (fun w => skip_seq (fl w)) TC) e7).
    - exact (eq_trans (f_equal (fun w => install (fl w)) TC) e8).
    - exact (eq_trans (f_equal (fun w => sc_capable (fl w)) TC) e9).
    - exact (eq_trans (f_equal (fun w => sc_disabled (fl w)) TC) e10).
    - exact (f_equal (fun w => broadcast (fl w)) TC).
    - exact (eq_trans (f_equal dkeep TC) e12). }
  split; [split; [exact (f_equal (fun w => sc_active (fl w)) TC)|exact (eq_trans (f_equal (fun w => use_scbkd (fl w)) TC) eu)]|]. rewrite <- SZ0, <- SZ1. exact SQ.
Qed.

(* --- the panel --- *)

Definition waitcore (p : pd) : pd := set_phy_tstamp 0 (set_phy_state PIdle (set_reply_id 0 (set_pblen 0 (set_plen 0 (set_pbuf [] p))))).

Lemma pan_send e c p2 d ty b : cpi c -> env_typed e -> phy_state c = PSend -> sc_active (fl c) = false -> in_sc_handshake false (cmd_id c) = true ->
  rb_contents (rb c) = [] -> 69 <= tx_buf_size c -> 256 <= e_tx e -> build_cmd_switch e (cp_init c) true (cmd_room c) = Ok (p2, Some d, Some (ty, b), []) ->
  ty < 21 -> zlen d <= 58 -> rb p2 = rb c ->
  exists q, state_update e c = Ok (q, CInprog, [OTx (255 :: handshake_frame (tx_addr c) (tx_num c) ty b d)]) /\
    waitcore q = waitcore p2 /\ phy_state q = PReplyWait /\ quiet q.
Proof.
  intros I T PS A H RC N TX BS Ty L RB. pose proof (ci_b c I) as B. pose proof (cv_mode c B) as M. pose proof (cv_seq c B) as SQ.
  assert (SM : cmd_smb c = true) by (unfold cmd_smb; rewrite H; apply orb_true_r).
  assert (HB := cp_hs_body c ty b d M SQ A H). assert (HW := hs_wire p2 (tx_addr c) (tx_num c) ty b d Ty ltac:(lia)).
  assert (LF : zlen (255 :: wire_of p2 (cmd_body c d (Some (ty, b)))) <= tx_buf_size c) by (rewrite HB, HW, zlen_cons, hs_len; lia).
  pose proof (update_send e c p2 d (Some (ty, b)) [] I T PS N ltac:(rewrite SM; exact BS) LF TX) as U.
  rewrite HB, HW in U. set (f := 255 :: handshake_frame _ _ _ _ _) in *.
  assert (MC : macced p2 ([83; tx_addr c; 0; 0; 12 + tx_num c; 3; ty; b] ++ d) = false).
  { unfold macced. change (getb ([83; tx_addr c; 0; 0; 12 + tx_num c; 3; ty; b] ++ d) 6) with ty. replace (21 <=? ty) with false by lia. apply andb_false_r. }
  unfold cp_macked in U. rewrite MC in U. eexists. split; [exact U|]. split; [reflexivity|]. split; [reflexivity|].
  match type of U with _ = Ok (?q, _, _) => destruct (cp_do_inv (Update e) c q [OTx f] T I) as [B' _ _ _ _ _ _ _] end.
  { unfold cp_do. rewrite U, bind_Ok. reflexivity. }
  pose proof (cv_rxb _ B') as (W1 & _ & W3 & W4). cbv zeta. split; [reflexivity|]. split; [reflexivity|]. split; [|split; [|split]].
  - refine (eq_trans _ RC). rewrite <- RB. reflexivity.
  - exact W1.
  - exact W3.
  - exact W4.
Qed.

Lemma pan_hears e c a s ty b pay : cpi c -> chunk_ok e -> quiet c -> phy_state c = PReplyWait -> ty = 18 \/ ty = 20 -> byte b -> reply_addr c a -> s = seqn c mod 4 ->
  bytes pay -> 1 <= zlen pay <= 200 -> delivers (heard (e_rx e)) (handshake_frame a s ty b pay) [] ->
  exists x, process_reply e c = decode_response e x pay /\ rxcore x = rxcore c /\ rb_contents (rb x) = [] /\ rx_base x.
Proof.
  intros I CK Q PS Ty Bb (RA1 & RA2 & RA3) Es Bp L D. pose proof (ci_b c I) as B.
  assert (R0 : rx_ready c) by (apply quiet_ready; [exact Q|apply B|apply B]).
  assert (Bd : (length (@nil Z) < length (heard (e_rx e)))%nat).
  { destruct D as (nz & mk & E & _). rewrite E, !app_length. assert (0 < zlen (handshake_frame a s ty b pay)) by (rewrite hs_len; lia). unfold zlen in *. cbn [length]. lia. }
  destruct (take_hs c [] e a s ty b pay [] R0 ltac:(constructor; [exact CK|constructor]) ltac:(intros X; rewrite (cv_mode c B) in X; discriminate) ltac:(lia) Bb RA1
    ltac:(rewrite (cv_mode c B); cbn [negb]; lia) RA3 ltac:(lia) Bp ltac:(lia) ltac:(unfold accepts; rewrite (cv_mode c B); auto)) as (x & TK & RX & RB & RBS & _); [unfold stream; cbn [app map concat]; rewrite app_nil_r; exact D|exact Bd|].
  exists x. split; [exact (cp_hears e c pay x TK)|]. split; [|split; [exact RB|exact RBS]]. rewrite RX. unfold seen. rewrite (cv_mode c B). unfold noted.
  replace ((ty =? 17) || (ty =? 19)) with false by (destruct Ty as [-> | ->]; reflexivity). reflexivity.
Qed.

Lemma sub_three (u r c : list Z) : length u = 8%nat -> length r = 8%nat -> length c = 16%nat ->
  sub (u ++ r ++ c) 0 8 = u /\ sub (u ++ r ++ c) 8 8 = r /\ sub (u ++ r ++ c) 16 16 = c.
Proof.
  intros Lu Lr Lc. unfold sub. split; [|split].
  - change (Z.to_nat 0) with 0%nat. change (Z.to_nat 8) with 8%nat. cbn [skipn]. rewrite firstn_app, Lu, Nat.sub_diag, <- Lu, firstn_all. cbn [firstn]. apply app_nil_r.
  - change (Z.to_nat 8) with 8%nat. rewrite skipn_app, Lu, Nat.sub_diag, <- Lu, skipn_all. cbn [app skipn]. rewrite Lu, firstn_app, Lr, Nat.sub_diag, <- Lr, firstn_all. cbn [firstn]. apply app_nil_r.
  - change (Z.to_nat 16) with 16%nat. rewrite app_assoc, skipn_app, app_length, Lu, Lr. change (16 - (8 + 8))%nat with 0%nat.
    rewrite (skipn_all2 (u ++ r)) by (rewrite app_length; lia). cbn [app skipn]. rewrite <- Lc. apply firstn_all.
Qed.

Record pan_ok (c q : pd) : Prop := {
  po_addr : address q = address c;
  po_seq : seqn q = seqn c;
  po_peer : peer_rx q = peer_rx c;
  po_off : rq_offline q = rq_offline c;
  po_scbkd : use_scbkd (fl q) = use_scbkd (fl c);
  po_rb : rb_contents (rb q) = [];
  po_keep : ckeep q = ckeep c
}.

(* end of a refresh of the panel after a good reply in the handshake *)
Lemma chlng_done e y : phy_state y = PDone -> state y = SChlng -> reply_id y = 118 -> cmd_id y = 118 ->
  after_phy e SChlng y [] = Ok (set_state SScrypt (state_reset false y), CYield, []).
Proof.
  intros P1 P2 P3 P4. unfold after_phy. rewrite P1. unfold state_check_reply. rewrite P2, P3, bind_Ok. unfold finish_update. change (118 =? REPLY_CCRYPT) with true. cbv iota.
  unfold next_ok_state. change (state (state_reset false y)) with (state y). rewrite P2, bind_Ok. unfold do_requests.
  change (state (state_reset false y)) with (state y). rewrite P2. cbn [st_eqb orb state_change].
  unfold notify_command_status, app_cmd_of. rewrite P4, P3. reflexivity.
Qed.

Lemma chlng_end e t z : state z = SChlng -> reply_id z = 118 -> cmd_id z = 118 ->
  exists q, after_phy e SChlng (set_phy_state PDone (set_tstamp t z)) [] = Ok (q, CYield, []) /\ state q = SScrypt /\ phy_state q = PIdle /\
    address q = address z /\ seqn q = seqn z /\ peer_rx q = peer_rx z /\ rq_offline q = rq_offline z /\ use_scbkd (fl q) = use_scbkd (fl z) /\ rb q = rb z /\ sc q = sc z /\ ckeep q = ckeep z.
Proof.
  intros P2 P3 P4. rewrite chlng_done by assumption || reflexivity. eexists. split; [reflexivity|]. repeat (split; [reflexivity|]). reflexivity.
Qed.

Lemma pan_ccrypt e c a b uid rnd : cpi c -> chunk_ok e -> quiet c -> phy_state c = PReplyWait -> state c = SChlng -> cmd_id c = 118 -> byte b ->
  reply_addr c a -> r8 uid -> r8 rnd ->
  let k := session_base_key (use_scbkd (fl c)) (sc c) in let r := cp_random (sc c) in let cc := crypt (ek k r) r rnd in
  delivers (heard (e_rx e)) (handshake_frame a (seqn c mod 4) 18 b (118 :: uid ++ rnd ++ cc)) [] ->
  exists q, state_update e c = Ok (q, CYield, []) /\ state q = SScrypt /\ phy_state q = PIdle /\ pan_ok c q /\
    sc q = mkSc (scbk (sc c)) (ek k r) (mk1 k r) (mk2 k r) (r_mac (sc c)) (c_mac (sc c)) r rnd uid (cp_crypt (sc c)) cc.
Proof.
  intros I CK Q PS St CI Bb RA U8 R8. cbv zeta. set (k := session_base_key _ _). set (r := cp_random (sc c)). set (cc := crypt (ek k r) r rnd). intros D.
  pose proof (ci_b c I) as B. destruct (cv_ty c B) as (_ & _ & _ & (W1 & W2 & W3 & W4 & W5 & _) & _).
  assert (BC : blk cc) by (unfold cc; apply blk_crypt; [exact (proj1 (blk_ek k r (blk_base_key _ _ W2) W3))|exact W3|exact R8]).
  assert (A : sc_active (fl c) = false). { destruct (sc_active (fl c)) eqn:A; [|reflexivity]. destruct (ci_act c I A) as [X | X]; rewrite St in X; discriminate. }
  assert (LP : zlen (uid ++ rnd ++ cc) = 32) by (rewrite !zlen_app; unfold zlen; rewrite (proj1 U8), (proj1 R8), (proj1 BC); reflexivity).
  destruct (pan_hears e c a (seqn c mod 4) 18 b (118 :: uid ++ rnd ++ cc) I CK Q PS ltac:(auto) Bb RA eq_refl
    ltac:(bytes_cons; [unfold byte; lia|]; apply bytes_app; split; [apply U8|apply bytes_app; split; [apply R8|apply BC]]) ltac:(rewrite zlen_cons; lia) D) as (x & PR & RX & RB & RBS).
  assert (Ax : sc_active (fl x) = false) by (rewrite <- A; exact (f_equal (fun w => sc_active (fl w)) RX)).
  assert (Cx : cmd_id x = 118) by (rewrite <- CI; exact (f_equal (fun w => cmd_id w) RX)).
  assert (Sx : sc x = sc c) by exact (f_equal (fun w => sc w) RX).
  assert (Ux : use_scbkd (fl x) = use_scbkd (fl c)) by exact (f_equal (fun w => use_scbkd (fl w)) RX).
  assert (Tx : state x = SChlng) by (rewrite <- St; exact (f_equal (fun w => state w) RX)).
  destruct (sub_three uid rnd cc (proj1 U8) (proj1 R8) (proj1 BC)) as (S1 & S2 & S3).
  set (z := compute_session_keys (set_pd_crypt cc (set_pd_random rnd (set_client_uid uid (set_reply_id 118 x))))).
  assert (SZ : sc z = mkSc (scbk (sc c)) (ek k r) (mk1 k r) (mk2 k r) (r_mac (sc c)) (c_mac (sc c)) r rnd uid (cp_crypt (sc c)) cc).
  { unfold k, r. rewrite <- Sx, <- Ux. reflexivity. }
  assert (DR : decode_response e x (118 :: uid ++ rnd ++ cc) = Ok (z, CNone, [])).
  { unfold decode_response. cbv zeta. change (getb (118 :: uid ++ rnd ++ cc) 0) with 118. change (from (118 :: uid ++ rnd ++ cc) 1) with (uid ++ rnd ++ cc).
    rewrite LP, S1, S2, S3. change (sc_active (fl (set_reply_id 118 x))) with (sc_active (fl x)). change (cmd_id (set_reply_id 118 x)) with (cmd_id x). rewrite Ax, Cx.
    cbn [Z.eqb Pos.eqb REPLY_ACK REPLY_NAK REPLY_PDID REPLY_PDCAP REPLY_OSTATR REPLY_ISTATR REPLY_LSTATR REPLY_RSTATR REPLY_RAW REPLY_KEYPAD REPLY_COM REPLY_BUSY REPLY_MFGREP REPLY_FTSTAT REPLY_CCRYPT CMD_CHLNG orb negb].
    fold z. unfold verify_pd_cryptogram. rewrite SZ. change (eqb_bytes cc cc) with (eqb_bytes cc cc).
    change (pd_crypt _) with cc. change (pd_cryptogram_of _) with cc. rewrite eqb_refl. reflexivity. }
  rewrite update_reply by exact PS. unfold phy_reply_wait. rewrite PR, DR, !bind_Ok.
  assert (Ez : address z = address x /\ seqn z = seqn x /\ peer_rx z = peer_rx x /\ rq_offline z = rq_offline x /\ use_scbkd (fl z) = use_scbkd (fl x) /\ rb z = rb x /\
     state z = state x /\ reply_id z = 118 /\ cmd_id z = cmd_id x /\ sc_active (fl z) = sc_active (fl x) /\ ckeep z = ckeep x) by (unfold z; repeat (split; [reflexivity|]); reflexivity).
  clear DR PR. generalize dependent z. intros z SZ (y1 & y2 & y3 & y4 & y5 & y6 & y7 & y8 & y9 & y10 & y11).
  change (sc_active (fl (set_tstamp (e_now e) z))) with (sc_active (fl z)). rewrite y10, Ax, St. cbv iota beta.
  destruct (chlng_end e (e_now e) z (eq_trans y7 Tx) y8 (eq_trans y9 Cx)) as (q & X & q1 & q2 & q3 & q4 & q5 & q6 & q7 & q8 & q9 & q10). rewrite X.
  exists q. split; [reflexivity|]. split; [exact q1|]. split; [exact q2|]. split; [|exact (eq_trans q9 SZ)].
  constructor.
    - exact (eq_trans q3 (eq_trans y1 (f_equal (fun w => address w) RX))).
    - exact (eq_trans q4 (eq_trans y2 (f_equal (fun w => seqn w) RX))).
    - exact (eq_trans q5 (eq_trans y3 (f_equal (fun w => peer_rx w) RX))).
    - exact (eq_trans q6 (eq_trans y4 (f_equal (fun w => rq_offline w) RX))).
    - exact (eq_trans q7 (eq_trans y5 Ux)).
    - rewrite q8, y6. exact RB.
    - exact (eq_trans q10 (eq_trans y11 (f_equal ckeep RX))).
Qed.

Lemma scrypt_end e t z : state z = SScrypt -> reply_id z = 120 -> cmd_id z = 119 -> rq_restart z = false -> rq_offline z = false ->
  exists q o, after_phy e SScrypt (set_phy_state PDone (set_tstamp t z)) [] = Ok (q, CYield, o) /\ state q = (if use_scbkd (fl z) then SSetScbk else SOnline) /\ sc_active (fl q) = true /\
    address q = address z /\ seqn q = seqn z /\ rb q = rb z /\ sc q = sc z /\ pbuf q = pbuf z /\ pblen q = 0 /\ plen q = 0 /\ ckeep q = ckeep z /\ phy_state q = PIdle /\ rq_offline q = false /\ (use_scbkd (fl z) = true -> eph q = EphCmd (CKeyset 1 16 (scbk (sc z)))).
Proof.
  intros P2 P3 P4 P5 P6. unfold after_phy. change (phy_state (set_phy_state PDone (set_tstamp t z))) with PDone. cbv iota.
  set (y := set_phy_state PDone (set_tstamp t z)).
  unfold state_check_reply. change (state y) with (state z). change (reply_id y) with (reply_id z). rewrite P2, P3, bind_Ok. change (120 =? REPLY_RMAC_I) with true. cbv iota. unfold finish_update.
  assert (NC : notify_command_status e y true = []). { unfold notify_command_status, app_cmd_of. change (cmd_id y) with (cmd_id z). change (reply_id y) with (reply_id z). rewrite P3, P4. reflexivity. }
  rewrite NC. unfold next_ok_state. change (state (state_reset false y)) with (state z). rewrite P2. cbv zeta.
  set (w := set_sc_active true (state_reset false y)). change (use_scbkd (fl w)) with (use_scbkd (fl z)).
  destruct (use_scbkd (fl z)) eqn:U; rewrite bind_Ok; unfold do_requests.
  - change (state (fill_local_keyset w)) with (state z). rewrite P2. cbn [st_eqb orb state_change]. cbv iota beta.
    eexists. eexists. split; [reflexivity|]. repeat (split; [reflexivity|]). split; [exact P6|]. intros _; reflexivity.
  - change (state w) with (state z). rewrite P2. cbn [st_eqb orb]. change (rq_restart w) with (rq_restart z). rewrite P5. change (rq_offline w) with (rq_offline z). rewrite P6.
    destruct (rq_event w); cbn [state_change st_eqb]; cbv iota beta; (eexists; eexists; split; [reflexivity|]; repeat (split; [reflexivity|]); split; [exact P6|discriminate]).
Qed.

Lemma pan_rmac e c a b m : cpi c -> chunk_ok e -> quiet c -> phy_state c = PReplyWait -> state c = SScrypt -> cmd_id c = 119 -> byte b ->
  reply_addr c a -> blk m -> rq_offline c = false ->
  delivers (heard (e_rx e)) (handshake_frame a (seqn c mod 4) 20 b (120 :: m)) [] ->
  exists q o, state_update e c = Ok (q, CYield, o) /\ state q = (if use_scbkd (fl c) then SSetScbk else SOnline) /\ quiet q /\ sc_active (fl q) = true /\
    address q = address c /\ seqn q = seqn c /\ sc q = cset_r_mac m (sc c) /\ ckeep q = ckeep c /\ phy_state q = PIdle /\ rq_offline q = false /\ (use_scbkd (fl c) = true -> eph q = EphCmd (CKeyset 1 16 (scbk (sc c)))).
Proof.
  intros I CK Q PS St CI Bb RA BM RO D.
  assert (A : sc_active (fl c) = false). { destruct (sc_active (fl c)) eqn:A; [|reflexivity]. destruct (ci_act c I A) as [X | X]; rewrite St in X; discriminate. }
  destruct (pan_hears e c a (seqn c mod 4) 20 b (120 :: m) I CK Q PS ltac:(auto) Bb RA eq_refl
    ltac:(bytes_cons; [unfold byte; lia|]; apply BM) ltac:(rewrite zlen_cons; unfold zlen; rewrite (proj1 BM); lia) D) as (x & PR & RX & RB & RBS).
  assert (Ax : sc_active (fl x) = false) by (rewrite <- A; exact (f_equal (fun w => sc_active (fl w)) RX)).
  assert (Cx : cmd_id x = 119) by (rewrite <- CI; exact (f_equal (fun w => cmd_id w) RX)).
  set (z := set_r_mac m (set_reply_id 120 x)).
  assert (DR : decode_response e x (120 :: m) = Ok (z, CNone, [])).
  { unfold decode_response. cbv zeta. change (getb (120 :: m) 0) with 120. change (from (120 :: m) 1) with m.
    replace (zlen m) with 16 by (unfold zlen; rewrite (proj1 BM); reflexivity).
    change (sc_active (fl (set_reply_id 120 x))) with (sc_active (fl x)). change (cmd_id (set_reply_id 120 x)) with (cmd_id x). rewrite Ax, Cx. reflexivity. }
  rewrite update_reply by exact PS. unfold phy_reply_wait. rewrite PR, DR, !bind_Ok.
  change (sc_active (fl (set_tstamp (e_now e) z))) with (sc_active (fl x)). rewrite Ax, St. cbv iota beta.
  destruct (scrypt_end e (e_now e) z) as (q & o & X & q1 & q2 & q3 & q4 & q5 & q6 & q7 & q8 & q9 & q10 & q11 & q12).
  - change (state x = SScrypt). rewrite <- St. exact (f_equal (fun w => state w) RX).
  - reflexivity.
  - exact Cx.
  - change (rq_restart x = false). rewrite <- (ci_rq c I). exact (f_equal (fun w => rq_restart w) RX).
  - change (rq_offline x = false). rewrite <- RO. exact (f_equal (fun w => rq_offline w) RX).
  - rewrite X. exists q, o. split; [reflexivity|].
    split. { rewrite q1. assert (U : use_scbkd (fl x) = use_scbkd (fl c)) by exact (f_equal (fun w => use_scbkd (fl w)) RX). change (use_scbkd (fl z)) with (use_scbkd (fl x)). rewrite U. reflexivity. }
    assert (Rq : rb q = rb x) by exact q5. assert (Bq : pbuf q = pbuf x) by exact q7.
    split. { unfold quiet. rewrite q8, q9, Rq, Bq. split; [reflexivity|]. split; [reflexivity|]. split; [exact RB|]. split; [apply RBS|]. split; apply RBS. }
    split; [exact q2|]. split; [rewrite q3; exact (f_equal (fun w => address w) RX)|]. split; [rewrite q4; exact (f_equal (fun w => seqn w) RX)|].
    split. { rewrite q6. assert (Sx : sc x = sc c) by exact (f_equal (fun w => sc w) RX). rewrite <- Sx. reflexivity. }
    split; [exact (eq_trans q10 (f_equal ckeep RX))|]. split; [exact q11|]. split; [exact (proj1 q12)|].
    assert (Ux : use_scbkd (fl x) = use_scbkd (fl c)) by exact (f_equal (fun w => use_scbkd (fl w)) RX). assert (Kx : scbk (sc x) = scbk (sc c)) by exact (f_equal (fun w => scbk (sc w)) RX).
    intros Y. rewrite <- Kx. apply (proj2 q12). rewrite <- Y. exact Ux.
Qed.

Record asked (c q : pd) (code : Z) : Prop := {
  ak_inv : cpi q;
  ak_quiet : quiet q;
  ak_phy : phy_state q = PReplyWait;
  ak_state : state q = state c;
  ak_cmd : cmd_id q = code;
  ak_addr : address q = address c;
  ak_seq : seqn q = seq_next (seqn c);
  ak_scbkd : use_scbkd (fl q) = use_scbkd (fl c);
  ak_peer : peer_rx q = peer_rx c;
  ak_off : rq_offline q = rq_offline c;
  ak_keep : ckeep q = ckeep c
}.

Lemma start_idle e c code : phy_state c = PIdle -> (state c = SChlng /\ code = 118) \/ (state c = SScrypt /\ code = 119) ->
  state_update e c = Ok (set_phy_state PSend (set_cmd_id code c), CYield, []).
Proof. intros P [(S & ->) | (S & ->)]; unfold state_update, phy_running; rewrite P; unfold after_phy; rewrite P; unfold state_get_cmd; rewrite S; reflexivity. Qed.

Lemma hs_inactive c : cpi c -> state c = SChlng \/ state c = SScrypt -> sc_active (fl c) = false.
Proof. intros I S. destruct (sc_active (fl c)) eqn:A; [|reflexivity]. destruct (ci_act c I A) as [X | X]; rewrite X in S; destruct S; discriminate. Qed.

Lemma pan_chlng e1 e2 c : cpi c -> env_typed e1 -> env_typed e2 -> state c = SChlng -> phy_state c = PIdle -> rb_contents (rb c) = [] -> 69 <= tx_buf_size c -> 256 <= e_tx e2 ->
  exists c1 c2, state_update e1 c = Ok (c1, CYield, []) /\
    state_update e2 c1 = Ok (c2, CInprog, [OTx (255 :: handshake_frame (address c mod 128) (seq_next (seqn c)) 17 (if use_scbkd (fl c) then 0 else 1) (118 :: cp_random (sc c)))]) /\
    asked c c2 118 /\ sc c2 = sc c.
Proof.
  intros I T1 T2 St P RC N TX. pose proof (start_idle e1 c 118 P ltac:(auto)) as U1. set (c1 := set_phy_state PSend (set_cmd_id 118 c)) in *.
  assert (I1 : cpi c1) by (apply (cp_do_inv (Update e1) c c1 [] T1 I); unfold cp_do; rewrite U1; reflexivity).
  pose proof (ci_b c I) as B.
  assert (RM : 60 <= cmd_room c1) by (unfold cmd_room; pose proof (cp_hdr_len c1); change (tx_buf_size c1) with (tx_buf_size c); unfold zlen; cbn [length]; lia).
  assert (R8 : r8 (cp_random (sc c))) by apply (cv_ty c B).
  destruct (pan_send e2 c1 (cp_init c1) (118 :: cp_random (sc c)) 17 (if use_scbkd (fl c) then 0 else 1) I1 T2 eq_refl (hs_inactive c I (or_introl St)) eq_refl RC N TX) as (c2 & U2 & WC & PW & Q2).
  { change (build_cmd_switch e2 (cp_init c1) true (cmd_room c1)) with (assert_len 9 (cmd_room c1) (Ok (cp_init c1, Some (118 :: cp_random (sc c)), Some (17, if use_scbkd (fl c) then 0 else 1), @nil out))).
    unfold assert_len. replace (9 <? cmd_room c1) with true by lia. reflexivity. }
  { lia. } { rewrite zlen_cons. unfold zlen. rewrite (proj1 R8). lia. } { reflexivity. }
  exists c1, c2. split; [exact U1|].
  assert (E1 : tx_addr c1 = address c mod 128) by (unfold tx_addr; change (pd_mode (fl c1)) with (pd_mode (fl c)); rewrite (cv_mode c B); reflexivity).
  assert (E2 : tx_num c1 = seq_next (seqn c)) by (unfold tx_num; change (pd_mode (fl c1)) with (pd_mode (fl c)); rewrite (cv_mode c B); reflexivity).
  rewrite E1, E2 in U2. split; [exact U2|]. split; [|exact (f_equal (fun w => sc w) WC)].
  constructor.
  - eapply (cp_do_inv (Update e2) c1 c2); [exact T2|exact I1|]. unfold cp_do. rewrite U2. reflexivity.
  - exact Q2.
  - exact PW.
  - exact (f_equal (fun w => state w) WC).
  - exact (f_equal (fun w => cmd_id w) WC).
  - exact (f_equal (fun w => address w) WC).
  - exact (f_equal (fun w => seqn w) WC).
  - exact (f_equal (fun w => use_scbkd (fl w)) WC).
  - exact (f_equal (fun w => peer_rx w) WC).
  - exact (f_equal (fun w => rq_offline w) WC).
  - exact (f_equal ckeep WC).
Qed.

Lemma pan_scrypt e1 e2 c : cpi c -> env_typed e1 -> env_typed e2 -> state c = SScrypt -> phy_state c = PIdle -> rb_contents (rb c) = [] -> 69 <= tx_buf_size c -> 256 <= e_tx e2 ->
  let cc := crypt (s_enc (sc c)) (pd_random (sc c)) (cp_random (sc c)) in
  exists c1 c2, state_update e1 c = Ok (c1, CYield, []) /\
    state_update e2 c1 = Ok (c2, CInprog, [OTx (255 :: handshake_frame (address c mod 128) (seq_next (seqn c)) 19 (if use_scbkd (fl c) then 0 else 1) (119 :: cc))]) /\
    asked c c2 119 /\ sc c2 = cset_cp_crypt cc (sc c).
Proof.
  intros I T1 T2 St P RC N TX cc. pose proof (start_idle e1 c 119 P ltac:(auto)) as U1. set (c1 := set_phy_state PSend (set_cmd_id 119 c)) in *.
  assert (I1 : cpi c1) by (apply (cp_do_inv (Update e1) c c1 [] T1 I); unfold cp_do; rewrite U1; reflexivity).
  pose proof (ci_b c I) as B.
  assert (RM : 60 <= cmd_room c1) by (unfold cmd_room; pose proof (cp_hdr_len c1); change (tx_buf_size c1) with (tx_buf_size c); unfold zlen; cbn [length]; lia).
  assert (BC : blk cc). { destruct (cv_ty c B) as (_ & _ & _ & ((W0 & _) & W2 & W3 & W4 & W5 & _) & _). apply blk_crypt; assumption. }
  set (p2 := set_cp_crypt cc (cp_init c1)).
  destruct (pan_send e2 c1 p2 (119 :: cc) 19 (if use_scbkd (fl c) then 0 else 1) I1 T2 eq_refl (hs_inactive c I (or_intror St)) eq_refl RC N TX) as (c2 & U2 & WC & PW & Q2).
  { change (build_cmd_switch e2 (cp_init c1) true (cmd_room c1)) with (assert_len 17 (cmd_room c1) (Ok (p2, Some (119 :: cc), Some (19, if use_scbkd (fl c) then 0 else 1), @nil out))).
    unfold assert_len. replace (17 <? cmd_room c1) with true by lia. reflexivity. }
  { lia. } { rewrite zlen_cons. unfold zlen. rewrite (proj1 BC). lia. } { reflexivity. }
  exists c1, c2. split; [exact U1|].
  assert (E1 : tx_addr c1 = address c mod 128) by (unfold tx_addr; change (pd_mode (fl c1)) with (pd_mode (fl c)); rewrite (cv_mode c B); reflexivity).
  assert (E2 : tx_num c1 = seq_next (seqn c)) by (unfold tx_num; change (pd_mode (fl c1)) with (pd_mode (fl c)); rewrite (cv_mode c B); reflexivity).
  rewrite E1, E2 in U2. split; [exact U2|]. split; [|exact (f_equal (fun w => sc w) WC)].
  constructor.
  - eapply (cp_do_inv (Update e2) c1 c2); [exact T2|exact I1|]. unfold cp_do. rewrite U2. reflexivity.
  - exact Q2.
  - exact PW.
  - exact (f_equal (fun w => state w) WC).
  - exact (f_equal (fun w => cmd_id w) WC).
  - exact (f_equal (fun w => address w) WC).
  - exact (f_equal (fun w => seqn w) WC).
  - exact (f_equal (fun w => use_scbkd (fl w)) WC).
  - exact (f_equal (fun w => peer_rx w) WC).
  - exact (f_equal (fun w => rq_offline w) WC).
  - exact (f_equal ckeep WC).
Qed.
