(** CP: what becomes of a reply. *)
From Verif Require Import Base ListLemmas Crc SpecCrc CrcProofs CrcBurst Aes AesProofs Rb RbProofs
  Types Sc ScProofs Phy PhyCheck File Pd Cp SpecRx SpecFrame RxProofs PdRx PdCore PhyTx PdTx PdReply
  PdStep PdRun PdWire SpecCp CpTx.
From Coq Require Import ZifyBool ZifyNat.
Ltac Zify.zify_post_hook ::= Z.div_mod_to_equations.
Local Opaque aes_ecb_encrypt aes_cbc_encrypt aes_cbc_decrypt mac_of RB_SIZE.

(* the frame is BUSY: number 0 and nothing but the reply code *)
Definition f_busy (b : list Z) : Prop :=
  f_seq b = 0 /\ zlen b - trailer_len b = 6 /\ nth 5 b 0 = 121.

Lemma set_seqn_same p : set_seqn (seqn p) p = p.
Proof. destruct p; reflexivity. Qed.

Lemma cp_frame p b : pd_mode (fl p) = false -> skip_seq (fl p) = false ->
  bytes b -> 6 <= zlen b ->
  (~ f_intact b /\ check_packet_bytes p b = (p, KFmt)) \/
  (f_intact b /\ ~ f_mine (address p) b /\ check_packet_bytes p b = (p, KCheck)) \/
  (f_intact b /\ f_mine (address p) b /\ f_busy b /\
     check_packet_bytes p b = (set_seqn (seqn p - 1) p, KBusy)) \/
  (f_intact b /\ f_mine (address p) b /\ ~ f_busy b /\ f_seq b <> seqn p mod 4 /\
     check_packet_bytes p b = (nak 4 p, KNack)) \/
  (f_intact b /\ f_mine (address p) b /\ ~ f_busy b /\ f_seq b = seqn p mod 4 /\
     check_packet_bytes p b = (p, KNone)).
Proof.
  intros M SK B L. unfold check_packet_bytes.
  pose proof (check_crc_intact b B L) as X.
  destruct (check_crc b) as [n|]; [|left; auto]. destruct X as [I N]. right.
  cbv zeta. rewrite <- f_addr_ctl, <- f_seq_ctl, M.
  unfold f_mine. set (a := f_addr b) in *.
  destruct (negb (a =? address p) && negb (a =? 127)) eqn:Ea.
  { left. split; auto. split; [lia|auto]. }
  right. assert (Mine : a = address p \/ a = 127) by lia.
  unfold f_busy. change (getb b 5) with (nth 5 b 0). unfold REPLY_BUSY.
  destruct ((f_seq b =? 0) && (n =? 6) && (nth 5 b 0 =? 121)) eqn:EB.
  { left. split; auto. split; auto. split; [lia|reflexivity]. }
  right. unfold get_seq. cbv zeta. rewrite set_seqn_same, SK. cbn [negb]. rewrite andb_true_r, land3.
  destruct (seqn p mod 4 =? f_seq b) eqn:ES; cbn [negb].
  - right. split; auto. split; auto. split; [lia|]. split; [lia|auto].
  - left. split; auto. split; auto. split; [lia|]. split; [lia|auto].
Qed.

(* invariant of a PD entry without the fill level of the packet buffer *)
Record cbinv (p : pd) : Prop := {
  cv_mode : pd_mode (fl p) = false;
  cv_skip : skip_seq (fl p) = false;
  cv_rxb : rx_base p;
  cv_seq : -1 <= seqn p <= 3;
  cv_ty : pd_typed p;
  cv_cmdq : Forall cmd_typed (cmdq p)
}.

Lemma cbinv_rx p q : cbinv p -> rxcore q = rxcore p -> rx_base q -> cbinv q.
Proof.
  intros [A B C D E F] R X.
  assert (M : pd_mode (fl q) = pd_mode (fl p)) by exact (f_equal (fun x => pd_mode (fl x)) R).
  assert (M1 : skip_seq (fl q) = skip_seq (fl p)) by exact (f_equal (fun x => skip_seq (fl x)) R).
  assert (M2 : seqn q = seqn p) by exact (f_equal (fun x => seqn x) R).
  assert (M3 : cmdq q = cmdq p) by exact (f_equal (fun x => cmdq x) R).
  assert (M4 : reply_id q = reply_id p) by exact (f_equal (fun x => reply_id x) R).
  assert (M5 : eph q = eph p) by exact (f_equal (fun x => eph x) R).
  assert (M6 : caps q = caps p) by exact (f_equal (fun x => caps x) R).
  assert (M7 : sc q = sc p) by exact (f_equal (fun x => sc x) R).
  destruct E as (e1 & e2 & e3 & e4 & e5 & e6). pose proof X as (x1 & x2 & x3 & x4).
  constructor; rewrite ?M, ?M1, ?M2, ?M3; auto. apply mk_typed; rewrite ?M4, ?M5, ?M6, ?M7; auto.
Qed.

Lemma cbinv_nak c p : byte c -> cbinv p -> cbinv (nak c p).
Proof.
  intros Hc [A B C D E F]. destruct E as (e1 & e2 & e3 & e4 & e5 & e6). constructor; auto.
  apply mk_typed; auto. unfold byte; simpl; unfold REPLY_NAK; lia.
Qed.

Lemma cbinv_deact p : cbinv p -> cbinv (sc_deactivate p).
Proof. intros [A B C D E F]. constructor; auto. Qed.

Lemma cbinv_r_mac m p : blk m -> cbinv p -> cbinv (set_r_mac m p).
Proof.
  intros Hm [A B C D E F]. constructor; auto. destruct E as (e1 & e2 & e3 & e4 & e5 & e6). apply mk_typed; auto.
  apply (wf_r_mac (sc p)); auto.
Qed.

(* fields that decoding a reply packet never touches *)
Definition dcore (p : pd) : pd :=
  set_pbuf [] (set_reply_id 0 (set_eph EphNone (set_sc_active false (set_use_scbkd false (set_r_mac [] p))))).

(* SCBK-D is chosen by a handshake block with data byte 0 in install mode *)
Lemma cp_decode_packet p q r : cbinv p -> pblen p <= 256 -> decode_packet p = Ok (q, r) ->
  cbinv q /\ dcore q = dcore p /\
  (use_scbkd (fl q) = true -> use_scbkd (fl p) = true \/ install (fl p) = true) /\
  (use_scbkd (fl p) = true -> use_scbkd (fl q) = true) /\
  (sc_active (fl q) = true -> sc_active (fl p) = true) /\
  match r with
  | DData l => bytes l /\ l <> [] /\ zlen l <= 250 /\ reply_id q = reply_id p /\ eph q = eph p /\
               sc_active (fl q) = sc_active (fl p)
  | DErr _ => (reply_id q = reply_id p /\ eph q = eph p \/ reply_id q = 65)
  end.
Proof.
  intros I PL. pose proof I as [A B C D E F].
  unfold decode_packet. rewrite A. cbv zeta.
  set (b := from (pbuf p) (mark_len p)).
  assert (Bb : bytes b) by (apply bytes_skipn; apply E).
  assert (Lb : zlen b = 256 - mark_len p).
  { unfold b, from, zlen. rewrite skipn_length. destruct E as (_ & _ & _ & _ & -> & _).
    destruct (mark_len_cases p) as [-> | ->]; lia. }
  pose proof (mark_len_cases p) as ML.
  assert (B5 : byte (getb b 5)) by (apply bytes_getb; auto).
  set (len0 := pblen p - mark_len p - (if ctl_crc (getb b 4) then 2 else 1)).
  assert (L0 : len0 <= 255 - mark_len p) by (unfold len0; destruct (ctl_crc _); lia).
  assert (RD : forall off len, 5 <= off -> off + len <= 255 - mark_len p ->
     match ret_data b off len with DData l => bytes l /\ l <> [] /\ zlen l <= 250 | DErr _ => True end).
  { intros off len H1 H2. destruct (ret_data_cases b off len) as [(c & _ & _ & ->)|[H3 ->]]; auto.
    assert (LL : zlen (sub b off len) = len) by (apply zlen_sub; lia).
    split; [apply bytes_sub; auto|]. split; [|lia]. intros X. apply (f_equal zlen) in X.
    change (zlen (@nil Z)) with 0 in X. lia. }
  assert (NK : forall c q1 r1, byte c -> Ok (nak c p, DErr (-6)) = Ok (q1, r1) -> cbinv q1 /\ dcore q1 = dcore p /\
    (use_scbkd (fl q1) = true -> use_scbkd (fl p) = true \/ install (fl p) = true) /\
    (use_scbkd (fl p) = true -> use_scbkd (fl q1) = true) /\
    (sc_active (fl q1) = true -> sc_active (fl p) = true) /\
    match r1 with
    | DData l => bytes l /\ l <> [] /\ zlen l <= 250 /\ reply_id q1 = reply_id p /\ eph q1 = eph p /\
                 sc_active (fl q1) = sc_active (fl p)
    | DErr _ => (reply_id q1 = reply_id p /\ eph q1 = eph p \/ reply_id q1 = 65)
    end).
  { intros c q1 r1 Hc X. inv X. split; [apply cbinv_nak; auto|]. split; [reflexivity|]. split; [auto|]. split; [auto|]. split; [auto|]. right; reflexivity. }
  assert (K6 : byte 6) by (unfold byte; lia).
  destruct (ctl_scb (getb b 4)).
  - cbn [andb].
    destruct ((getb b 6 <? SCS_11) || (getb b 6 >? SCS_18)); [apply NK; auto|].
    destruct (negb (sc_active (fl p)) && (getb b 6 >? SCS_14)); [apply NK; auto|].
    set (cond := ((getb b 6 =? SCS_11) || (getb b 6 =? SCS_13)) && install (fl p) && (getb b 7 =? 0)).
    set (p1 := if cond then set_use_scbkd true p else p).
    assert (I1 : cbinv p1 /\ (use_scbkd (fl p1) = true -> use_scbkd (fl p) = true \/ install (fl p) = true)).
    { unfold p1. destruct cond eqn:EC; [|auto]. split; [constructor; auto|]. intros _. right. unfold cond in EC.
      apply andb_true_iff in EC as [EC _]. apply andb_true_iff in EC as [_ EC]. exact EC. }
    assert (F1 : mark_len p1 = mark_len p /\ pbuf p1 = pbuf p /\ dcore p1 = dcore p /\ sc_active (fl p1) = sc_active (fl p) /\
       reply_id p1 = reply_id p /\ eph p1 = eph p /\ (use_scbkd (fl p) = true -> use_scbkd (fl p1) = true)).
    { unfold p1. destruct cond; repeat split; auto. }
    clearbody p1. clear cond. destruct I1 as [I1 U1]. destruct F1 as (M1 & P1 & DC1 & A1 & R1 & E1 & V1).
    destruct (sc_active (fl p) && (SCS_15 <=? getb b 6)).
    2:{ intros X; inv X. split; auto. split; auto. split; auto. split; auto. split; [congruence|].
        assert (RDx := RD (5 + getb b 5) (len0 - 5 - getb b 5) ltac:(unfold byte in B5; lia) ltac:(lia)).
        destruct (ret_data _ _ _); [auto|]. intuition auto. }
    unfold decode_secure. rewrite (cv_mode p1 I1). cbv zeta.
    unfold compute_mac. destruct (zlen (firstn (Z.to_nat (len0 - 4)) b) =? 0) eqn:EZ; cbn [bind]; [discriminate|].
    set (mc := mac_of _ _ _ _).
    assert (Bm : blk mc).
    { unfold mc. pose proof (cv_ty p1 I1) as (_ & _ & _ & ((Y1 & Y2 & Y3 & Y4 & Y5) & _) & _). apply blk_mac_of; auto.
      - intros X. rewrite X in EZ. discriminate.
      - apply bytes_firstn; auto. }
    pose proof (cbinv_r_mac mc p1 Bm I1) as I2.
    set (p2 := set_r_mac mc p1) in *.
    assert (F2 : mark_len p2 = mark_len p /\ pbuf p2 = pbuf p /\ dcore p2 = dcore p /\ sc_active (fl p2) = sc_active (fl p) /\
       reply_id p2 = reply_id p /\ eph p2 = eph p /\ (use_scbkd (fl p) = true -> use_scbkd (fl p2) = true) /\
       (use_scbkd (fl p2) = true -> use_scbkd (fl p) = true \/ install (fl p) = true)).
    { repeat split; auto. }
    clearbody p2. destruct F2 as (M2 & P2 & DC2 & A2 & R2 & E2 & V2 & U2).
    assert (NK2 : forall q1 r1, Ok (nak 6 (sc_deactivate p2), DErr (-6)) = Ok (q1, r1) -> cbinv q1 /\ dcore q1 = dcore p /\
      (use_scbkd (fl q1) = true -> use_scbkd (fl p) = true \/ install (fl p) = true) /\
      (use_scbkd (fl p) = true -> use_scbkd (fl q1) = true) /\
      (sc_active (fl q1) = true -> sc_active (fl p) = true) /\
      match r1 with
      | DData l => bytes l /\ l <> [] /\ zlen l <= 250 /\ reply_id q1 = reply_id p /\ eph q1 = eph p /\
                   sc_active (fl q1) = sc_active (fl p)
      | DErr _ => (reply_id q1 = reply_id p /\ eph q1 = eph p \/ reply_id q1 = 65)
      end).
    { intros q1 r1 X. inv X. split; [apply cbinv_nak; auto; apply cbinv_deact; auto|]. split; [exact DC2|]. split; [exact U2|].
      split; [exact V2|]. split; [discriminate|]. right; reflexivity. }
    dif; [apply NK2|].
    set (off := 5 + getb b 5).
    set (len2 := len0 - 5 - getb b 5).
    assert (OL : 5 <= off /\ off + len2 = len0) by (unfold off, len2, byte in *; lia).
    destruct OL as [OL1 OL2]. clearbody off len2.
    dif.
    + dif; [discriminate|]. dif; [apply NK2|].
      destruct (decrypt_data false (allow_empty (fl p2)) (sc p2) (sub b (off + 1) (len2 - 4 - 1))) as [[d m]|] eqn:DD; [|apply NK2].
      pose proof (cv_ty p2 I2) as (Y1 & Y2 & Y3 & Y4 & Y5 & Y6).
      destruct Y4 as ((Z1 & Z2 & Z3 & Z4 & Z5) & Z6).
      apply decrypt_data_ok in DD as (D1 & D2 & D3); auto.
      2:{ apply bytes_sub; auto. }
      assert (Ld : zlen d = len2 - 5).
      { rewrite D2, zlen_sub by lia. lia. }
      intros X. inv X.
      assert (LBL : length (blit (pbuf p2) (mark_len p2 + off + 1) d) = 256%nat).
      { rewrite blit_length; auto. lia. unfold zlen. rewrite Y5. unfold zlen in Ld. lia. }
      assert (BBL : bytes (blit (pbuf p2) (mark_len p2 + off + 1) d)) by (apply bytes_blit; auto).
      split; [|split; [exact DC2|split; [exact U2|split; [exact V2|split; [simpl; congruence|split; [|split; [discriminate|]]]]]]].
      * destruct I2 as [a2 b2 c2 d2 e2 f2]. constructor; auto.
        -- destruct c2 as (c3 & c4 & c5 & c6). split; auto.
        -- apply mk_typed; auto. split; auto. repeat split; auto; apply Z1 || apply Z2 || apply Z3 || apply Z4 || apply Z5.
      * constructor; [apply bytes_getb; auto|apply bytes_firstn; auto].
      * split; [|auto]. rewrite zlen_cons. unfold zlen in *. rewrite firstn_length. lia.
    + intros X; inv X. split; auto. split; auto. split; auto. split; auto. split; [congruence|].
      assert (RDx := RD off (len2 - 4) OL1 ltac:(lia)). destruct (ret_data _ _ _); [auto|]. intuition auto.
  - destruct (sc_active (fl p) && _ && _) eqn:AC; [apply NK; auto|].
    intros X; inv X. split; auto. split; auto. split; auto. split; auto. split; [auto|].
    assert (RDx := RD 5 (len0 - 5) ltac:(lia) ltac:(lia)). destruct (ret_data _ _ _); [auto|]. intuition auto.
Qed.

(* fields that the reply decoder never touches *)
Definition clear_sc (s : schan) : schan :=
  mkSc (scbk s) [] [] [] [] (c_mac s) (cp_random s) [] [] (cp_crypt s) [].
Definition rcore (p : pd) : pd :=
  set_sc (clear_sc (sc p)) (set_reply_id 0 (set_eph EphNone (set_rq_event false (set_rq_offline false
    (set_pid (pid pd_zero) (set_caps [] (set_peer_rx 0 (set_sc_capable false (set_baud 0 (set_address 0
      (set_file None p))))))))))).

Lemma read_caps_typed f : forall b cs, bytes b -> Forall cap_typed cs -> Forall cap_typed (read_caps f b cs).
Proof.
  induction f as [|f IH]; intros b cs B C; cbn [read_caps]; auto.
  destruct b as [|x [|y [|z t]]]; auto. dif; auto.
  inversion B as [|? ? B0 B1]; subst. inversion B1 as [|? ? B2 B3]; subst. inversion B3 as [|? ? B4 B5]; subst.
  apply IH; auto.
  apply Forall_upd; auto. split; auto.
Qed.

(* what a reply does to the secure channel data *)
Definition sc_rel (p0 q : pd) (l : list Z) (r : cperr) : Prop :=
  sc q = sc p0 \/
  (getb l 0 = 118 /\ sc_active (fl p0) = false /\ cmd_id p0 = 118 /\ zlen l = 33 /\
   sc q = sc (compute_session_keys (set_pd_crypt (sub (from l 1) 16 16) (set_pd_random (sub (from l 1) 8 8)
                (set_client_uid (sub (from l 1) 0 8) p0)))) /\
   (r = CNone /\ pd_crypt (sc q) = pd_cryptogram_of (sc q) \/ r = CGeneric)) \/
  (getb l 0 = 120 /\ sc_active (fl p0) = false /\ cmd_id p0 = 119 /\ zlen l = 17 /\ r = CNone /\
   sc q = cset_r_mac (from l 1) (sc p0)).

Record resp_rel (e : env) (p0 q : pd) (l : list Z) (r : cperr) (o : list out) : Prop := {
  rr_core : rcore q = rcore p0;
  rr_id : reply_id q = getb l 0;
  rr_kind : r = CNone \/ r = CGeneric \/ r = CRetry /\ getb l 0 = 121 \/ r = CUnknown;
  rr_out : no_tx o;
  rr_sc : sc_rel p0 q l r;
  rr_addr : getb l 0 <> 84 -> address q = address p0 /\ baud q = baud p0;
  rr_ev : (rq_event q = rq_event p0 /\ eph q = eph p0) \/ (r = CNone /\ rq_event q = true /\ exists ev, eph q = EphEv ev);
  rr_off : getb l 0 <> 122 -> rq_offline q = rq_offline p0 /\ file q = file p0 /\ o = [];
  rr_cap : getb l 0 <> 70 -> sc_capable (fl q) = sc_capable (fl p0) /\ peer_rx q = peer_rx p0 /\ caps q = caps p0;
  rr_pid : getb l 0 <> 69 -> pid q = pid p0
}.

Lemma resp_plain e p0 l r : r = CNone \/ r = CGeneric \/ r = CRetry /\ getb l 0 = 121 \/ r = CUnknown ->
  resp_rel e p0 (set_reply_id (getb l 0) p0) l r [].
Proof. intros K. constructor; auto; try apply no_tx_nil; try (left; reflexivity). Qed.

Lemma resp_event e p0 l ev : resp_rel e p0 (got_event ev (set_reply_id (getb l 0) p0)) l CNone [].
Proof. constructor; auto; try apply no_tx_nil; try (left; reflexivity). right. split; auto. split; [reflexivity|eexists; reflexivity]. Qed.

Lemma file_stat_rel e p d q b o : file_stat_decode e p d = Ok (q, b, o) ->
  (q = p \/ exists f, q = set_file (Some f) p \/ q = set_rq_offline true (set_file (Some f) p)) /\ no_tx o.
Proof.
  unfold file_stat_decode. destruct (file p) as [f|]; [|intros H; inv H; split; [auto|apply no_tx_nil]].
  dif; [intros H; inv H; split; [auto|apply no_tx_nil]|].
  dif; [intros H; inv H; split; [auto|apply no_tx_nil]|].
  dif; [discriminate|]. dif; [discriminate|]. cbv zeta.
  dif; [intros H; inv H; split; [eauto|apply no_tx_nil]|].
  assert (N : forall b : bool, no_tx (if b then [OFClose] else [])) by (intros [|] x X; simpl in X; intuition discriminate).
  dif; [intros H; inv H; split; eauto|]. dif; [intros H; inv H; split; eauto|]. dif; intros H; inv H; split; eauto.
Qed.

Lemma resp_file e p0 l f r o x : x = set_file f (set_reply_id (getb l 0) p0) \/ x = set_rq_offline true (set_file f (set_reply_id (getb l 0) p0)) ->
  getb l 0 = 122 -> no_tx o -> r = CNone \/ r = CGeneric -> resp_rel e p0 x l r o.
Proof.
  intros X G N K. assert (R : rcore x = rcore p0) by (destruct X as [->| ->]; reflexivity).
  constructor; auto; try (destruct X as [->| ->]; auto; fail).
  - tauto.
  - left. destruct X as [->| ->]; reflexivity.
  - rewrite G. congruence.
Qed.

Definition keys_of (b : bool) (s : schan) : schan :=
  let k := session_base_key b s in
  let r := cp_random s in
  cset_s_mac2 (aes_ecb_encrypt k (session_block 1 2 r))
    (cset_s_mac1 (aes_ecb_encrypt k (session_block 1 1 r)) (cset_s_enc (aes_ecb_encrypt k (session_block 1 130 r)) s)).

Lemma keys_of_eq p : compute_session_keys p = set_sc (keys_of (use_scbkd (fl p)) (sc p)) p.
Proof. destruct p; reflexivity. Qed.

Lemma ccrypt_facts p0 c a b d : let p1 := compute_session_keys (set_pd_crypt a (set_pd_random b (set_client_uid d (set_reply_id c p0)))) in
  (rcore p1 = rcore p0 /\ reply_id p1 = c /\ address p1 = address p0 /\ baud p1 = baud p0 /\ rq_event p1 = rq_event p0 /\
       eph p1 = eph p0 /\ rq_offline p1 = rq_offline p0 /\ file p1 = file p0 /\ fl p1 = fl p0 /\ peer_rx p1 = peer_rx p0 /\ caps p1 = caps p0 /\ pid p1 = pid p0) /\
  sc p1 = sc (compute_session_keys (set_pd_crypt a (set_pd_random b (set_client_uid d p0)))).
Proof.
  cbv zeta. rewrite !keys_of_eq.
  set (s0 := cset_pd_crypt a (cset_pd_random b (cset_client_uid d (sc p0)))).
  change (sc (set_pd_crypt a (set_pd_random b (set_client_uid d (set_reply_id c p0))))) with s0.
  change (sc (set_pd_crypt a (set_pd_random b (set_client_uid d p0)))) with s0.
  change (use_scbkd (fl (set_pd_crypt a (set_pd_random b (set_client_uid d (set_reply_id c p0)))))) with (use_scbkd (fl p0)).
  change (use_scbkd (fl (set_pd_crypt a (set_pd_random b (set_client_uid d p0))))) with (use_scbkd (fl p0)).
  assert (C : clear_sc (keys_of (use_scbkd (fl p0)) s0) = clear_sc (sc p0)).
  { unfold keys_of. cbv zeta. generalize (session_base_key (use_scbkd (fl p0)) s0). intros k.
    generalize (aes_ecb_encrypt k (session_block 1 2 (cp_random s0))) (aes_ecb_encrypt k (session_block 1 1 (cp_random s0)))
      (aes_ecb_encrypt k (session_block 1 130 (cp_random s0))). intros. reflexivity. }
  revert C. generalize (keys_of (use_scbkd (fl p0)) s0). intros k C. split; [|reflexivity].
  split; [|repeat split]. unfold rcore. simpl sc. rewrite C. reflexivity.
Qed.

Lemma decode_response_rel e p0 l q r o : decode_response e p0 l = Ok (q, r, o) -> 1 <= zlen l ->
  resp_rel e p0 q l r o.
Proof.
  unfold decode_response. cbv zeta. set (c := getb l 0). set (d := from l 1). intros H L.
  assert (ZD : zlen d = zlen l - 1) by (unfold d, from, zlen in *; rewrite skipn_length; lia).
  assert (BAD : forall q r o, Ok (set_reply_id c p0, CGeneric, []) = Ok (q, r, o) -> resp_rel e p0 q l r o).
  { intros ? ? ? X. inv X. apply resp_plain; auto. }
  assert (FINE : forall q r o, Ok (set_reply_id c p0, CNone, []) = Ok (q, r, o) -> resp_rel e p0 q l r o).
  { intros ? ? ? X. inv X. apply resp_plain; auto. }
  assert (EV : forall ev q r o, Ok (got_event ev (set_reply_id c p0), CNone, []) = Ok (q, r, o) -> resp_rel e p0 q l r o).
  { intros ? ? ? ? X. inv X. apply resp_event. }
  assert (MASK : forall fc ty, dec_mask (set_reply_id c p0) fc ty d = Ok (q, r, o) -> resp_rel e p0 q l r o).
  { intros fc ty. unfold dec_mask. dif; [apply BAD|apply EV]. }
  revert H.
  dif; [dif; [apply BAD|apply FINE]|].
  dif; [dif; [apply BAD|apply FINE]|].
  dif. { dif; [apply BAD|]. intros H; inv H. constructor; auto; try apply no_tx_nil; try (left; reflexivity). intros X; fold c in X; unfold REPLY_PDID in *; lia. }
  dif. { dif; [apply BAD|]. intros H; inv H.
    assert (X : exists cs rx b, read_pdcap (set_reply_id c p0) d = set_sc_capable b (set_peer_rx rx (set_caps cs (set_reply_id c p0)))).
    { unfold read_pdcap. cbv zeta. dif.
      - eexists; eexists; eexists. reflexivity.
      - eexists; exists (peer_rx p0); eexists. instantiate (1 := read_caps (length d) d (caps (set_reply_id c p0))).
        instantiate (1 := Z.testbit (c_comp (cap_at (set_caps (read_caps (length d) d (caps (set_reply_id c p0))) (set_reply_id c p0)) CAP_COMMSEC)) 0). reflexivity. }
    destruct X as (cs & rx & b & ->).
    constructor; auto; try apply no_tx_nil; try (left; reflexivity). intros X; fold c in X; unfold REPLY_PDCAP in *; lia. }
  dif; [apply MASK|]. dif; [apply MASK|].
  dif; [dif; [apply BAD|apply EV]|]. dif; [dif; [apply BAD|apply EV]|].
  dif. { dif; [apply BAD|]. intros H; inv H. constructor; auto; try apply no_tx_nil; try (left; reflexivity). intros X; fold c in X; unfold REPLY_COM in *; lia. }
  dif. { dif; [apply BAD|]. dif; [apply BAD|]. dif; [discriminate|]. apply EV. }
  dif. { dif; [apply BAD|]. dif; [apply BAD|]. dif; [discriminate|]. apply EV. }
  dif; [apply FINE|].
  dif. { dif; [apply BAD|]. intros H; inv H. apply resp_plain. right. right. left. fold c. unfold REPLY_BUSY in *. split; auto. lia. }
  dif. { dif; [apply BAD|]. dif; [apply BAD|]. apply EV. }
  dif. { destruct (file_stat_decode e (set_reply_id c p0) d) as [[[p1 b] o1]| |] eqn:FS; cbn [bind]; try discriminate.
    apply file_stat_rel in FS as [FS N].
    assert (C : getb l 0 = 122) by (apply Z.eqb_eq in Heqb13; exact Heqb13).
    intros H. assert (X : q = p1 /\ o = o1 /\ (r = CNone \/ r = CGeneric)) by (destruct b; inv H; auto).
    destruct X as (-> & -> & K). destruct FS as [->|(f & FS)].
    - apply (resp_file e p0 l (file p0)); auto.
    - eapply (resp_file e p0 l (Some f)); auto. }
  dif. { dif; [apply BAD|]. dif; [apply BAD|].
    set (p1 := compute_session_keys _).
    destruct (ccrypt_facts p0 c (sub d 16 16) (sub d 8 8) (sub d 0 8)) as [P1 S1]. fold p1 in P1, S1. clearbody p1.
    destruct P1 as (c1 & c2 & c3 & c4 & c5 & c6 & c7 & c8 & c9 & c10 & c11 & c12).
    assert (SR : forall r0, (r0 = CNone /\ pd_crypt (sc p1) = pd_cryptogram_of (sc p1) \/ r0 = CGeneric) -> sc_rel p0 p1 l r0).
    { intros r0 K. right. left. fold c. apply orb_false_iff in Heqb15 as [X1 X2].
      apply Z.eqb_eq in Heqb14. apply negb_false_iff, Z.eqb_eq in X2. apply negb_false_iff, Z.eqb_eq in Heqb16.
      split; [exact Heqb14|]. split; [exact X1|]. split; [exact X2|].
      split; [clear - Heqb16 ZD; lia|]. split; [exact S1|exact K]. }
    assert (RR : forall r0, (r0 = CNone /\ pd_crypt (sc p1) = pd_cryptogram_of (sc p1) \/ r0 = CGeneric) -> resp_rel e p0 p1 l r0 []).
    { intros r0 K. constructor; auto; try apply no_tx_nil; try tauto. rewrite c9. auto. }
    unfold verify_pd_cryptogram.
    destruct (eqb_bytes (pd_crypt (sc p1)) (pd_cryptogram_of (sc p1))) eqn:EV2; intros H; inv H; apply RR; auto.
    left. split; auto. apply eqb_bytes_eq; auto. }
  dif. { dif; [apply BAD|]. dif; [apply BAD|]. intros H; inv H.
    constructor; auto; try apply no_tx_nil.
    right. right. fold c d. apply orb_false_iff in Heqb16 as [X1 X2].
    apply Z.eqb_eq in Heqb15. apply negb_false_iff, Z.eqb_eq in X2. apply negb_false_iff, Z.eqb_eq in Heqb17.
    split; [exact Heqb15|]. split; [exact X1|]. split; [exact X2|].
    split; [clear - Heqb17 ZD; lia|]. split; reflexivity. }
  intros H; inv H. apply resp_plain; auto.
Qed.

Lemma decode_response_inv e p0 l q r o : decode_response e p0 l = Ok (q, r, o) -> bytes l -> 1 <= zlen l <= 250 ->
  cbinv p0 -> cbinv q.
Proof.
  intros H B L I. pose proof (decode_response_rel _ _ _ _ _ _ H ltac:(lia)) as R.
  pose proof (rr_core _ _ _ _ _ _ R) as RC. pose proof I as [A B0 C D E F].
  assert (M : pd_mode (fl q) = pd_mode (fl p0)) by exact (f_equal (fun x => pd_mode (fl x)) RC).
  assert (M1 : skip_seq (fl q) = skip_seq (fl p0)) by exact (f_equal (fun x => skip_seq (fl x)) RC).
  assert (M2 : seqn q = seqn p0) by exact (f_equal (fun x => seqn x) RC).
  assert (M3 : cmdq q = cmdq p0) by exact (f_equal (fun x => cmdq x) RC).
  assert (M4 : pbuf q = pbuf p0) by exact (f_equal (fun x => pbuf x) RC).
  assert (M5 : rb q = rb p0) by exact (f_equal (fun x => rb x) RC).
  destruct E as (e1 & e2 & e3 & e4 & e5 & e6). destruct C as (x1 & x2 & x3 & x4).
  constructor; rewrite ?M, ?M1, ?M2, ?M3; auto; [unfold rx_base; rewrite M4, M5; auto|].
  assert (Bd : bytes (from l 1)) by (apply bytes_from; auto).
  assert (Ld : zlen (from l 1) = zlen l - 1) by (unfold from, zlen in *; rewrite skipn_length; lia).
  apply mk_typed; rewrite ?M4; auto.
  - rewrite (rr_id _ _ _ _ _ _ R). apply bytes_getb; auto.
  - revert H. clear R RC M M1 M2 M3 M4 M5. unfold decode_response. cbv zeta. set (c := getb l 0). set (d := from l 1) in *.
    assert (BAD : forall k, Ok (set_reply_id c p0, k, []) = Ok (q, r, o) -> eph_typed (eph q)) by (intros k X; inv X; auto).
    assert (EV : forall ev, ev_typed ev -> Ok (got_event ev (set_reply_id c p0), CNone, []) = Ok (q, r, o) -> eph_typed (eph q)) by (intros ev T X; inv X; exact T).
    assert (MASK : forall fc ty, dec_mask (set_reply_id c p0) fc ty d = Ok (q, r, o) -> eph_typed (eph q)).
    { intros fc ty. unfold dec_mask. dif; [apply BAD|apply EV; exact Logic.I]. }
    dif; [dif; apply BAD|]. dif; [dif; apply BAD|].
    dif; [dif; [apply BAD|intros H; inv H; auto]|].
    dif; [dif; [apply BAD|intros H; inv H; auto]|].
    { unfold read_pdcap. cbv zeta. dif; auto. }
    dif; [apply MASK|]. dif; [apply MASK|].
    dif; [dif; [apply BAD|apply EV; exact Logic.I]|]. dif; [dif; [apply BAD|apply EV; exact Logic.I]|].
    dif; [dif; [apply BAD|intros H; inv H; auto]|].
    dif; [dif; [apply BAD|dif; [apply BAD|dif; [discriminate|apply EV]]]|].
    { split; [apply bytes_from; auto|]. unfold from at 1, zlen. rewrite skipn_length. unfold zlen in *. lia. }
    dif; [dif; [apply BAD|dif; [apply BAD|dif; [discriminate|apply EV]]]|].
    { split; [apply bytes_from; auto|]. unfold from at 1, zlen. rewrite skipn_length. unfold zlen in *. lia. }
    dif; [apply BAD|]. dif; [dif; apply BAD|].
    dif; [dif; [apply BAD|dif; [apply BAD|apply EV]]|].
    { split; [apply bytes_from; auto|]. repeat match goal with X : (_ =? _) = false |- _ => clear X end. clear BAD EV MASK.
      unfold from at 1, zlen. rewrite skipn_length. unfold u8 in *. unfold zlen in *. lia. }
    dif. { destruct (file_stat_decode e (set_reply_id c p0) d) as [[[p1 b] o1]| |] eqn:FS; cbn [bind]; try discriminate.
      apply file_stat_rel in FS as [FS N]. intros H. assert (X : q = p1) by (destruct b; inv H; auto). subst q.
      destruct FS as [->|(f & [->| ->])]; auto. }
    dif; [dif; [apply BAD|dif; [apply BAD|dif; intros H; inv H; auto]]|].
    dif; [dif; [apply BAD|dif; [apply BAD|intros H; inv H; auto]]|].
    apply BAD.
  - destruct (Z.eq_dec (getb l 0) 70) as [C70|C70]; [|rewrite (proj2 (proj2 (rr_cap _ _ _ _ _ _ R C70))); auto].
    revert H. unfold decode_response. cbv zeta. rewrite C70. change (70 =? REPLY_ACK) with false. change (70 =? REPLY_NAK) with false.
    change (70 =? REPLY_PDID) with false. change (70 =? REPLY_PDCAP) with true. cbv iota. dif; intros H; inv H; auto.
    unfold read_pdcap. cbv zeta. set (cs := read_caps _ _ _). assert (T : Forall cap_typed cs) by (apply read_caps_typed; auto).
    clearbody cs. dif; auto.
  - destruct (rr_sc _ _ _ _ _ _ R) as [->|[(_ & _ & _ & L33 & -> & _)|(_ & _ & _ & L17 & _ & ->)]]; auto.
    + apply sc_wf_keys. 
      assert (T8 : forall o, 0 <= o -> o + 8 <= 32 -> r8 (sub (from l 1) o 8)).
      { intros o0 O1 O2. split; [|apply bytes_sub; auto]. assert (X : zlen (sub (from l 1) o0 8) = 8) by (apply zlen_sub; lia). unfold zlen in X. lia. }
      apply (wf_pd_crypt (sc (set_pd_random (sub (from l 1) 8 8) (set_client_uid (sub (from l 1) 0 8) p0)))).
      * apply (wf_pd_random (sc (set_client_uid (sub (from l 1) 0 8) p0))); [|apply T8; lia].
        destruct e4 as (w1 & w2 & w3 & w4 & w5 & w6). repeat split; try apply w1; try apply w2; try apply w3; try apply w4; try apply w6; apply T8; lia.
      * split; [|apply bytes_sub; auto]. assert (X : zlen (sub (from l 1) 16 16) = 16) by (apply zlen_sub; lia). unfold zlen in X. lia.
    + apply wf_r_mac; auto. split; auto. unfold zlen in *. lia.
Qed.

(* what becomes of a complete frame in the packet buffer of p1 *)
Inductive frame_case (e : env) (p1 q : pd) : cperr -> list out -> Prop :=
| FC_bad : ~ f_intact (frame_of p1) \/ ~ f_mine (address p1) (frame_of p1) -> q = p1 -> frame_case e p1 q CGeneric []
| FC_busy : f_intact (frame_of p1) -> f_mine (address p1) (frame_of p1) -> f_busy (frame_of p1) ->
    q = set_seqn (seqn p1 - 1) p1 -> frame_case e p1 q CRetry []
| FC_seq : f_intact (frame_of p1) -> f_mine (address p1) (frame_of p1) -> ~ f_busy (frame_of p1) ->
    f_seq (frame_of p1) <> seqn p1 mod 4 -> q = nak 4 p1 -> frame_case e p1 q CGeneric []
| FC_dec k : f_intact (frame_of p1) -> f_mine (address p1) (frame_of p1) -> ~ f_busy (frame_of p1) ->
    f_seq (frame_of p1) = seqn p1 mod 4 -> decode_packet p1 = Ok (q, DErr k) -> frame_case e p1 q CGeneric []
| FC_data p2 l r o : f_intact (frame_of p1) -> f_mine (address p1) (frame_of p1) -> ~ f_busy (frame_of p1) ->
    f_seq (frame_of p1) = seqn p1 mod 4 -> decode_packet p1 = Ok (p2, DData l) ->
    decode_response e p2 l = Ok (q, r, o) -> frame_case e p1 q r o.

(* what becomes of the bytes that arrived *)
Inductive reply_case (e : env) (p q : pd) : cperr -> list out -> Prop :=
| RC_none k : no_frame e p q k -> k = KWait \/ k = KNoData -> (rx_sync p -> rx_sync q) -> reply_case e p q CNoData []
| RC_head k : no_frame e p q k -> k = KFmt \/ k = KSkip -> check_header_bytes q = inl k -> reply_case e p q CGeneric []
| RC_frame p1 r o : got_frame e p p1 -> (rx_sync p -> rx_sync p1) -> frame_case e p1 q r o -> reply_case e p q r o.

Lemma process_reply_case e p q r o : pd_mode (fl p) = false -> skip_seq (fl p) = false -> rx_wf p -> Forall bytes (e_rx e) ->
  process_reply e p = Ok (q, r, o) -> reply_case e p q r o.
Proof.
  intros M SK W He H. unfold process_reply in H.
  destruct (check_packet_cases e p W He) as [(U & _)|[(p1 & k & E & N & S & HK)|(p1 & E & G & S & _)]].
  - rewrite U in H. discriminate.
  - rewrite E in H. cbn [bind] in H. pose proof N as (_ & _ & _ & _ & K).
    destruct k; try contradiction; inv H.
    + eapply RC_head; eauto.
    + eapply RC_none; eauto.
    + eapply RC_head; eauto.
    + eapply RC_none; eauto.
  - rewrite E in H. cbn [bind] in H. eapply RC_frame; eauto.
    pose proof G as (R & [(_ & _ & Lb & Bb) _] & _ & PL & PR & _ & _ & ZL).
    assert (M1 : pd_mode (fl p1) = false) by (rewrite (rxcore_pd_mode _ _ R); auto).
    assert (S1 : skip_seq (fl p1) = false) by (rewrite <- SK; exact (f_equal (fun x => skip_seq (fl x)) R)).
    assert (BF : bytes (frame_of p1)) by (apply bytes_sub; auto).
    assert (L6 : 6 <= zlen (frame_of p1)) by (destruct G as (_ & _ & _ & _ & _ & _ & (_ & _ & _ & F) & _); apply F).
    destruct (cp_frame p1 (frame_of p1) M1 S1 BF L6) as
      [(I & X)|[(I & Mi & X)|[(I & Mi & B & X)|[(I & Mi & B & Q & X)|(I & Mi & B & Q & X)]]]]; rewrite X in H.
    + inv H. apply FC_bad; auto.
    + inv H. apply FC_bad; auto.
    + inv H. apply FC_busy; auto.
    + inv H. apply FC_seq; auto.
    + destruct (decode_packet p1) as [[p2 [k|l]]| |] eqn:D; cbn [bind] in H; try discriminate.
      * inv H. eapply FC_dec; eauto.
      * eapply FC_data; eauto.
Qed.
