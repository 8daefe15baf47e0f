(** PD: invariant of the device and complete case analysis of one refresh. *)
From Verif Require Import Base ListLemmas Crc SpecCrc CrcProofs CrcBurst Aes AesProofs Rb RbProofs
  Types Sc ScProofs Phy PhyCheck File Pd SpecRx SpecFrame RxProofs PdRx PdCore PhyTx PdTx PdReply.
From Coq Require Import ZifyBool ZifyNat.
Ltac Zify.zify_post_hook ::= Z.div_mod_to_equations.
Local Opaque aes_ecb_encrypt aes_cbc_encrypt aes_cbc_decrypt mac_of.

(* what the C types promise about the environment *)
Record env_ok (e : env) : Prop := {
  eo_rx : Forall bytes (e_rx e);
  eo_rand : bytes (e_rand e);
  eo_cb : forall n c, cmd_typed c -> cmd_typed (snd (e_cb e n c))
}.

(* invariant without the fill level of the packet buffer *)
Record binv (p : pd) : Prop := {
  iv_mode : pd_mode (fl p) = true;
  iv_skip : skip_seq (fl p) = false;
  iv_rxb : rx_base p;
  iv_seq : -1 <= seqn p <= 3;
  iv_ty : pd_typed p;
  iv_caps : length (caps p) = 17%nat;
  iv_evq : Forall ev_typed (evq p);
  iv_scap : sc_capable (fl p) = true /\ sc_disabled (fl p) = false;
  iv_dflt : use_scbkd (fl p) = true -> install (fl p) = true
}.

Record pd_inv (p : pd) : Prop := { iv_b : binv p; iv_fill : rx_fill p; iv_sync : rx_sync p }.

Ltac fld H f := let X := fresh "X" in pose proof (f_equal f H) as X; cbv beta in X.

Lemma binv_rx p q : binv p -> rxcore q = rxcore p -> rx_base q -> binv q.
Proof.
  intros [A B C D E F G H I] R Q.
  assert (sc_disabled (fl q) = sc_disabled (fl p)) by exact (f_equal (fun x => sc_disabled (fl x)) R).
  assert (sc_capable (fl q) = sc_capable (fl p)) by exact (f_equal (fun x => sc_capable (fl x)) R).
  assert (use_scbkd (fl q) = use_scbkd (fl p)) by exact (f_equal (fun x => use_scbkd (fl x)) R).
  assert (install (fl q) = install (fl p)) by exact (f_equal (fun x => install (fl x)) R).
  assert (Hs : sc q = sc p) by exact (f_equal (fun x => sc x) R).
  assert (Hc : caps q = caps p) by exact (f_equal (fun x => caps x) R).
  assert (He : evq q = evq p) by exact (f_equal (fun x => evq x) R).
  assert (Hi : reply_id q = reply_id p) by exact (f_equal (fun x => reply_id x) R).
  assert (Hp : eph q = eph p) by exact (f_equal (fun x => eph x) R).
  assert (Hq : seqn q = seqn p) by exact (f_equal (fun x => seqn x) R).
  constructor; auto; try congruence.
  - rewrite <- A. exact (f_equal (fun x => pd_mode (fl x)) R).
  - rewrite <- B. exact (f_equal (fun x => skip_seq (fl x)) R).
  - destruct E as (E1 & E2 & E3 & E4 & _). destruct Q as (_ & _ & Q1 & Q2).
    apply mk_typed; auto; congruence.
  - intros U. rewrite H3. apply I. congruence.
Qed.

Lemma binv_seen b p : binv p -> binv (pd_seen b p).
Proof.
  intros [A B C D E F G H I].
  assert (S : -1 <= seq_after (seqn p) (f_seq b) <= 3).
  { unfold seq_after, seq_next. destruct (_ =? 0) eqn:E1; [lia|]. destruct (_ =? seqn p) eqn:E2; [lia|].
    destruct (seqn p =? 3) eqn:E3; lia. }
  unfold pd_seen. destruct (f_seq b =? 0), (f_addr b =? 127); constructor; auto.
Qed.

Lemma binv_nak c p : byte c -> binv p -> binv (nak c p).
Proof.
  intros K [A B C D E F G H I]. constructor; auto. destruct E as (E1 & E2 & E3 & E4 & E5 & E6).
  apply mk_typed; auto. simpl. unfold byte, REPLY_NAK. lia.
Qed.

Lemma binv_deact p : binv p -> binv (sc_deactivate p).
Proof. intros [A B C D E F G H I]. constructor; auto. Qed.

Lemma binv_timeout e p : binv p -> binv (sc_timeout e p).
Proof. intros. unfold sc_timeout. dif; auto using binv_deact. Qed.

Lemma fill_timeout e p : rx_fill p -> rx_fill (sc_timeout e p).
Proof. intros. unfold sc_timeout. dif; auto. Qed.

Lemma inv_timeout e p : pd_inv p -> pd_inv (sc_timeout e p).
Proof. intros [A B C]. constructor; auto using binv_timeout, fill_timeout. unfold sc_timeout. dif; auto. Qed.

Lemma inv_reset p : binv p -> pd_inv (state_reset false p).
Proof.
  intros [A B C D E F G H I]. constructor; [constructor; auto| |]; [left; simpl; lia|]. intros X. simpl in X. lia.
Qed.

Lemma inv_error_reset p : binv p -> pd_inv (pd_error_reset p).
Proof. intros. unfold pd_error_reset. apply inv_reset. apply binv_deact. auto. Qed.

Lemma fill_seen b p : rx_fill p -> rx_fill (pd_seen b p).
Proof. unfold pd_seen. destruct (f_seq b =? 0), (f_addr b =? 127); auto. Qed.

(* how far a packet is complete when it is decoded *)
Definition full (p : pd) : Prop :=
  pblen p = plen p /\ 6 <= plen p <= 256 /\ check_header_bytes p = inr (plen p).

Lemma full_fill p : full p -> rx_fill p.
Proof. intros (A & B & C). right. split; [lia|]. split; [lia|auto]. Qed.

Lemma got_full e p q : got_frame e p q -> full q.
Proof.
  intros (_ & (_ & F) & _ & E & R & _). split; auto. split; auto.
  destruct F as [[F _]|(_ & _ & F)]; [lia|auto].
Qed.

Lemma full_seen b p : full p -> full (pd_seen b p).
Proof. unfold pd_seen. destruct (f_seq b =? 0), (f_addr b =? 127); auto. Qed.

Lemma eom_rev_lt r n : eom_rev r = Some n -> (n < length r)%nat.
Proof.
  revert n. induction r as [|b r IH]; intros n; cbn [eom_rev]; [discriminate|].
  destruct (b =? EOM); [intros H; inv H; simpl; lia|]. destruct r; [discriminate|].
  destruct (b =? 0); [|discriminate]. intros H. apply IH in H. simpl in *. lia.
Qed.

Lemma decrypt_data_ok c f s l d m : blk (s_enc s) -> blk (r_mac s) -> blk (c_mac s) -> bytes l ->
  decrypt_data c f s l = Some (d, m) -> bytes d /\ zlen d = zlen l /\ 0 <= m <= zlen d.
Proof.
  intros K R C B. unfold decrypt_data. destruct (negb _) eqn:E1; [discriminate|].
  dif; [dif; intros H; inv H|]. { split; [constructor|]. change (zlen (@nil Z)) with 0. lia. }
  cbv zeta.
  assert (IV : blk (data_iv c s)) by (apply blk_data_iv; auto).
  assert (D : bytes (aes_cbc_decrypt (s_enc s) (data_iv c s) l) /\ zlen (aes_cbc_decrypt (s_enc s) (data_iv c s) l) = zlen l).
  { apply negb_false_iff in E1. 
    assert (X : exists k, length l = (16 * k)%nat).
    { exists (Z.to_nat (zlen l / 16)). unfold zlen in *. apply Z.eqb_eq in E1. rewrite Z.rem_mod_nonneg in E1 by lia. lia. }
    destruct X as [k X]. destruct (cbc_decrypt_shape k (s_enc s) (data_iv c s) l) as [Y Z]; auto.
    split; auto. unfold zlen. congruence. }
  destruct D as [D1 D2]. set (x := aes_cbc_decrypt _ _ _) in *. clearbody x.
  destruct (eom_rev (rev x)) as [n|] eqn:E; [|discriminate]. apply eom_rev_lt in E. rewrite rev_length in E.
  intros H; injection H as <- <-. split; [apply bytes_upd; auto; unfold byte; lia|].
  unfold zlen in *. rewrite upd_length. lia.
Qed.

Lemma binv_c_mac m p : blk m -> binv p -> binv (set_c_mac m p).
Proof.
  intros M [A B C D E F G H I]. constructor; auto. destruct E as (E1 & E2 & E3 & E4 & E5 & E6).
  apply mk_typed; auto. apply (wf_c_mac (sc p)); auto.
Qed.

Lemma bytes_sub l o n : bytes l -> bytes (sub l o n).
Proof. intros. unfold sub. apply bytes_firstn, bytes_skipn; auto. Qed.

Lemma ret_data_cases b off len :
  (exists c, c <= 0 /\ c = len /\ ret_data b off len = DErr c) \/ (0 < len /\ ret_data b off len = DData (sub b off len)).
Proof. unfold ret_data. destruct (len <=? 0) eqn:E; [left; exists len; repeat split; lia|right; split; auto; lia]. Qed.

Lemma decode_packet_inv p q r : binv p -> full p -> decode_packet p = Ok (q, r) ->
  binv q /\ full q /\
  match r with
  | DData l => bytes l /\ l <> []
  | DErr _ => True
  end.
Proof.
  intros I FU. pose proof I as [A B C D E F G H J]. pose proof FU as (FU1 & FU2 & FU3).
  unfold decode_packet. rewrite A. cbv zeta.
  set (b := from (pbuf p) (mark_len p)).
  assert (Bb : bytes b) by (apply bytes_skipn; apply E).
  assert (Lb : zlen b = 256 - mark_len p).
  { unfold b, from, zlen. rewrite skipn_length. destruct E as (_ & _ & _ & _ & -> & _).
    destruct (mark_len_cases p) as [-> | ->]; lia. }
  pose proof (mark_len_cases p) as ML.
  assert (B5 : byte (getb b 5)) by (apply bytes_getb; auto).
  set (len0 := pblen p - mark_len p - (if ctl_crc (getb b 4) then 2 else 1)).
  assert (L0 : len0 <= 255 - mark_len p) by (unfold len0; destruct (ctl_crc _); lia).
  assert (RD : forall off len, 0 <= off -> off + len <= 255 ->
     match ret_data b off len with DData l => bytes l /\ l <> [] | DErr _ => True end).
  { intros off len H1 H2. destruct (ret_data_cases b off len) as [(c & _ & _ & ->)|[H3 ->]]; auto.
    split; [apply bytes_sub; auto|]. intros X. apply (f_equal zlen) in X.
    change (zlen (@nil Z)) with 0 in X. unfold sub, zlen in X. rewrite firstn_length, skipn_length in X. unfold zlen in Lb. lia. }
  assert (NK : forall c, byte c -> binv (nak c p) /\ full (nak c p) /\ True).
  { intros c Hc. split; [apply binv_nak; auto|]. split; auto. }
  assert (K6 : byte 6 /\ byte 5) by (unfold byte; lia). destruct K6 as [K6 K5].
  destruct (ctl_scb (getb b 4)).
  - destruct (true && negb (sc_is_capable p)); [intros X; inv X; apply NK; auto|].
    destruct ((getb b 6 <? SCS_11) || (getb b 6 >? SCS_18)); [intros X; inv X; apply NK; auto|].
    destruct (negb (sc_active (fl p)) && (getb b 6 >? SCS_14)); [intros X; inv X; apply NK; auto|].
    set (cond := ((getb b 6 =? SCS_11) || (getb b 6 =? SCS_13)) && install (fl p) && (getb b 7 =? 0)).
    set (p1 := if cond then set_use_scbkd true p else p).
    assert (I1 : binv p1).
    { unfold p1. destruct cond eqn:EC; auto. constructor; auto. simpl. intros _. unfold cond in EC.
      apply andb_true_iff in EC as [EC _]. apply andb_true_iff in EC as [_ EC]. exact EC. }
    assert (F1 : full p1 /\ mark_len p1 = mark_len p /\ pbuf p1 = pbuf p /\ sc p1 = sc p /\ plen p1 = plen p /\ pblen p1 = pblen p).
    { unfold p1. destruct cond; split; auto 10. }
    clearbody p1. clear cond. destruct F1 as (F1 & M1 & P1 & S1 & PL1 & PB1).
    destruct (sc_active (fl p) && (SCS_15 <=? getb b 6)).
    2:{ intros X; inv X. split; auto. split; auto. apply RD; unfold byte in B5; lia. }
    unfold decode_secure. rewrite (iv_mode p1 I1). cbv zeta.
    unfold compute_mac. destruct (zlen (firstn (Z.to_nat (len0 - 4)) b) =? 0) eqn:EZ; cbn [bind]; [discriminate|].
    set (mc := mac_of _ _ _ _).
    assert (Bm : blk mc).
    { unfold mc. pose proof (iv_ty p1 I1) as (_ & _ & _ & ((Y1 & Y2 & Y3 & Y4 & Y5) & _) & _). apply blk_mac_of; auto.
      - intros X. rewrite X in EZ. discriminate.
      - apply bytes_firstn; auto. }
    pose proof (binv_c_mac mc p1 Bm I1) as I2.
    set (p2 := set_c_mac mc p1) in *.
    assert (F2 : full p2) by exact F1.
    assert (NK2 : forall c, byte c -> binv (nak c (sc_deactivate p2)) /\ full (nak c (sc_deactivate p2)) /\ True).
    { intros c Hc. split; [apply binv_nak; auto; apply binv_deact; auto|]. split; auto. }
    dif; [intros X; inv X; apply NK2; auto|].
    set (off := 5 + getb b 5).
    set (len2 := len0 - 5 - getb b 5).
    assert (OL : 5 <= off /\ off + len2 = len0) by (unfold off, len2, byte in *; lia).
    destruct OL as [OL1 OL2]. clearbody off len2.
    dif.
    + dif; [discriminate|]. dif; [intros X; inv X; apply NK2; auto|].
      destruct (decrypt_data true (allow_empty (fl p2)) (sc p2) (sub b (off + 1) (len2 - 4 - 1))) as [[d m]|] eqn:DD;
        [|intros X; inv X; apply NK2; auto].
      pose proof (iv_ty p2 I2) as (Y1 & Y2 & Y3 & Y4 & Y5 & Y6).
      destruct Y4 as ((Z1 & Z2 & Z3 & Z4 & Z5) & Z6).
      apply decrypt_data_ok in DD as (D1 & D2 & D3); auto.
      2:{ apply bytes_sub; auto. }
      assert (Ld : zlen d = len2 - 5).
      { rewrite D2. unfold sub, zlen. rewrite firstn_length, skipn_length. unfold zlen in Lb. lia. }
      assert (MM : mark_len p2 = mark_len p) by (rewrite <- M1; reflexivity).
      assert (LB : length (pbuf p2) = 256%nat) by exact Y5.
      intros X. inv X.
      assert (LBL : length (blit (pbuf p2) (mark_len p2 + off + 1) d) = 256%nat).
      { rewrite blit_length; auto. lia. unfold zlen. rewrite LB. unfold zlen in Ld. lia. }
      assert (BBL : bytes (blit (pbuf p2) (mark_len p2 + off + 1) d)) by (apply bytes_blit; auto).
      split; [|split; [|split]].
      * destruct I2 as [A2 B2 C2 D4 E2 F4 G2 H2 J2]. constructor; auto.
        -- destruct C2 as (c1 & c2 & c3 & c4). split; auto.
        -- apply mk_typed; auto. split; auto. repeat split; auto; apply Z1 || apply Z2 || apply Z3 || apply Z4 || apply Z5.
      * destruct F2 as (f1 & f2 & f3). split; [exact f1|]. split; [exact f2|].
        etransitivity; [|exact f3]. apply check_header_bytes_ext; [reflexivity|].
        change (firstn 5 (blit (pbuf p2) (mark_len p2 + off + 1) d) = firstn 5 (pbuf p2)).
        unfold blit. rewrite firstn_app. rewrite firstn_firstn.
        rewrite firstn_length. rewrite Nat.min_l by lia.
        replace (5 - Nat.min (Z.to_nat (mark_len p2 + off + 1)) (length (pbuf p2)))%nat with 0%nat by lia.
        rewrite firstn_O, app_nil_r. reflexivity.
      * constructor; [apply bytes_getb; auto|apply bytes_firstn; auto].
      * discriminate.
    + intros X; inv X. split; auto. split; auto. apply RD; lia.
  - destruct (sc_active (fl p)); intros X; inv X; [apply NK; auto|]. split; auto. split; auto. apply RD; lia.
Qed.

Lemma decode_packet_prefix p q r : bytes (pbuf p) -> length (pbuf p) = 256%nat -> decode_packet p = Ok (q, r) ->
  firstn 5 (pbuf q) = firstn 5 (pbuf p).
Proof.
  intros B L. unfold decode_packet. cbv zeta.
  set (b := from (pbuf p) (mark_len p)).
  assert (B5 : byte (getb b 5)) by (apply bytes_getb; apply bytes_skipn; auto).
  pose proof (mark_len_cases p) as M.
  destruct (ctl_scb _).
  - dif; [intros X; inv X; reflexivity|]. dif; [intros X; inv X; reflexivity|]. dif; [intros X; inv X; reflexivity|].
    set (p1 := if _ && _ && _ then _ else p).
    assert (E1 : pbuf p1 = pbuf p /\ mark_len p1 = mark_len p) by (unfold p1; dif; auto). clearbody p1.
    dif; [|intros X; inv X; rewrite (proj1 E1); reflexivity].
    unfold decode_secure, compute_mac. dif; cbn [bind]; [discriminate|]. cbv zeta.
    set (mc := mac_of _ _ _ _).
    set (p2 := if pd_mode (fl p1) then set_c_mac mc p1 else set_r_mac mc p1).
    assert (E2 : pbuf p2 = pbuf p /\ mark_len p2 = mark_len p) by (unfold p2; destruct (pd_mode (fl p1)); apply E1). clearbody p2.
    dif; [intros X; inv X; exact (f_equal (firstn 5) (proj1 E2))|].
    dif; [|intros X; inv X; rewrite (proj1 E2); reflexivity].
    dif; [discriminate|]. dif; [intros X; inv X; exact (f_equal (firstn 5) (proj1 E2))|].
    destruct (decrypt_data _ _ _ _) as [[d m]|]; [|intros X; inv X; exact (f_equal (firstn 5) (proj1 E2))].
    intros X; inv X. destruct E2 as [E2 E3]. unfold byte in B5.
    change (firstn 5 (blit (pbuf p2) (mark_len p2 + (5 + getb b 5) + 1) d) = firstn 5 (pbuf p)).
    rewrite E2. unfold blit. rewrite firstn_app, firstn_firstn, firstn_length.
    rewrite Nat.min_l by lia.
    replace (5 - Nat.min (Z.to_nat (mark_len p2 + (5 + getb b 5) + 1)) (length (pbuf p)))%nat with 0%nat by lia.
    rewrite firstn_O, app_nil_r. reflexivity.
  - dif; intros X; inv X; reflexivity.
Qed.

(* a complete packet keeps its first bytes *)
Lemma sync_keep p q : rx_sync p -> length (pbuf p) = 256%nat -> 6 <= pblen p -> pblen q = pblen p -> has_mark (fl q) = has_mark (fl p) ->
  firstn 5 (pbuf q) = firstn 5 (pbuf p) -> rx_sync q.
Proof.
  intros S L P E1 E2 E3 _. destruct (S ltac:(lia)) as (S1 & t & S2). unfold mark_len in *. rewrite E1, E2. split; [lia|].
  assert (X : forall x, 6 <= pblen x -> exists tl, pending x = firstn 5 (pbuf x) ++ tl).
  { intros x Hx. unfold pending. exists (firstn (Z.to_nat (pblen x) - 5) (skipn 5 (pbuf x)) ++ rb_contents (rb x)).
    rewrite app_assoc. f_equal.
    rewrite <- (firstn_skipn 5 (pbuf x)) at 1. rewrite firstn_app, firstn_firstn, firstn_length.
    rewrite Nat.min_r by lia. f_equal.
    destruct (Nat.le_gt_cases 5 (length (pbuf x))); [f_equal; lia|].
    rewrite skipn_all2 by lia. now rewrite !firstn_nil. }
  destruct (X p P) as (tp & X1). destruct (X q ltac:(lia)) as (tl & X2).
  rewrite X1 in S2. rewrite X2, E3.
  destruct (pbuf p) as [|a [|b' l]]; try (simpl in L; lia). simpl firstn in *.
  destruct (has_mark (fl p)); simpl in *; injection S2; intros; subst; eauto.
Qed.

(* the fields the command decoder writes keep their types *)
Definition dec_typed (p : pd) : Prop :=
  byte (reply_id p) /\ eph_typed (eph p) /\ Forall ev_typed (evq p) /\ r8 (cp_random (sc p)) /\ blk (cp_crypt (sc p)).

Lemma dec_typed_reply r x p : byte r -> eph_typed x -> dec_typed p -> dec_typed (set_eph x (set_reply_id r p)).
Proof. intros R X (A & B & C & D & E). repeat (split; [assumption|]). assumption. Qed.

Lemma dec_typed_id r p : byte r -> dec_typed p -> dec_typed (set_reply_id r p).
Proof. intros R (A & B & C & D & E). repeat (split; [assumption|]). assumption. Qed.

Lemma dec_typed_nak c p : byte c -> dec_typed p -> dec_typed (nak c p).
Proof. intros. apply (dec_typed_reply REPLY_NAK (EphNak c)); auto. unfold byte, REPLY_NAK; lia. Qed.

Lemma dec_typed_cb e n p c q b c1 o : env_ok e -> cmd_typed c -> do_callback e n p c = (q, b, c1, o) -> dec_typed p ->
  dec_typed q /\ cmd_typed c1.
Proof.
  intros K T H D. pose proof (eo_cb e K n c T) as X. apply do_callback_touch in H as (-> & _ & H & _).
  rewrite H in X. split; [|exact X]. destruct b; auto. apply dec_typed_nak; auto. unfold byte; lia.
Qed.

Lemma chunks_ok k : forall size b, bytes b -> Forall bytes (chunks k size b).
Proof.
  induction k; intros size b B; cbn [chunks]; constructor.
  - apply bytes_sub; auto.
  - apply IHk. apply bytes_skipn; auto.
Qed.

Lemma dec_typed_records e l : env_ok e -> Forall cmd_typed l -> forall n p q o, do_records e n p l = (q, o) -> dec_typed p -> dec_typed q.
Proof.
  intros K. induction l as [|c l IH]; intros T n p q o H D; cbn [do_records] in H; [inv H; auto|].
  inversion T as [|? ? T1 T2]; subst.
  destruct (negb (rec_ok p c)); [inv H; apply dec_typed_nak; auto; unfold byte; lia|].
  destruct (do_callback e n p c) as [[[p1 b] c1] o1] eqn:E. apply (dec_typed_cb e) in E as [E1 E2]; auto.
  destruct b; [|inv H; auto]. destruct (do_records e (S n) p1 l) as [p2 o2] eqn:E3. inv H. eapply IH; eauto.
Qed.

Lemma byte_reply_codes : byte REPLY_ACK /\ byte REPLY_PDID /\ byte REPLY_PDCAP /\ byte REPLY_COM /\ byte REPLY_CCRYPT /\
  byte REPLY_RMAC_I /\ byte REPLY_FTSTAT /\ byte REPLY_LSTATR /\ byte REPLY_ISTATR /\ byte REPLY_OSTATR /\ byte REPLY_RSTATR /\
  byte REPLY_RAW /\ byte REPLY_KEYPAD /\ byte REPLY_MFGREP /\ byte 0.
Proof. repeat split; discriminate. Qed.

Lemma dec_typed_event ev p : ev_typed ev -> dec_typed p -> dec_typed (translate_event p ev).
Proof.
  intros T D. unfold translate_event. cbv zeta.
  destruct byte_reply_codes as (B1 & B2 & B3 & B4 & B5 & B6 & B7 & B8 & B9 & B10 & B11 & B12 & B13 & B14 & B15).
  assert (R : byte (event_reply ev)).
  { unfold event_reply. destruct ev; auto; repeat (dif; auto). }
  dif; [apply dec_typed_id; auto|]. destruct D as (A & B & C & D & E). repeat (split; [assumption|]). assumption.
Qed.

Lemma do_status_typed e p ty rp q r o : env_ok e -> byte rp -> do_status e p ty rp = Ok (q, r, o) -> dec_typed p -> dec_typed q.
Proof.
  intros K R H D. unfold do_status in H. destruct (do_callback e 0 p _) as [[[p1 b] c1] o1] eqn:E.
  apply (dec_typed_cb e) in E as [E1 E2]; auto; [|exact I]. destruct b; [|inv H; auto].
  destruct c1; inv H. destruct E1 as (A & B & C & E & F). repeat (split; [assumption||exact I|]). assumption.
Qed.

Lemma do_multi_typed e p n f d q r o : env_ok e -> (forall x, bytes x -> cmd_typed (f x)) -> bytes d ->
  do_multi e p n f d = Ok (q, r, o) -> dec_typed p -> dec_typed q.
Proof.
  intros K F B H D. unfold do_multi in H. destruct (negb _ || negb _); [inv H; auto|].
  destruct (do_records e 0 p _) as [p1 o1] eqn:E. inv H. apply dec_typed_id; [unfold byte, REPLY_ACK; lia|].
  eapply dec_typed_records; [exact K| |exact E|exact D]. apply Forall_map. eapply Forall_impl; [exact F|]. apply chunks_ok; auto.
Qed.

Lemma len_of (d : list Z) n : negb (zlen d =? n) = false -> length d = Z.to_nat n.
Proof. unfold zlen. intros. lia. Qed.

Lemma take16 data k : bytes data -> take_arr data 16 = Ok k -> blk k.
Proof.
  intros B TA. unfold take_arr in TA. change (16 <? 0) with false in TA. cbv iota in TA.
  destruct (zlen data <? 16) eqn:EL; [discriminate|].
  assert (TA2 : k = firstn 16 data) by (change 16%nat with (Z.to_nat 16); congruence). rewrite TA2.
  split; [|apply bytes_firstn; exact B]. rewrite firstn_length. unfold zlen in EL. lia.
Qed.

Lemma decode_command_typed e p l q r o : env_ok e -> bytes l -> dec_typed p -> decode_command e p l = Ok (q, r, o) -> dec_typed q.
Proof.
  intros K L D. unfold decode_command. cbv zeta.
  destruct byte_reply_codes as (B1 & B2 & B3 & B4 & B5 & B6 & B7 & B8 & B9 & B10 & B11 & B12 & B13 & B14 & B15).
  assert (N2 : byte 2 /\ byte 3 /\ byte 5 /\ byte 6) by (repeat split; discriminate).
  destruct N2 as (N2 & N3 & N5 & N6).
  set (c := getb l 0). set (d := from l 1). set (p1 := set_cmd_id c (set_reply_id 0 p)).
  assert (Bd : bytes d) by (apply bytes_skipn; auto).
  assert (D1 : dec_typed p1).
  { destruct D as (E1 & E2 & E3 & E4 & E5). repeat (split; [assumption|]). assumption. }
  destruct (enforce _ && _ && _).
  { destruct (cmd_name_null c); [discriminate|]. intros H; inv H. apply dec_typed_nak; auto. }
  assert (S : forall p2 r2 o2, decode_switch e p1 c d = Some (Ok (p2, r2, o2)) -> dec_typed p2).
  2:{ destruct (decode_switch e p1 c d) as [[[[p2 r2] o2]| |]|]; cbn [bind]; try discriminate.
      - specialize (S p2 r2 o2 eq_refl). destruct r2; intros H; inv H; auto. apply dec_typed_nak; auto.
      - intros H; inv H. apply dec_typed_nak; auto. }
  clearbody p1. clear D p. rename D1 into D. intros p2 r2 o2. unfold decode_switch. cbv zeta.
  assert (BK : forall p2 r2 (o2 : list out), Some (Ok (p1, RGeneric, [])) = Some (Ok (p2, r2, o2)) -> dec_typed p2).
  { intros ? ? ? H; inv H; auto. }
  assert (NK : forall k p2 r2 (o2 : list out), byte k -> Some (Ok (nak k p1, RReply, [])) = Some (Ok (p2, r2, o2)) -> dec_typed p2).
  { intros ? ? ? ? ? H; inv H; apply dec_typed_nak; auto. }
  assert (AK : forall k p2 r2 (o2 : list out), byte k -> Some (Ok (set_reply_id k p1, RNone, [])) = Some (Ok (p2, r2, o2)) -> dec_typed p2).
  { intros ? ? ? ? ? H; inv H; apply dec_typed_id; auto. }
  assert (ST : forall ty rp q2 r3 o3, byte rp -> Some (do_status e p1 ty rp) = Some (Ok (q2, r3, o3)) -> dec_typed q2).
  { intros ty rp q2 r3 o3 R H. injection H as H. eapply do_status_typed; eauto. }
  assert (TC : forall x y, In (x, y) [] -> x = y :> nat) by (intros ? ? []). clear TC.
  dif. { dif; [apply BK|]. destruct (evq p1) as [|ev qq] eqn:EQ; [apply AK; auto|].
         intros H; inv H. destruct D as (E1 & E2 & E3 & E4 & E5). rewrite EQ in E3. inv E3.
         apply dec_typed_event; auto. repeat (split; [assumption|]). assumption. }
  dif; [dif; [apply BK|]; dif; [discriminate|]; apply ST; auto|].
  dif; [dif; [apply BK|]; dif; [apply NK; auto|]; apply ST; auto|].
  dif; [dif; [apply BK|]; dif; [apply NK; auto|]; apply ST; auto|].
  dif; [dif; [apply BK|]; apply ST; auto|].
  dif; [dif; [apply BK|]; apply AK; auto|].
  dif; [dif; [apply BK|]; apply AK; auto|].
  dif; [intros H; injection H as H; eapply do_multi_typed; eauto; intros; exact I|].
  dif; [intros H; injection H as H; eapply do_multi_typed; eauto; intros; exact I|].
  dif; [intros H; injection H as H; eapply do_multi_typed; eauto; intros; exact I|].
  dif. { unfold do_text. dif; [apply BK|]. cbv zeta. dif; [apply BK|]. dif; [apply NK; auto|].
         destruct (do_callback _ _ _ _) as [[[p3 bb] c1] o1] eqn:E. apply (dec_typed_cb e) in E as [E1 E2]; auto.
         - destruct bb; intros H; inv H; auto. apply dec_typed_id; auto.
         - apply bytes_sub; auto. }
  dif. { unfold do_comset. dif; [apply BK|]. cbv zeta. dif; [apply BK|].
         destruct (do_callback _ _ _ _) as [[[p3 bb] c1] o1] eqn:E. apply (dec_typed_cb e) in E as [E1 E2]; auto; [|exact I].
         destruct bb; intros H; inv H; auto. destruct E1 as (E3 & E4 & E5 & E6 & E7). repeat (split; [assumption|]). assumption. }
  dif. { unfold do_mfg. dif; [apply BK|]. cbv zeta. dif; [apply BK|].
         destruct (do_callback _ _ _ _) as [[[p3 bb] c1] o1] eqn:E. apply (dec_typed_cb e) in E as [E1 E2]; auto.
         - destruct bb; intros H; inv H; auto. apply dec_typed_id; auto.
         - apply bytes_skipn; auto. }
  dif; [dif; [apply BK|]; intros H; inv H; destruct D as (E1 & E2 & E3 & E4 & E5); repeat (split; [assumption|]); assumption|].
  dif; [dif; [apply BK|]; intros H; inv H; destruct D as (E1 & E2 & E3 & E4 & E5); repeat (split; [assumption|]); assumption|].
  dif; [dif; [apply BK|]; destruct (file_tx_abort p1) as [p3 o1] eqn:E;
        apply file_tx_abort_core in E as [(f & ->) N]; intros H; inv H;
        destruct D as (E1 & E2 & E3 & E4 & E5); repeat (split; [assumption|]); assumption|].
  dif. { destruct (file_tx_decode e p1 d) as [[[p3 bb] o1]| |] eqn:E; cbn [bind]; try discriminate.
         apply file_tx_decode_core in E as [(f & ->) N]. destruct bb; intros H; inv H;
         destruct D as (E1 & E2 & E3 & E4 & E5); repeat (split; [assumption|]); assumption. }
  dif. { unfold do_keyset. dif; [apply BK|]. dif; [apply BK|]. cbv zeta.
         assert (D6 : dec_typed (nak 6 p1)) by (apply dec_typed_nak; auto).
         dif; [intros H; inv H; apply dec_typed_nak; auto|].
         dif; [intros H; inv H; auto|]. dif; [intros H; inv H; auto|].
         destruct (do_callback _ _ _ _) as [[[p3 bb] c1] o1] eqn:E. apply (dec_typed_cb e) in E as [E1 E2]; auto.
         - destruct bb; [|intros H; inv H; auto]. destruct c1; try discriminate.
           destruct (take_arr _ _) as [k| |] eqn:TA; cbn [bind]; try discriminate. intros H; inv H.
           assert (BKk : blk k) by (apply (take16 data); [exact E2|exact TA]).
           destruct E1 as (E3 & E4 & E5 & E6 & E7). repeat (split; [assumption|]). assumption.
         - apply bytes_skipn; auto. }
  dif. { unfold do_chlng. destruct (negb (zlen d =? 8)) eqn:EL; [intros H; inv H; auto|].
         dif; [intros H; inv H; apply dec_typed_nak; auto|]. intros H; inv H.
         destruct D as (E1 & E2 & E3 & E4 & E5). split; [assumption|]. split; [assumption|]. split; [assumption|].
         split; [split; [exact (len_of d 8 EL)|assumption]|assumption]. }
  dif. { unfold do_scrypt. destruct (negb (zlen d =? 16)) eqn:EL; [intros H; inv H; auto|].
         dif; [intros H; inv H; apply dec_typed_nak; auto|]. dif; [intros H; inv H; apply dec_typed_nak; auto|]. intros H; inv H.
         destruct D as (E1 & E2 & E3 & E4 & E5). split; [assumption|]. split; [assumption|]. split; [assumption|].
         split; [assumption|]. split; [exact (len_of d 16 EL)|assumption]. }
  discriminate.
Qed.

Lemma binv_cmd p q : binv p -> cmdcore q = cmdcore p -> dec_typed q -> binv q.
Proof.
  intros [A B C D E F G H I] R (T1 & T2 & T3 & T4 & T5).
  assert (Fm : pd_mode (fl q) = pd_mode (fl p)) by exact (f_equal (fun x => pd_mode (fl x)) R).
  assert (Fs : skip_seq (fl q) = skip_seq (fl p)) by exact (f_equal (fun x => skip_seq (fl x)) R).
  assert (F1 : sc_disabled (fl q) = sc_disabled (fl p)) by exact (f_equal (fun x => sc_disabled (fl x)) R).
  assert (F2 : sc_capable (fl q) = sc_capable (fl p)) by exact (f_equal (fun x => sc_capable (fl x)) R).
  assert (F3 : use_scbkd (fl q) = use_scbkd (fl p)) by exact (f_equal (fun x => use_scbkd (fl x)) R).
  assert (F4 : install (fl q) = install (fl p)) by exact (f_equal (fun x => install (fl x)) R).
  assert (Hs : cset_cp_random [] (cset_cp_crypt [] (sc q)) = cset_cp_random [] (cset_cp_crypt [] (sc p))) by exact (f_equal (fun x => sc x) R).
  assert (Hc : caps q = caps p) by exact (f_equal (fun x => caps x) R).
  assert (Hq : seqn q = seqn p) by exact (f_equal (fun x => seqn x) R).
  assert (Hb : pbuf q = pbuf p) by exact (f_equal (fun x => pbuf x) R).
  assert (Hr : rb q = rb p) by exact (f_equal (fun x => rb x) R).
  constructor; auto; try congruence.
  - unfold rx_base. rewrite Hr, Hb. exact C.
  - destruct E as (E1 & E2 & E3 & E4 & E5 & E6). apply mk_typed; auto; try congruence.
    destruct E4 as ((K1 & K2 & K3 & K4 & K5) & S1 & S2 & S3 & S4 & S5 & S6).
    destruct (sc q) as [a1 a2 a3 a4 a5 a6 a7 a8 a9 a10 a11], (sc p) as [b1 b2 b3 b4 b5 b6 b7 b8 b9 b10 b11].
    simpl in *. injection Hs as -> -> -> -> -> -> -> -> ->.
    unfold sc_wf, sc_keys_ok. simpl. tauto.
  - intros U. rewrite F4. apply I. congruence.
Qed.

Lemma fill_cmd p q : cmdcore q = cmdcore p -> (full p -> full q) /\ (rx_fill p -> rx_fill q).
Proof.
  intros R.
  assert (Hb : pbuf q = pbuf p) by exact (f_equal (fun x => pbuf x) R).
  assert (H1 : pblen q = pblen p) by exact (f_equal (fun x => pblen x) R).
  assert (H2 : plen q = plen p) by exact (f_equal (fun x => plen x) R).
  assert (Fm : pd_mode (fl q) = pd_mode (fl p)) by exact (f_equal (fun x => pd_mode (fl x)) R).
  assert (Fk : has_mark (fl q) = has_mark (fl p)) by exact (f_equal (fun x => has_mark (fl x)) R).
  assert (CH : check_header_bytes q = check_header_bytes p).
  { unfold check_header_bytes, mark_len. rewrite Hb, Fm, Fk. reflexivity. }
  unfold full, rx_fill. rewrite H1, H2, CH. auto.
Qed.

Lemma decode_command_inv e p l q r o : env_ok e -> bytes l -> binv p -> decode_command e p l = Ok (q, r, o) ->
  binv q /\ (full p -> full q).
Proof.
  intros K L I H. pose proof (decode_command_core e p l q r o H) as (C & _).
  split; [|apply fill_cmd; auto]. eapply binv_cmd; eauto. eapply decode_command_typed; eauto.
  destruct I as [_ _ _ _ (E1 & E2 & E3 & (_ & _ & E4 & _ & _ & E5 & _) & _) _ G _ _]. repeat (split; [assumption|]). assumption.
Qed.

(* a reply: what the device becomes and what goes out *)
Definition reply_sent (e : env) (p q : pd) (ok : bool) (o : list out) : Prop :=
  (tx_buf_size p < 69 /\ q = p /\ ok = false /\ o = []) \/
  (69 <= tx_buf_size p /\
   exists p2 pay ss m smb ob ot,
     build_switch e (after_init p) smb m = Ok (p2, pay, ss, ob) /\ 60 <= m /\
     (m = reply_room p /\ smb = reply_smb p) /\
     build_rel e (after_init p) p2 /\ no_tx ob /\
     txcore q = txcore p2 /\ pd_typed q /\ o = ob ++ ot /\
     let b := reply_body p pay ss in
     let f := mk_of p ++ wire_of p2 b in
     ((ot = [] /\ ok = false /\ tx_buf_size p < zlen f) \/
      (zlen f <= tx_buf_size p /\ sent e f ok ot /\
       sc q = if macced p2 b then cset_r_mac (sealed_mac p2 b) (sc p2) else sc p2))).

(* the session key commit that follows an acknowledged KEYSET *)
Definition commit_key (k : list Z) (p : pd) : pd :=
  sc_deactivate (set_install false (set_use_scbkd false (set_scbk k p))).

Lemma tx_buf_le p : tx_buf_size p <= 256.
Proof. unfold tx_buf_size, PBUF_SIZE. destruct (peer_rx p =? 0); lia. Qed.

Lemma reply_sent_ids e p q ok o : reply_sent e p q ok o ->
  cmd_id q = cmd_id p /\ reply_id q = reply_id p /\ eph q = eph p.
Proof.
  intros [(_ & -> & _)|(_ & p2 & pay & ss & m & smb & ob & ot & _ & _ & _ & BR & _ & T & _)]; auto.
  assert (H1 : cmd_id q = cmd_id p2) by exact (f_equal (fun x => cmd_id x) T).
  assert (H2 : reply_id q = reply_id p2) by exact (f_equal (fun x => reply_id x) T).
  assert (H3 : eph q = eph p2) by exact (f_equal (fun x => eph x) T).
  rewrite H1, H2, H3.
  destruct BR as [->|[(_ & a & b & _ & ->)|[(_ & fx & ->)|[(_ & ->)|[(_ & _ & ->)|(_ & _ & ->)]]]]]; auto.
Qed.

Lemma build_rel_binv e p p2 : env_ok e -> binv p -> build_rel e p p2 -> pd_typed p2 -> binv p2.
Proof.
  intros K [A B C D E F G H I] BR T.
  destruct BR as [->|[(_ & a & b & _ & ->)|[(_ & fx & ->)|[(_ & ->)|[(_ & _ & ->)|(_ & _ & ->)]]]]]; constructor; auto.
Qed.

Lemma binv_init p : binv p -> binv (after_init p).
Proof.
  intros [A B C D E F G H I]. pose proof (after_init_typed p E) as T. constructor; auto.
  destruct C as (c1 & c2 & c3 & c4). destruct T as (t1 & t2 & t3 & t4 & t5 & t6). split; auto.
Qed.

Lemma reply_sent_binv e p q ok o : env_ok e -> binv p -> reply_sent e p q ok o -> binv q.
Proof.
  intros K I [(_ & -> & _)|(_ & p2 & pay & ss & m & smb & ob & ot & BS & Hm & _ & BR & _ & T & TY & _)]; auto.
  pose proof (binv_init p I) as I1.
  destruct (build_switch_ok e (after_init p) smb m p2 pay ss ob (iv_ty _ I1) (eo_rand e K) Hm BS) as (_ & T2 & _).
  pose proof (build_rel_binv e _ p2 K I1 BR T2) as [A B C D E F G H J].
  assert (Fl : fl q = fl p2) by exact (f_equal (fun x => fl x) T).
  assert (Hc : caps q = caps p2) by exact (f_equal (fun x => caps x) T).
  assert (Hq : seqn q = seqn p2) by exact (f_equal (fun x => seqn x) T).
  assert (He : evq q = evq p2) by exact (f_equal (fun x => evq x) T).
  assert (Hr : rb q = rb p2) by exact (f_equal (fun x => rb x) T).
  constructor; auto; try congruence.
  - destruct C as (c1 & c2 & c3 & c4). destruct TY as (t1 & t2 & t3 & t4 & t5 & t6). unfold rx_base. rewrite Hr. auto.
  - rewrite Fl. auto.
Qed.

Lemma binv_commit k p : blk k -> binv p -> binv (commit_key k p).
Proof.
  intros Bk [A B C D E F G H I]. destruct E as (t1 & t2 & t3 & t4 & t5 & t6).
  constructor; auto; try discriminate. apply mk_typed; auto. apply (wf_scbk (sc p)); auto.
Qed.

Lemma reply_phase_cases e p q o : env_ok e -> binv p -> reply_phase e p = Ok (q, o) ->
  exists q1 ok, reply_sent e p q1 ok o /\ binv q1 /\ pd_inv q /\
  ((q = state_reset false q1 /\ ~ (ok = true /\ cmd_id p = CMD_KEYSET /\ reply_id p = REPLY_ACK)) \/
   (ok = true /\ cmd_id p = CMD_KEYSET /\ reply_id p = REPLY_ACK /\
    exists k, eph p = EphKey k /\ q = state_reset false (commit_key k q1))).
Proof.
  intros K I H. unfold reply_phase in H.
  destruct (send_reply e p) as [[[q1 ok] o1]| |] eqn:SR; cbn [bind] in H; try discriminate.
  pose proof (send_reply_spec e p q1 ok o1 (iv_mode p I) (iv_ty p I) (eo_rand e K) (tx_buf_le p) SR) as S.
  change (reply_sent e p q1 ok o1) in S.
  pose proof (reply_sent_ids e p q1 ok o1 S) as (J1 & J2 & J3).
  pose proof (reply_sent_binv e p q1 ok o1 K I S) as I1.
  exists q1, ok. destruct ok.
  - rewrite J1, J2 in H. destruct ((cmd_id p =? CMD_KEYSET) && (reply_id p =? REPLY_ACK)) eqn:E.
    + rewrite J3 in H. destruct (eph p) as [| | | |k] eqn:EE; try discriminate. inv H.
      assert (Bk : blk k).
      { pose proof (iv_ty p I) as (_ & T & _). rewrite EE in T. exact T. }
      split; auto. split; auto. split; [apply inv_reset; apply binv_commit; auto|].
      right. split; auto. split; [lia|]. split; [lia|]. exists k. split; auto.
    + inv H. split; auto. split; auto. split; [apply inv_reset; auto|]. left. split; auto. lia.
  - inv H. split; auto. split; auto. split; [apply inv_reset; auto|]. left. split; auto. intros [X _]; discriminate.
Qed.

(* one refresh, every case; p0 is the device after the session timeout check *)
Definition bumped (e : env) (p : pd) : pd := if sc_active (fl p) then set_sc_tstamp (e_now e) p else p.

Definition refresh_case (e : env) (p0 q : pd) (o : list out) : Prop :=
  (* no complete frame *)
  (exists p1 k, no_frame e p0 p1 k /\ rx_sync p1 /\ binv p1 /\ o = [] /\
     ((k = KNoData /\ q = p1) \/
      (k = KWait /\ e_now e - tstamp p1 < RESP_TOUT /\ q = p1) \/
      (k = KWait /\ RESP_TOUT <= e_now e - tstamp p1 /\ q = pd_error_reset p1) \/
      (k = KFmt /\ q = pd_error_reset p1) \/
      (k = KSkip /\ q = state_reset false p1))) \/
  (* a complete frame *)
  (exists p1, got_frame e p0 p1 /\ binv p1 /\ bytes (frame_of p1) /\
     let b := frame_of p1 in
     let ps := pd_seen b p1 in
     ((~ f_intact b /\ o = [] /\ q = pd_error_reset p1) \/
      (f_intact b /\ ~ f_mine (address p0) b /\ o = [] /\ q = state_reset false p1) \/
      (f_intact b /\ f_mine (address p0) b /\ ~ seq_ok (seqn p0) (f_seq b) /\ reply_phase e (nak 4 ps) = Ok (q, o)) \/
      (f_intact b /\ f_mine (address p0) b /\ seq_ok (seqn p0) (f_seq b) /\ binv ps /\ full ps /\
       exists p2 r, decode_packet ps = Ok (p2, r) /\ binv p2 /\ full p2 /\
       ((r = DErr (-6) /\ reply_phase e p2 = Ok (q, o)) \/
        (exists c, r = DErr c /\ c <> -6 /\ o = [] /\ q = pd_error_reset p2) \/
        (exists l p3 o1, r = DData l /\ bytes l /\ l <> [] /\ binv p3 /\
           ((decode_command e p2 l = Ok (p3, RNone, o1) /\ exists o2, reply_phase e (bumped e p3) = Ok (q, o2) /\ o = o1 ++ o2) \/
            (decode_command e p2 l = Ok (p3, RReply, o1) /\ exists o2, reply_phase e p3 = Ok (q, o2) /\ o = o1 ++ o2) \/
            (decode_command e p2 l = Ok (p3, RWait, o1) /\ o = o1 /\ full p3 /\ rx_sync p3 /\
              ((e_now e - tstamp p3 < RESP_TOUT /\ q = p3) \/ (RESP_TOUT <= e_now e - tstamp p3 /\ q = pd_error_reset p3))))))))).

Lemma frame_bytes p : bytes (pbuf p) -> bytes (frame_of p).
Proof. intros. unfold frame_of. apply bytes_sub; auto. Qed.

Lemma binv_bumped e p : binv p -> binv (bumped e p).
Proof. intros [A B C D E F G H I]. unfold bumped. dif; constructor; auto. Qed.

(* the outcome of the receive step *)
Definition rap_case (e : env) (p0 p3 : pd) (r : pderr) (o : list out) : Prop :=
  (exists p1 k, no_frame e p0 p1 k /\ rx_sync p1 /\ binv p1 /\ o = [] /\
     ((k = KNoData /\ r = RNoData /\ p3 = p1) \/
      (k = KWait /\ r = RWait /\ p3 = p1) \/
      (k = KFmt /\ r = RGeneric /\ p3 = p1) \/
      (k = KSkip /\ r = RIgnore /\ p3 = state_reset false p1))) \/
  (exists p1, got_frame e p0 p1 /\ binv p1 /\ bytes (frame_of p1) /\
     let b := frame_of p1 in
     let ps := pd_seen b p1 in
     ((~ f_intact b /\ r = RGeneric /\ o = [] /\ p3 = p1) \/
      (f_intact b /\ ~ f_mine (address p0) b /\ r = RIgnore /\ o = [] /\ p3 = state_reset false p1) \/
      (f_intact b /\ f_mine (address p0) b /\ ~ seq_ok (seqn p0) (f_seq b) /\ r = RReply /\ o = [] /\ p3 = nak 4 ps) \/
      (f_intact b /\ f_mine (address p0) b /\ seq_ok (seqn p0) (f_seq b) /\ binv ps /\ full ps /\
       exists p2 d, decode_packet ps = Ok (p2, d) /\ binv p2 /\ full p2 /\
       ((d = DErr (-6) /\ r = RReply /\ o = [] /\ p3 = p2) \/
        (exists c, d = DErr c /\ c <> -6 /\ r = RGeneric /\ o = [] /\ p3 = p2) \/
        (exists l, d = DData l /\ bytes l /\ l <> [] /\ binv p3 /\ full p3 /\ rx_sync p3 /\
           decode_command e p2 l = Ok (p3, r, o) /\ (r = RNone \/ r = RReply \/ r = RWait)))))).

Lemma bind_Ok {A B} (a : A) (f : A -> res B) : bind (Ok a) f = f a.
Proof. reflexivity. Qed.

Lemma bind_inv {A B} (x : res A) (f : A -> res B) b : bind x f = Ok b -> exists a, x = Ok a /\ f a = Ok b.
Proof. destruct x; simpl; intros; try discriminate. eauto. Qed.

(* decision part of the receive step, isolated *)
Definition rap_k (e : env) (x : pd * pkterr) : res (pd * pderr * list out) :=
  match x with
  | (p1, KNack) => Ok (p1, RReply, [])
  | (p1, KNoData) => Ok (p1, RNoData, [])
  | (p1, KWait) => Ok (p1, RWait, [])
  | (p1, KSkip) => Ok (state_reset false p1, RIgnore, [])
  | (p1, KFmt) => Ok (p1, RGeneric, [])
  | (p1, KCheck) => Ok (p1, RIgnore, [])
  | (p1, KBusy) => Ok (p1, RNoData, [])
  | (p1, KBuild) => Ok (p1, RGeneric, [])
  | (p1, KNone) =>
      do y <- decode_packet p1 ;
      match y with
      | (p2, DErr c) => Ok (p2, if c =? -6 then RReply else RGeneric, [])
      | (p2, DData l) => decode_command e p2 l
      end
  end.

Lemma rap_eq e p : receive_and_process e p = bind (check_packet e p) (rap_k e).
Proof. reflexivity. Qed.

Lemma rap_none e p q r o : rap_k e (p, KNone) = Ok (q, r, o) ->
  exists p2 d, decode_packet p = Ok (p2, d) /\
  ((d = DErr (-6) /\ r = RReply /\ o = [] /\ q = p2) \/
   (exists c, d = DErr c /\ c <> -6 /\ r = RGeneric /\ o = [] /\ q = p2) \/
   (exists l, d = DData l /\ decode_command e p2 l = Ok (q, r, o))).
Proof.
  intros H. simpl in H. apply bind_inv in H as ([p2 d] & E & H). exists p2, d. split; auto.
  destruct d as [c|l].
  - destruct (c =? -6) eqn:EC; inv H.
    + left. repeat split. f_equal. lia.
    + right. left. exists c. repeat split. lia.
  - right. right. eauto.
Qed.

Lemma rap_cases e p0 p3 r o : env_ok e -> pd_inv p0 -> receive_and_process e p0 = Ok (p3, r, o) ->
  rap_case e p0 p3 r o.
Proof.
  intros K [I F Y] H. rewrite rap_eq in H.
  destruct (check_packet_cases e p0) as [(X & _)|[(p1 & k & X & N & Y1 & _)|(p1 & X & G & Y1 & _)]].
  { split; auto. apply I. }
  { apply (eo_rx e K). }
  - rewrite X in H. discriminate.
  - rewrite X, bind_Ok in H. left. exists p1, k. split; auto.
    pose proof N as (N1 & N2 & _ & _ & N3).
    pose proof (binv_rx p0 p1 I N1 (proj1 N2)) as I1. split; [apply Y1; auto|]. split; auto.
    destruct k; try contradiction; inv H; (split; [reflexivity|]); auto 8.
  - pose proof G as (N1 & N2 & _).
    pose proof (binv_rx p0 p1 I N1 (proj1 N2)) as I1.
    assert (A1 : address p1 = address p0) by exact (f_equal (fun x => address x) N1).
    assert (S1 : seqn p1 = seqn p0) by exact (f_equal (fun x => seqn x) N1).
    right. exists p1. split; auto. split; auto.
    assert (Bf : bytes (frame_of p1)) by (apply frame_bytes; apply (iv_ty p1 I1)).
    split; auto. cbv zeta.
    assert (Lf : 6 <= zlen (frame_of p1)).
    { destruct G as (_ & _ & _ & _ & _ & _ & S & _). destruct S as (_ & _ & _ & S). lia. }
    pose proof (binv_seen (frame_of p1) p1 I1) as Is.
    pose proof (full_seen (frame_of p1) p1 (got_full e p0 p1 G)) as Fs.
    pose proof (pd_frame p1 (frame_of p1) (iv_mode p1 I1) (iv_skip p1 I1) (iv_seq p1 I1) Bf Lf) as C.
    rewrite X, bind_Ok in H. rewrite A1, S1 in C.
    assert (Ys : rx_sync (pd_seen (frame_of p1) p1)).
    { unfold pd_seen. destruct (f_seq _ =? 0), (f_addr _ =? 127); exact (Y1 Y). }
    generalize dependent (pd_seen (frame_of p1) p1). intros ps Is Fs C Ys.
    destruct C as [(C1 & C2)|[(C1 & C2 & C3)|[(C1 & C2 & C3 & C4)|(C1 & C2 & C3 & C4)]]].
    + rewrite C2 in H. inv H. left. auto.
    + rewrite C3 in H. inv H. right. left. auto.
    + rewrite C4 in H. do 3 right. split; auto. split; auto. split; auto. split; auto. split; auto.
      apply rap_none in H as (p2 & d & DP & H).
      pose proof (decode_packet_inv _ _ _ Is Fs DP) as (I2 & F2 & R2).
      exists p2, d. split; auto. split; auto. split; auto.
      destruct H as [H|[H|(l & Hd & DC)]]; [left; auto|right; left; auto|].
      right. right. exists l. subst d. destruct R2 as [Bl Nl].
      pose proof (decode_command_inv e p2 l p3 r o K Bl I2 DC) as [I3 F3].
      pose proof (decode_command_core e p2 l p3 r o DC) as (_ & _ & _ & _ & R1 & R3 & R4).
      assert (Y3 : rx_sync p3).
      { pose proof (decode_packet_core _ _ _ (iv_mode _ Is) DP) as (_ & _ & _ & _ & _ & HM & _ & _ & HB & _).
        pose proof (decode_packet_prefix _ _ _ (proj2 (proj2 (proj2 (proj2 (proj2 (iv_ty _ Is)))))) (proj1 (proj2 (proj2 (proj2 (proj2 (iv_ty _ Is)))))) DP) as PX.
        pose proof (decode_command_core e p2 l p3 r o DC) as (CC & _).
        apply (sync_keep ps); auto.
        - apply (iv_ty _ Is).
        - destruct Fs as (? & ? & _). lia.
        - rewrite <- HB. exact (f_equal (fun x => pblen x) CC).
        - rewrite <- HM. exact (f_equal (fun x => has_mark (fl x)) CC).
        - rewrite <- PX. f_equal. exact (f_equal (fun x => pbuf x) CC). }
      split; auto. split; auto. split; auto. split; auto. split; auto. split; auto. split; auto.
      destruct r; try congruence; auto.
    + rewrite C4 in H. right. right. left. inv H. auto 8.
Qed.

Lemma refresh_cases e p q o : env_ok e -> pd_inv p -> pd_refresh e p = Ok (q, o) ->
  refresh_case e (sc_timeout e p) q o.
Proof.
  intros K I0 H. unfold pd_refresh in H. pose proof (inv_timeout e p I0) as I.
  set (p0 := sc_timeout e p) in *. clearbody p0. clear I0 p.
  apply bind_inv in H as ([[p3 r] o1] & RA & H).
  pose proof (rap_cases e p0 p3 r o1 K I RA) as C. clear RA.
  destruct C as [(p1 & k & N & Y1 & I1 & -> & C)|(p1 & G & I1 & Bf & C)].
  - left. exists p1, k. split; auto. split; auto. split; auto.
    destruct C as [(-> & -> & ->)|[(-> & -> & ->)|[(-> & -> & ->)|(-> & -> & ->)]]].
    + inv H. auto.
    + destruct (e_now e - tstamp p1 <? RESP_TOUT) eqn:ET; inv H; (split; [reflexivity|]); right; [left|right; left];
        (split; [reflexivity|]); (split; [lia|reflexivity]).
    + inv H. auto 8.
    + inv H. auto 8.
  - right. exists p1. split; auto. split; auto. split; auto. cbv zeta in *.
    destruct C as [(C1 & -> & -> & ->)|[(C1 & C2 & -> & -> & ->)|[(C1 & C2 & C3 & -> & -> & C4)|(C1 & C2 & C3 & C4 & C5 & p2 & d & C6 & I2 & F2 & C)]]].
    + inv H. auto.
    + inv H. auto 8.
    + right. right. left. rewrite <- C4. split; auto. split; auto. split; auto.
      apply bind_inv in H as ([p4 o4] & R & H). rewrite R. exact H.
    + do 3 right. split; auto. split; auto. split; auto. split; auto. split; auto. exists p2, d. split; auto. split; auto. split; auto.
      destruct C as [(-> & -> & -> & ->)|[(c & -> & C7 & -> & -> & ->)|(l & -> & Bl & Nl & I3 & F3 & Y3 & DC & R)]].
      * left. split; auto. apply bind_inv in H as ([p4 o4] & R & H). rewrite R. exact H.
      * inv H. right. left. exists c. auto.
      * right. right. exists l, p3, o1. split; auto. split; auto. split; auto. split; auto.
        destruct R as [->|[->| ->]].
        -- left. split; auto. apply bind_inv in H as ([p4 o4] & R & H). inv H. exists o4. auto.
        -- right. left. split; auto. apply bind_inv in H as ([p4 o4] & R & H). inv H. exists o4. auto.
        -- right. right. split; auto. destruct (e_now e - tstamp p3 <? RESP_TOUT) eqn:ET; inv H; (split; auto); (split; auto); (split; auto).
           ++ left. split; auto; lia.
           ++ right. split; auto; lia.
Qed.

Lemma no_frame_wf e p q k : no_frame e p q k -> rx_wf q.
Proof. intros (_ & H & _). exact H. Qed.

Lemma refresh_inv e p q o : env_ok e -> pd_inv p -> pd_refresh e p = Ok (q, o) -> pd_inv q.
Proof.
  intros K I H. apply refresh_cases in H; auto.
  destruct H as [(p1 & k & N & Y1 & I1 & _ & C)|(p1 & G & I1 & _ & C)].
  - destruct C as [(_ & ->)|[(_ & _ & ->)|[(_ & _ & ->)|[(_ & ->)|(_ & ->)]]]];
      try (apply inv_error_reset; auto); try (apply inv_reset; auto); constructor; auto; apply (no_frame_wf _ _ _ _ N).
  - destruct C as [(_ & _ & ->)|[(_ & _ & _ & ->)|[(_ & _ & _ & C)|(_ & _ & _ & Is & _ & p2 & r & _ & I2 & F2 & C)]]].
    + apply inv_error_reset; auto.
    + apply inv_reset; auto.
    + apply reply_phase_cases in C as (q1 & ok & _ & _ & C & _); auto. apply binv_nak; [unfold byte; lia|]. apply binv_seen; auto.
    + destruct C as [(_ & C)|[(c & _ & _ & _ & ->)|(l & p3 & o1 & _ & _ & _ & I3 & C)]].
      * apply reply_phase_cases in C as (q1 & ok & _ & _ & C & _); auto.
      * apply inv_error_reset; auto.
      * destruct C as [(_ & o2 & C & _)|[(_ & o2 & C & _)|(_ & _ & F3 & Y3 & [(_ & ->)|(_ & ->)])]].
        -- apply reply_phase_cases in C as (q1 & ok & _ & _ & C & _); auto. apply binv_bumped; auto.
        -- apply reply_phase_cases in C as (q1 & ok & _ & _ & C & _); auto.
        -- constructor; auto. apply full_fill; auto.
        -- apply inv_error_reset; auto.
Qed.
