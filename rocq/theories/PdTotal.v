(** PD: which packets can end a refresh in undefined behaviour or an assertion. *)
From Verif Require Import Base ListLemmas Crc SpecCrc CrcProofs CrcBurst Aes AesProofs Rb RbProofs
  Types Sc ScProofs Phy PhyCheck File Pd SpecRx SpecFrame SpecSec SpecSession SpecReply SpecCmd MacProofs RxProofs RxFwd PdRx PdCore PhyTx PdTx PdReply
  PdStep PdWire PdFwd SpecPd PdRun PdSpeak PdPlain PdSec PdRefuse PdFacts PdKinds WireSec SaysProofs SpecTotal.
From Coq Require Import ZifyBool ZifyNat.
Ltac Zify.zify_post_hook ::= Z.div_mod_to_equations.
Local Opaque aes_ecb_encrypt aes_cbc_encrypt aes_cbc_decrypt mac_of RB_SIZE osdp_mac enc1 cap_entries.

Lemma decode_packet_total p : rx_base p -> full p ->
  (exists y, decode_packet p = Ok y) \/ (sc_active (fl p) = true /\ block_too_long (frame_of p)).
Proof.
  intros (_ & _ & LB & BB) F.
  destruct (frame_from p LB F) as (Z1 & Z2 & Z3).
  assert (PB : pblen p = plen p) by apply F. assert (PL : 6 <= plen p <= 256) by apply F.
  pose proof (mark_len_cases p) as ML.
  assert (G : forall i, (Z.to_nat i < length (frame_of p))%nat -> getb (from (pbuf p) (mark_len p)) i = nth (Z.to_nat i) (frame_of p) 0) by (intros; apply Z2; auto).
  unfold zlen in Z1.
  assert (G4 : getb (from (pbuf p) (mark_len p)) 4 = nth 4 (frame_of p) 0) by (apply (G 4); lia).
  assert (B5 : byte (nth 5 (frame_of p) 0)) by (apply bytes_nth; unfold frame_of, sub; apply bytes_firstn, bytes_skipn; auto).
  assert (C1 : ctl_scb (getb (from (pbuf p) (mark_len p)) 4) = f_scb (frame_of p)) by (rewrite f_scb_ctl; rewrite G4; reflexivity).
  assert (C2 : ctl_crc (getb (from (pbuf p) (mark_len p)) 4) = f_crc (frame_of p)) by (rewrite f_crc_ctl; rewrite G4; reflexivity).
  unfold decode_packet. cbv zeta. rewrite C1, C2, PB.
  assert (T2 : 1 <= f_tail (frame_of p) <= 2) by (unfold f_tail; destruct (f_crc (frame_of p)); lia).
  assert (LF : zlen (frame_of p) = plen p - mark_len p) by (unfold zlen; lia).
  change (if f_crc (frame_of p) then 2 else 1) with (f_tail (frame_of p)).
  rewrite <- LF. set (f := frame_of p) in *. unfold byte in B5. unfold block_too_long.
  destruct (f_scb f) eqn:SCB.
  - destruct (pd_mode (fl p) && _); [left; eauto|].
    set (g := from (pbuf p) (mark_len p)) in *.
    assert (LG : zlen g = 256 - mark_len p) by (unfold g, from, zlen; rewrite skipn_length; lia).
    destruct ((getb g 6 <? SCS_11) || (getb g 6 >? SCS_18)) eqn:T; [left; eauto|].
    destruct (negb (sc_active (fl p)) && _) eqn:T3; [left; eauto|].
    assert (FS : f_start f = 5 + nth 5 f 0) by (unfold f_start; rewrite SCB; reflexivity).
    set (p1 := if _ && _ && _ then _ else _). clearbody p1.
    destruct (sc_active (fl p) && (SCS_15 <=? getb g 6)) eqn:AS; [|left; eauto].
    apply Bool.andb_true_iff in AS as [A1 A2]. unfold decode_secure.
    destruct (Z.ltb_spec (zlen f - f_tail f - f_start f) 5) as [LT|GE]; [right; auto|left].
    assert (G5 : getb g 5 = nth 5 f 0) by (apply (G 5); unfold zlen in GE, LF |- *; lia). rewrite G5.
    unfold compute_mac. destruct (zlen (firstn _ g) =? 0) eqn:Z0.
    { exfalso. unfold zlen in Z0, LG, GE, LF. rewrite firstn_length in Z0. unfold zlen in *. lia. }
    cbn [bind]. destruct (negb (eqb_bytes _ _)); [eauto|].
    destruct ((getb g 6 =? SCS_17) || (getb g 6 =? SCS_18)); [|eauto].
    assert (N0 : (zlen f - f_tail f - 5 - nth 5 f 0 - 4 - 1 <? 0) = false) by lia. rewrite N0. cbn [andb].
    destruct (decrypt_data _ _ _ _) as [[d m]|]; eauto.
  - destruct (if pd_mode (fl p) then _ else _); left; eauto.
Qed.

(* the file record behind a pending status report *)
Definition off_next (f : filest) : Z := if Types.f_len f >? 0 then u32 (f_off f + Types.f_len f) else f_off f.
Definition stat_ok (p : pd) : Prop :=
  match file p with None => True | Some f => in_progress f = false \/ off_next f <= f_size f end.

(* the union holds what the pending answer reads *)
Record answer_ok (p : pd) : Prop := {
  ao_st : In (reply_id p) [72; 73; 74; 75] -> exists t n m, eph p = EphEv (EStatus t n m);
  ao_key : reply_id p = 83 -> exists a n d, eph p = EphEv (EKey a n d) /\ event_small (EKey a n d);
  ao_raw : reply_id p = 80 -> exists a b c n d, eph p = EphEv (ECard a b c n d) /\ event_small (ECard a b c n d);
  ao_com : reply_id p = 84 -> exists a b, eph p = EphCmd (CComset a b);
  ao_nak : reply_id p = 65 -> exists c, eph p = EphNak c;
  ao_mfg : reply_id p = 144 -> exists v c n d, eph p = EphEv (EMfgrep v c n d) /\ event_small (EMfgrep v c n d);
  ao_ack : cmd_id p = 117 -> reply_id p = 64 -> exists k, eph p = EphKey k
}.
Definition caps_small (cs : list capent) : Prop :=
  c_num (nth 1 cs (mkCap 0 0 0)) <= 32 /\ c_num (nth 2 cs (mkCap 0 0 0)) <= 32.
Record ready (p : pd) : Prop := {
  rd_ans : answer_ok p;
  rd_stat : reply_id p = 122 -> tx_buf_size p < 69 \/ stat_ok p;
  rd_evq : Forall event_small (evq p);
  rd_caps : caps_small (caps p)
}.

Lemma assert_ok {A} n m (k : res A) : n < m -> assert_len n m k = k.
Proof. intros H. unfold assert_len. destruct (Z.ltb_spec n m); [auto|lia]. Qed.
Lemma take_ok l n : 0 <= n <= zlen l -> exists d, take_arr l n = Ok d.
Proof. intros H. unfold take_arr. destruct (Z.ltb_spec n 0); [lia|]. destruct (Z.ltb_spec (zlen l) n); [lia|]. eauto. Qed.

Lemma stat_total e p m : stat_ok p -> exists q l o, file_stat_build e p m = Ok (q, l, o) /\ exists f, q = set_file f p /\ stat_ok (set_file f p).
Proof.
  intros S. unfold stat_ok in S. unfold file_stat_build. destruct (file p) as [f|] eqn:E.
  2:{ exists p, None, []. split; [reflexivity|]. exists None. split; [|exact I]. destruct p; simpl in E; subst; reflexivity. }
  destruct (in_progress f) eqn:P; cbn [negb].
  2:{ exists p, None, []. split; [reflexivity|]. exists (Some f). split; [destruct p; simpl in E; subst; reflexivity|]. left; auto. }
  assert (SP : p = set_file (Some f) p) by (destruct p; simpl in E; subst; reflexivity).
  destruct (m <? FT_STAT).
  { exists p, None, []. split; [reflexivity|]. exists (Some f). split; [exact SP|]. unfold stat_ok. simpl. rewrite P. exact S. }
  destruct S as [S|S]; [discriminate|]. cbv zeta. fold (off_next f).
  destruct (off_next f >? f_size f) eqn:O; [lia|].
  set (f1 := ff_set_f_off (off_next f) (ff_set_f_len 0 f)).
  assert (S1 : off_next f1 <= f_size f1) by exact S.
  destruct (off_next f =? f_size f).
  - destruct (e_fclose e <? 0); (do 3 eexists; split; [reflexivity|]); eexists; (split; [reflexivity|]); right; exact S.
  - do 3 eexists; split; [reflexivity|]. eexists; (split; [reflexivity|]); right; exact S.
Qed.

Lemma mask_total p fc m t n k : eph p = EphEv (EStatus t n k) -> c_num (cap_at p fc) <= 32 -> 60 <= m -> exists x, build_mask p fc m = Ok x.
Proof.
  intros E C M. unfold build_mask, eph_status. rewrite E. cbn [bind fst snd]. cbv zeta.
  destruct (negb _); [eauto|]. rewrite assert_ok by lia. unfold mask_bits. destruct (_ >? 32) eqn:G; [lia|]. cbn [bind]. eauto.
Qed.

Lemma build_total e p smb m : ready p -> 69 <= tx_buf_size p -> 60 <= m -> exists x, build_switch e p smb m = Ok x.
Proof.
  intros [[A1 A2 A3 A4 A5 A6 A7] S _ [C1 C2]] T M. unfold build_switch. cbv zeta.
  unfold REPLY_ACK, REPLY_PDID, REPLY_PDCAP, REPLY_OSTATR, REPLY_ISTATR, REPLY_LSTATR, REPLY_RSTATR, REPLY_KEYPAD, REPLY_RAW, REPLY_COM, REPLY_NAK, REPLY_MFGREP, REPLY_FTSTAT, REPLY_CCRYPT, REPLY_RMAC_I.
  destruct (reply_id p =? 64) eqn:E1. { rewrite assert_ok by lia. eauto. }
  destruct (reply_id p =? 69) eqn:E2. { rewrite assert_ok by lia. eauto. }
  destruct (reply_id p =? 70) eqn:E3. { rewrite assert_ok by lia. eauto. }
  destruct (reply_id p =? 74) eqn:E4.
  { destruct A1 as (t & n & k & A1); [simpl; lia|]. destruct (mask_total p CAP_OUTPUT m t n k A1 C2 M) as [x ->]. cbn [bind]. eauto. }
  destruct (reply_id p =? 73) eqn:E5.
  { destruct A1 as (t & n & k & A1); [simpl; lia|]. destruct (mask_total p CAP_CONTACT m t n k A1 C1 M) as [x ->]. cbn [bind]. eauto. }
  destruct (reply_id p =? 72) eqn:E6.
  { destruct A1 as (t & n & k & A1); [simpl; lia|]. rewrite assert_ok by lia. unfold eph_status. rewrite A1. cbn [bind]. eauto. }
  destruct (reply_id p =? 75) eqn:E7.
  { destruct A1 as (t & n & k & A1); [simpl; lia|]. rewrite assert_ok by lia. unfold eph_status. rewrite A1. cbn [bind]. eauto. }
  destruct (reply_id p =? 83) eqn:E8.
  { destruct A2 as (a & n & d & A & Q1 & Q2); [lia|]. rewrite A. rewrite assert_ok by lia. destruct (take_ok d n ltac:(lia)) as [x ->]. cbn [bind]. eauto. }
  destruct (reply_id p =? 80) eqn:E9.
  { destruct A3 as (a & b & c & n & d & A & Q1 & Q2); [lia|]. rewrite A. cbv zeta. assert (Q : Z.quot (n + 7) 8 = (n + 7) / 8) by (apply Z.quot_div_nonneg; lia). rewrite Q. clear Q. assert (0 <= (n + 7) / 8 <= 55) by lia. rewrite assert_ok by lia. destruct (take_ok d ((n + 7) / 8) ltac:(lia)) as [x ->]. cbn [bind]. eauto. }
  destruct (reply_id p =? 84) eqn:E10.
  { destruct A4 as (a & b & A); [lia|]. rewrite A. rewrite assert_ok by lia. eauto. }
  destruct (reply_id p =? 65) eqn:E11.
  { destruct A5 as (a & A); [lia|]. rewrite A. rewrite assert_ok by lia. eauto. }
  destruct (reply_id p =? 144) eqn:E12.
  { destruct A6 as (v & a & n & d & A & Q1 & Q2); [lia|]. rewrite A. rewrite assert_ok by lia. destruct (take_ok d n ltac:(lia)) as [x ->]. cbn [bind]. eauto. }
  destruct (reply_id p =? 122) eqn:E13.
  { assert (S' : stat_ok p) by (destruct (S ltac:(lia)); [lia|auto]). destruct (stat_total e p m S') as (p1 & [l|] & o & -> & _); cbn [bind]; eauto. }
  destruct (reply_id p =? 118) eqn:E14. { unfold build_ccrypt. destruct smb; cbn [negb]; [|eauto]. rewrite assert_ok by lia. eauto. }
  destruct (reply_id p =? 120) eqn:E15. { unfold build_rmac. destruct smb; cbn [negb]; [|eauto]. rewrite assert_ok by lia. cbv zeta. destruct (verify_cp_cryptogram _); eauto. }
  eauto.
Qed.

Lemma ready_init p : ready p -> ready (after_init p).
Proof. intros [[A1 A2 A3 A4 A5 A6 A7] S E C]. split; auto. split; auto. Qed.

Lemma reply_total e p : env_ok e -> binv p -> ready p -> exists x, reply_phase e p = Ok x.
Proof.
  intros K B R. assert (M : pd_mode (fl p) = true) by apply B. assert (T : pd_typed p) by apply B.
  assert (S : exists y, send_reply e p = Ok y).
  { destruct (Z.ltb_spec (tx_buf_size p) 69) as [L|L].
    - unfold send_reply. cbv zeta. rewrite packet_init_pd by auto. destruct (Z.ltb_spec (tx_buf_size p) 69); [eauto|lia].
    - assert (RM : 60 <= reply_room p).
      { unfold reply_room. pose proof (pd_hdr_len p). pose proof (mk_of_len p). unfold zlen. rewrite app_length. lia. }
      destruct (build_total e (after_init p) (reply_smb p) (reply_room p) (ready_init p R) L RM) as [x BS].
      apply (send_reply_total e p x M T (eo_rand e K)); auto. pose proof (tx_buf_le p). lia. }
  destruct S as [[[p1 ok] o] S]. unfold reply_phase. rewrite S. cbn [bind].
  pose proof (send_reply_spec e p p1 ok o M T (eo_rand e K) (tx_buf_le p) S) as RS.
  destruct (reply_sent_ids e p p1 ok o RS) as (I1 & I2 & I3).
  destruct ok; [|eauto]. destruct ((cmd_id p1 =? CMD_KEYSET) && (reply_id p1 =? REPLY_ACK)) eqn:KS; [|eauto].
  unfold CMD_KEYSET, REPLY_ACK in KS. destruct (ao_ack p (rd_ans p R)) as [k E]; [lia|lia|]. rewrite I3, E. eauto.
Qed.

(* --- decoding a command --- *)
Lemma ans_plain p : ~ In (reply_id p) [72; 73; 74; 75; 83; 80; 84; 65; 144] -> ~ (cmd_id p = 117 /\ reply_id p = 64) -> answer_ok p.
Proof.
  intros A B. split; intros; exfalso; first [apply B; split; assumption|apply A; cbn [In] in *; intuition].
Qed.
Lemma ans_nak c p : answer_ok (nak c p).
Proof. split; simpl; intros H; try (exfalso; intuition discriminate); eauto; discriminate. Qed.
Lemma nak_ready c p : Forall event_small (evq p) -> caps_small (caps p) -> ready (nak c p).
Proof. intros A B. split; auto; [apply ans_nak|discriminate]. Qed.

Section Decode.
Variable e : env.
Hypothesis KK : keeps_kind e.

(* the state before the switch *)
Definition waiting (c : Z) (p : pd) : Prop := cmd_id p = c /\ reply_id p = 0 /\ Forall event_small (evq p) /\ caps_small (caps p).
Definition fine (r : option (res (pd * pderr * list out))) : Prop :=
  match r with
  | None => True
  | Some x => exists q r o, x = Ok (q, r, o) /\ ((r = RGeneric /\ Forall event_small (evq q) /\ caps_small (caps q)) \/ ready q)
  end.

Lemma fine_bad c p o : waiting c p -> fine (Some (Ok (p, RGeneric, o))).
Proof. intros (A & B & C & D). exists p, RGeneric, o. auto. Qed.
Lemma fine_plain c p q r o : waiting c p -> evq q = evq p -> caps q = caps p -> cmd_id q = c ->
  ~ In (reply_id q) [72; 73; 74; 75; 83; 80; 84; 65; 144; 122] -> ~ (c = 117 /\ reply_id q = 64) -> fine (Some (Ok (q, r, o))).
Proof.
  intros (A & B & C & D) E F G H J. exists q, r, o. split; auto. right. split; [apply ans_plain| |congruence..].
  - cbn [In] in *. intuition.
  - rewrite G. exact J.
  - intros X. exfalso. apply H. cbn [In]. intuition.
Qed.
Lemma fine_nak c p n r o : waiting c p -> fine (Some (Ok (nak n p, r, o))).
Proof. intros (A & B & C & D). exists (nak n p), r, o. split; auto. right. apply nak_ready; auto. Qed.

Lemma fine_status c p ty r : waiting c p -> In r [72; 73; 74; 75] -> fine (Some (do_status e p ty r)).
Proof.
  intros W R. pose proof W as (A & B & C & D). unfold do_status, do_callback.
  destruct (e_cb e 0 (CStatus ty 0 0)) as [rc c1] eqn:E. destruct (rc =? 0) eqn:Z.
  2:{ exists (nak 9 p), RGeneric, [OCmd (CStatus ty 0 0)]. auto. }
  assert (rc = 0) by lia. subst rc. pose proof (KK _ _ _ E) as K. destruct c1; try contradiction.
  do 3 eexists. split; [reflexivity|]. right. cbn [In] in R. 
  split; simpl; auto; [|intuition lia].
  split; simpl; intros; try (exfalso; intuition lia); eauto.
Qed.

Lemma records_same : forall l n p, cmd_id (fst (do_records e n p l)) = cmd_id p /\ evq (fst (do_records e n p l)) = evq p /\ caps (fst (do_records e n p l)) = caps p.
Proof.
  induction l as [|c l IH]; intros n p; cbn [do_records]; [auto|]. destruct (negb _); [auto|]. unfold do_callback.
  destruct (e_cb e n c) as [rc c1]. destruct (rc =? 0); [|auto]. pose proof (IH (S n) p) as X.
  destruct (do_records e (S n) p l); exact X.
Qed.
Lemma fine_multi c p size dec d : waiting c p -> c <> 117 -> fine (Some (do_multi e p size dec d)).
Proof.
  intros W N. unfold do_multi. destruct (_ || _); [eapply fine_bad; eauto|].
  pose proof (records_same (map dec (chunks (Z.to_nat (zlen d / size)) size d)) 0 p) as (X1 & X2 & X3).
  destruct (do_records _ _ _ _) as [p1 o]. cbn [fst] in *. eapply fine_plain; eauto; simpl; auto.
  - rewrite X1. apply W.
  - intuition discriminate.
  - intuition.
Qed.

Lemma file_total c p d : c = 124 -> waiting c p -> ~ overruns p d -> bytes d ->
  fine (Some (do r <- file_tx_decode e p d ;
    match r with
    | (p1, true, o) => Ok (set_reply_id REPLY_FTSTAT p1, RNone, o)
    | (p1, false, o) => Ok (p1, RWait, o)
    end)).
Proof.
  intros -> W NO BD. unfold file_tx_decode, overruns in *. destruct (file p) as [f|] eqn:F.
  2:{ cbn [bind]. eapply fine_plain; eauto; try apply W; destruct W as (_ & W & _); rewrite ?W; simpl; intuition discriminate. }
  destruct (zlen d <=? FT_HDR) eqn:L.
  { cbn [bind]. eapply fine_plain; eauto; try apply W; destruct W as (_ & W & _); rewrite ?W; simpl; intuition discriminate. }
  unfold FT_HDR in *. cbv zeta in *. unfold getb in *.
  change (Z.to_nat 9) with 9%nat in *. change (Z.to_nat 10) with 10%nat in *. change (Z.to_nat 1) with 1%nat in *. change (Z.to_nat 2) with 2%nat in *. change (Z.to_nat 3) with 3%nat in *. change (Z.to_nat 4) with 4%nat in *.
  set (n := le16 (nth 9 d 0) (nth 10 d 0)) in *. set (sz := le32 (nth 1 d 0) (nth 2 d 0) (nth 3 d 0) (nth 4 d 0)) in *.
  change (nth 9 d 0 + 256 * nth 10 d 0) with n in NO.
  change (nth 1 d 0 + 256 * nth 2 d 0 + 65536 * nth 3 d 0 + 16777216 * nth 4 d 0) with sz in NO.
  assert (N1 : n + 11 = zlen d) by (destruct (Z.eq_dec (n + 11) (zlen d)); auto; exfalso; apply NO; split; [lia|left; auto]).
  rewrite N1, Z.eqb_refl. cbn [negb].
  destruct (file_rx_open _ _ _ _ _) as [[f1|] o] eqn:RO.
  2:{ cbn [bind]. eapply fine_plain; eauto; try apply W; destruct W as (_ & W & _); rewrite ?W; simpl; intuition discriminate. }
  destruct (negb (in_progress f1)) eqn:P.
  { cbn [bind]. eapply fine_plain; eauto; try apply W; destruct W as (_ & W & _); simpl; rewrite ?W; simpl; intuition discriminate. }
  destruct (negb (_ =? _)) eqn:Q; cbn [bind].
  { eapply fine_plain; eauto; try apply W; destruct W as (_ & W & _); simpl; rewrite ?W; simpl; intuition discriminate. }
  assert (Q' : e_fwrite e (from d 11) (le32 (nth (Z.to_nat 5) d 0) (nth (Z.to_nat 6) d 0) (nth (Z.to_nat 7) d 0) (nth (Z.to_nat 8) d 0)) = n) by lia. rewrite Q'.
  do 3 eexists. split; [reflexivity|]. right. destruct W as (W1 & W2 & W3 & W4). split; simpl; auto.
  - apply ans_plain; simpl; [intuition discriminate|]. intros [_ X]; discriminate.
  - intros _. right. unfold stat_ok. simpl. right. unfold off_next. simpl. assert (NP : (n >? 0) = true) by lia. rewrite NP.
    unfold file_rx_open in RO.
    assert (G : f_size f1 >= u32 (f_off f1 + n)); [|lia].
    assert (NN : 0 <= n < 65536). { pose proof (bytes_nth d 9 BD) as Y9. pose proof (bytes_nth d 10 BD) as Y10. unfold byte, n, le16 in *. lia. }
    destruct (f_state f) eqn:FS.
    + destruct (has_cb p && _); [discriminate|]. destruct (_ <? 0); [discriminate|]. inversion RO; subst f1. simpl. unfold u32. rewrite Z.mod_small by lia.
      destruct (Z_lt_le_dec sz n); [exfalso; apply NO; split; [lia|right; auto]|lia].
    + inversion RO; subst f1. unfold u32. destruct (Z_lt_le_dec (f_size f) ((f_off f + n) mod 4294967296)); [exfalso; apply NO; split; [lia|right; auto]|lia].
    + destruct (has_cb p && _); [discriminate|]. destruct (_ <? 0); [discriminate|]. inversion RO; subst f1. simpl. unfold u32. rewrite Z.mod_small by lia.
      destruct (Z_lt_le_dec sz n); [exfalso; apply NO; split; [lia|right; auto]|lia].
    + inversion RO; subst f1. unfold u32. destruct (Z_lt_le_dec (f_size f) ((f_off f + n) mod 4294967296)); [exfalso; apply NO; split; [lia|right; auto]|lia].
Qed.

Lemma cb_ack c p x q r o : waiting c p -> c <> 117 ->
  (match do_callback e 0 p x with
   | (p1, false, _, o) => Ok (p1, RReply, o)
   | (p1, true, _, o) => Ok (set_reply_id REPLY_ACK p1, RNone, o)
   end) = Ok (q, r, o) -> fine (Some (Ok (q, r, o))).
Proof.
  intros W N. unfold do_callback. destruct (e_cb e 0 x) as [rc c1]. destruct (rc =? 0); intros H; inv H.
  - eapply fine_plain; eauto; try apply W; simpl; intuition discriminate.
  - eapply fine_nak; eauto.
Qed.
Lemma cb_ok p x : exists q r o, 
  (match do_callback e 0 p x with
   | (p1, false, _, o) => Ok (p1, RReply, o)
   | (p1, true, _, o) => Ok (set_reply_id REPLY_ACK p1, RNone, o)
   end) = Ok (q, r, o).
Proof. unfold do_callback. destruct (e_cb e 0 x) as [rc c1]. destruct (rc =? 0); eauto. Qed.
Lemma fine_cb c p x : waiting c p -> c <> 117 ->
  fine (Some (match do_callback e 0 p x with
   | (p1, false, _, o) => Ok (p1, RReply, o)
   | (p1, true, _, o) => Ok (set_reply_id REPLY_ACK p1, RNone, o)
   end)).
Proof. intros W N. destruct (cb_ok p x) as (q & r & o & E). rewrite E. eapply cb_ack; eauto. Qed.

Lemma fine_text c p d : waiting c p -> c <> 117 -> fine (Some (do_text e p d)).
Proof.
  intros W N. unfold do_text. destruct (_ || _); [eapply fine_bad; eauto|]. cbv zeta. destruct (_ || _); [eapply fine_bad; eauto|].
  destruct (negb _); [eapply fine_nak; eauto|]. apply (fine_cb c); auto.
Qed.
Lemma fine_mfg c p d : waiting c p -> c <> 117 -> fine (Some (do_mfg e p d)).
Proof.
  intros W N. unfold do_mfg. destruct (_ || _); [eapply fine_bad; eauto|]. cbv zeta. destruct (_ >? _); [eapply fine_bad; eauto|].
  apply (fine_cb c); auto.
Qed.
Lemma fine_comset c p d : waiting c p -> c <> 117 -> fine (Some (do_comset e p d)).
Proof.
  intros W N. unfold do_comset. destruct (_ || _); [eapply fine_bad; eauto|]. cbv zeta. destruct (_ || _); [eapply fine_bad; eauto|].
  unfold do_callback. destruct (e_cb e 0 _) as [rc c1] eqn:E. destruct (rc =? 0) eqn:Z; [|eapply fine_nak; eauto].
  assert (rc = 0) by lia. subst rc. pose proof (KK _ _ _ E) as K. destruct c1; try contradiction.
  do 3 eexists. split; [reflexivity|]. right. destruct W as (W1 & W2 & W3 & W4).
  split; simpl; auto; [|discriminate]. split; simpl; unfold REPLY_COM, REPLY_ACK; intros; try (exfalso; intuition lia); eauto.
Qed.
Lemma fine_keyset p d : waiting 117 p -> fine (Some (do_keyset e p d)).
Proof.
  intros W. unfold do_keyset. destruct (negb _) eqn:Z18; [eapply fine_bad; eauto|]. apply Bool.negb_false_iff in Z18. apply Z.eqb_eq in Z18. destruct (_ || _); [eapply fine_bad; eauto|]. cbv zeta.
  assert (W' := W). destruct W' as (W1 & W2 & W3 & W4).
  assert (NN : forall a b r o, fine (Some (Ok (nak a (nak b p), r, o)))).
  { intros a b r o. exists (nak a (nak b p)), r, o. split; auto. right. apply nak_ready; auto. }
  destruct (negb _); [apply NN|]. destruct (negb _); [eapply fine_nak; eauto|]. destruct (negb _); [eapply fine_nak; eauto|].
  unfold do_callback. destruct (e_cb e 0 _) as [rc c1] eqn:E. destruct (rc =? 0) eqn:Z; [|apply NN].
  assert (rc = 0) by lia. subst rc. pose proof (KK _ _ _ E) as K. destruct c1; try contradiction. cbv beta iota in K.
  specialize (K ltac:(unfold from, zlen in *; rewrite skipn_length; change (Z.to_nat 2) with 2%nat; lia)).
  match type of K with 16 <= zlen ?k => destruct (take_ok k 16 ltac:(lia)) as [k16 ->] end. cbn [bind].
  do 3 eexists. split; [reflexivity|]. right.
  split; simpl; auto; [|discriminate]. split; simpl; unfold REPLY_COM, REPLY_ACK; intros; try (exfalso; intuition lia); eauto.
Qed.

Lemma fine_event c p ev evs : c = 96 -> waiting c p -> evq p = ev :: evs -> fine (Some (Ok (translate_event (set_evq evs p) ev, RNone, []))).
Proof.
  intros -> (W1 & W2 & W3 & W4) E. rewrite E in W3. inversion W3 as [|? ? S1 S2]; subst.
  do 3 eexists. split; [reflexivity|]. right. unfold translate_event. cbv zeta.
  destruct (event_reply ev =? 0) eqn:Z.
  - split; simpl; auto; [|discriminate]. apply ans_plain; simpl; [intuition discriminate|]. rewrite W1. intros [X _]; discriminate.
  - split; simpl; auto; [|unfold event_reply; destruct ev; try (destruct (_ || _)); try discriminate; repeat (destruct (_ =? _); [discriminate|]); discriminate].
    split; simpl; intros H; try (rewrite W1 in H; discriminate); destruct ev; simpl in *;
      unfold REPLY_KEYPAD, REPLY_MFGREP, REPLY_RAW, REPLY_ISTATR, REPLY_OSTATR, REPLY_LSTATR, REPLY_RSTATR in *;
      repeat match goal with X : context [if ?b then _ else _] |- _ => destruct b end; try (exfalso; lia); eauto 8.
Qed.

Ltac pl := simpl; auto; unfold REPLY_ACK, REPLY_PDID, REPLY_PDCAP, REPLY_CCRYPT, REPLY_RMAC_I; lia.
Lemma switch_total c p d : waiting c p -> bytes d -> ~ (c = 100 /\ has_cb p = false) -> ~ (c = 124 /\ overruns p d) ->
  fine (decode_switch e p c d).
Proof.
  intros W BD N1 N2. unfold decode_switch. cbv zeta.
  unfold CMD_POLL, CMD_LSTAT, CMD_ISTAT, CMD_OSTAT, CMD_RSTAT, CMD_ID, CMD_CAP, CMD_OUT, CMD_LED, CMD_BUZ, CMD_TEXT, CMD_COMSET, CMD_MFG, CMD_ACURXSIZE, CMD_KEEPACTIVE, CMD_ABORT, CMD_FILETRANSFER, CMD_KEYSET, CMD_CHLNG, CMD_SCRYPT.
  pose proof W as (W1 & W2 & W3 & W4).
  assert (BAD : fine (Some (Ok (p, RGeneric, [])))) by (eapply fine_bad; eauto).
  assert (PL : forall q r o, evq q = evq p -> caps q = caps p -> cmd_id q = c -> ~ In (reply_id q) [72; 73; 74; 75; 83; 80; 84; 65; 144; 122] -> ~ (c = 117 /\ reply_id q = 64) -> fine (Some (Ok (q, r, o)))) by (intros; eapply fine_plain; eauto).
  assert (NK : forall n r o, fine (Some (Ok (nak n p, r, o)))) by (intros; eapply fine_nak; eauto).
  destruct (c =? 96) eqn:E1.
  { destruct (negb _); auto. destruct (evq p) as [|ev evs] eqn:EV; [|apply (fine_event c); auto; lia]. apply PL; pl. }
  destruct (c =? 100) eqn:E2.
  { destruct (negb _); auto. destruct (has_cb p) eqn:H; [|exfalso; apply N1; split; [lia|auto]]. simpl. apply (fine_status c); auto; simpl; auto. }
  destruct (c =? 101) eqn:E3.
  { destruct (_ || _); auto. destruct (negb _); auto. apply (fine_status c); auto; simpl; auto. }
  destruct (c =? 102) eqn:E4.
  { destruct (_ || _); auto. destruct (negb _); auto. apply (fine_status c); auto; simpl; auto. }
  destruct (c =? 103) eqn:E5.
  { destruct (_ || _); auto. apply (fine_status c); auto; simpl; auto. }
  destruct (c =? 97) eqn:E6. { destruct (negb _); auto. apply PL; pl. }
  destruct (c =? 98) eqn:E7. { destruct (negb _); auto. apply PL; pl. }
  destruct (c =? 104) eqn:E8. { apply (fine_multi c); auto; lia. }
  destruct (c =? 105) eqn:E9. { apply (fine_multi c); auto; lia. }
  destruct (c =? 106) eqn:E10. { apply (fine_multi c); auto; lia. }
  destruct (c =? 107) eqn:E11. { apply (fine_text c); auto; lia. }
  destruct (c =? 110) eqn:E12. { apply (fine_comset c); auto; lia. }
  destruct (c =? 128) eqn:E13. { apply (fine_mfg c); auto; lia. }
  destruct (c =? 123) eqn:E14. { destruct (_ <? _); auto. apply PL; pl. }
  destruct (c =? 167) eqn:E15. { destruct (_ <? _); auto. apply PL; pl. }
  destruct (c =? 162) eqn:E16.
  { destruct (negb _); auto. unfold file_tx_abort. destruct (file p) as [f|]; [destruct (in_progress f)|]; apply PL; pl. }
  destruct (c =? 124) eqn:E17. { apply (file_total c); auto; [lia|]. intros X. apply N2. split; [lia|auto]. }
  destruct (c =? 117) eqn:E18. { assert (E : c = 117) by lia. rewrite E in W. apply fine_keyset; exact W. }
  destruct (c =? 118) eqn:E19.
  { unfold do_chlng. destruct (negb _); auto. destruct (negb _); auto. apply PL; pl. }
  destruct (c =? 119) eqn:E20.
  { unfold do_scrypt. destruct (negb _); auto. destruct (negb _); auto. destruct (sc_active _); auto. apply PL; pl. }
  exact I.
Qed.

Definition fatal_command (p : pd) (l : list Z) : Prop :=
  let c := getb l 0 in
  (enforce (fl p) = true /\ sc_active (fl p) = false /\ unnamed c) \/ (c = 100 /\ has_cb p = false) \/
  (c = 124 /\ overruns p (from l 1)).

Lemma command_total p l : ready p -> bytes l ->
  (exists q r o, decode_command e p l = Ok (q, r, o) /\ ready q) \/ fatal_command p l.
Proof.
  intros R BL. unfold decode_command, fatal_command. cbv zeta. set (c := getb l 0). set (d := from l 1).
  set (p1 := set_cmd_id c (set_reply_id 0 p)).
  assert (W : waiting c p1) by (split; [reflexivity|split; [reflexivity|split; apply R]]).
  destruct (enforce (fl p1) && negb (sc_active (fl p1)) && negb (plain_allowed c)) eqn:G.
  { destruct (cmd_name_null c) eqn:N.
    - right. left. apply name_null_eq in N. change (fl p1) with (fl p) in G. apply Bool.andb_true_iff in G as [G _]. apply Bool.andb_true_iff in G as [G1 G2]. apply Bool.negb_true_iff in G2. auto.
    - left. do 3 eexists. split; [reflexivity|]. apply nak_ready; apply W. }
  destruct (Z.eq_dec c 100) as [C1|C1].
  { destruct (has_cb p) eqn:H; [|right; right; left; auto]. left.
    pose proof (switch_total c p1 d W) as S. destruct (decode_switch e p1 c d) as [x|].
    2:{ do 3 eexists. split; [reflexivity|]. apply nak_ready; apply W. }
    destruct S as (q & r & o & -> & S).
    - unfold d, from. apply bytes_skipn; auto.
    - intros [_ X]. change (has_cb p1) with (has_cb p) in X. congruence.
    - intros [X _]. lia.
    - cbn [bind]. destruct S as [(-> & S1 & S2)|S].
      + do 3 eexists. split; [reflexivity|]. apply nak_ready; auto.
      + destruct r; do 3 eexists; (split; [reflexivity|]); auto; apply nak_ready; apply S. }
  assert (OV : ~ (c = 124 /\ overruns p d) -> exists q r o, (match decode_switch e p1 c d with
    | None => Ok (nak 3 p1, RReply, [])
    | Some r => do x <- r ; match x with (p2, RGeneric, o) => Ok (nak 2 p2, RReply, o) | y => Ok y end end) = Ok (q, r, o) /\ ready q).
  { intros NO. pose proof (switch_total c p1 d W) as S. destruct (decode_switch e p1 c d) as [x|].
    2:{ do 3 eexists. split; [reflexivity|]. apply nak_ready; apply W. }
    destruct S as (q & r & o & -> & S).
    - unfold d, from. apply bytes_skipn; auto.
    - intros [X _]. auto.
    - exact NO.
    - cbn [bind]. destruct S as [(-> & S1 & S2)|S].
      + do 3 eexists. split; [reflexivity|]. apply nak_ready; auto.
      + destruct r; do 3 eexists; (split; [reflexivity|]); auto; apply nak_ready; apply S. }
  destruct (Z.eq_dec c 124) as [C2|C2]; [|left; apply OV; intuition].
  unfold overruns in *. destruct (file p) as [f|] eqn:F; [|left; apply OV; intuition]. cbv zeta in *.
  set (n := nth 9 d 0 + 256 * nth 10 d 0) in *.
  destruct (Z_lt_le_dec 11 (zlen d)) as [L|L]; [|left; apply OV; intros (_ & X & _); lia].
  destruct (Z.eq_dec (n + 11) (zlen d)) as [L2|L2]; [|right; right; right; auto].
  destruct (f_state f).
  all: match goal with |- context [?a \/ (?b < ?x)] => destruct (Z_lt_le_dec b x) as [Y|Y] end.
  all: try (right; right; right; split; [exact C2|split; [exact L|right; exact Y]]).
  all: left; apply OV; intros (_ & _ & [X|X]); [exact (X L2)|lia].
Qed.
End Decode.

(* --- the reply phase keeps the invariant --- *)
Lemma ready_set_file f p : ready p -> (reply_id p = 122 -> tx_buf_size p < 69 \/ stat_ok (set_file f p)) -> ready (set_file f p).
Proof. intros [[A1 A2 A3 A4 A5 A6 A7] S E C] H. split; auto. split; auto. Qed.

Lemma ready_same p q : cmd_id q = cmd_id p -> reply_id q = reply_id p -> eph q = eph p -> evq q = evq p -> caps q = caps p ->
  file q = file p -> peer_rx q = peer_rx p -> ready p -> ready q.
Proof.
  intros E1 E2 E3 E4 E5 E6 E7 [[A1 A2 A3 A4 A5 A6 A7] S E C]. split; [split| |rewrite E4; auto|rewrite E5; auto].
  all: try (rewrite ?E1, ?E2, ?E3; assumption). unfold stat_ok, tx_buf_size in *. rewrite E2, E6, E7. assumption.
Qed.

Lemma switch_stat e p smb m q pay ss o : reply_id p = 122 -> 69 <= tx_buf_size p -> ready p -> build_switch e p smb m = Ok (q, pay, ss, o) -> ready q.
Proof.
  intros R TX RD H. destruct (rd_stat p RD R) as [S|S]; [lia|]. destruct (stat_total e p m S) as (q1 & l & o1 & E & f & E2 & E3).
  unfold build_switch in H. rewrite R in H. cbv zeta in H. change (122 =? REPLY_ACK) with false in H. change (122 =? REPLY_PDID) with false in H.
  change (122 =? REPLY_PDCAP) with false in H. change (122 =? REPLY_OSTATR) with false in H. change (122 =? REPLY_ISTATR) with false in H. change (122 =? REPLY_LSTATR) with false in H.
  change (122 =? REPLY_RSTATR) with false in H. change (122 =? REPLY_KEYPAD) with false in H. change (122 =? REPLY_RAW) with false in H. change (122 =? REPLY_COM) with false in H.
  change (122 =? REPLY_NAK) with false in H. change (122 =? REPLY_MFGREP) with false in H. change (122 =? REPLY_FTSTAT) with true in H. cbv iota in H.
  rewrite E in H. cbn [bind] in H. destruct l; inv H; apply ready_set_file; auto.
Qed.

Lemma ready_sent e p q ok o : reply_sent e p q ok o -> ready p -> ready q.
Proof.
  intros H R. assert (H' := H). destruct H' as [(_ & -> & _)|(TX & p2 & pay & ss & m & smb & ob & ot & BS & _ & _ & BR & _ & T & _)]; auto.
  assert (R2 : ready p2).
  { apply ready_init in R. destruct (Z.eq_dec (reply_id (after_init p)) 122) as [E|E]; [eapply switch_stat; eauto|].
    destruct BR as [->|[(_ & a & b & _ & ->)|[(X & fx & ->)|[(_ & ->)|[(_ & _ & ->)|(_ & _ & ->)]]]]]; auto.
    - eapply ready_same; [..|exact R]; reflexivity.
    - contradiction.
    - eapply ready_same; [..|exact R]; reflexivity.
    - eapply ready_same; [..|exact R]; reflexivity.
    - eapply ready_same; [..|exact R]; reflexivity. }
  eapply ready_same; [..|exact R2].
  - exact (f_equal (fun x => cmd_id x) T).
  - exact (f_equal (fun x => reply_id x) T).
  - exact (f_equal (fun x => eph x) T).
  - exact (f_equal (fun x => evq x) T).
  - exact (f_equal (fun x => caps x) T).
  - exact (f_equal (fun x => file x) T).
  - exact (f_equal (fun x => peer_rx x) T).
Qed.

Lemma ready_reset p : ready p -> ready (state_reset false p).
Proof. intros R. eapply ready_same; [..|exact R]; reflexivity. Qed.
Lemma ready_error p : ready p -> ready (pd_error_reset p).
Proof. intros R. eapply ready_same; [..|exact R]; reflexivity. Qed.
Lemma ready_commit k p : ready p -> ready (commit_key k p).
Proof. intros R. eapply ready_same; [..|exact R]; reflexivity. Qed.

Lemma ready_reply e p q o : env_ok e -> binv p -> ready p -> reply_phase e p = Ok (q, o) -> ready q.
Proof.
  intros K B R H. destruct (reply_phase_cases e p q o K B H) as (q1 & ok & S & _ & _ & [(-> & _)|(_ & _ & _ & k & _ & ->)]).
  - apply ready_reset. eapply ready_sent; eauto.
  - apply ready_reset, ready_commit. eapply ready_sent; eauto.
Qed.

Lemma ready_near p q : near p q -> nak_or_same p q -> ready p -> ready q.
Proof.
  intros (C & _) N R.
  assert (E1 : cmd_id q = cmd_id p) by exact (f_equal (fun x => cmd_id x) C).
  assert (E4 : evq q = evq p) by exact (f_equal (fun x => evq x) C).
  assert (E5 : caps q = caps p) by exact (f_equal (fun x => caps x) C).
  assert (E6 : file q = file p) by exact (f_equal (fun x => file x) C).
  assert (E7 : peer_rx q = peer_rx p) by exact (f_equal (fun x => peer_rx x) C).
  destruct N as [(N & c & EP)|(N1 & N2)].
  - split; [|rewrite N; discriminate|rewrite E4; apply R|rewrite E5; apply R].
    split; rewrite N; simpl; intros; try (exfalso; lia); eauto.
  - eapply ready_same; eauto.
Qed.

Lemma ready_timeout e p : ready p -> ready (sc_timeout e p).
Proof. intros R. unfold sc_timeout. destruct (_ && _); auto. eapply ready_same; [..|exact R]; reflexivity. Qed.
Lemma ready_bumped e p : ready p -> ready (bumped e p).
Proof. intros R. unfold bumped. destruct (sc_active _); auto. eapply ready_same; [..|exact R]; reflexivity. Qed.

(* decoding leaves the fields a command can depend on *)
Lemma near_ready p q : near p q -> ready p -> reply_id q = reply_id p -> eph q = eph p -> ready q.
Proof. intros N R A B. apply (ready_near p q); auto. right; auto. Qed.

Definition marked_256 (e : env) (p : pd) : Prop :=
  exists noise f, arrived e p = noise ++ 255 :: f /\ nth 0 f 0 = 83 /\ f_reply f = false /\ SpecRx.f_len f = 256 /\ 256 <= zlen f.

(* the frames that can bring the device down *)
Definition fatal_frame (e : env) (p : pd) (f : list Z) : Prop :=
  let act := session_open e p && negb (f_seq f =? 0) in
  (act = true /\ block_too_long f) \/
  (exists c d, f_says act (s_enc (sc p)) (r_mac (sc p)) f (c :: d) /\
     ((enforce (fl p) = true /\ act = false /\ unnamed c) \/ (c = 100 /\ has_cb p = false) \/ (c = 124 /\ overruns p d))).

Lemma binv_reset p : binv p -> binv (state_reset false p).
Proof. intros [A B C D E F G H I]. constructor; auto. Qed.

Lemma finish_total e p r o : env_ok e -> binv p -> ready p -> exists q o', pd_finish e (p, r, o) = Ok (q, o') /\ ready q.
Proof.
  intros K B R. 
  assert (RP : forall x, binv x -> ready x -> exists q o', reply_phase e x = Ok (q, o') /\ ready q).
  { intros x BX RX. destruct (reply_total e x K BX RX) as [[q o'] E]. exists q, o'. split; auto. eapply ready_reply; eauto. }
  destruct r; simpl.
  all: try (do 2 eexists; split; [reflexivity|]; auto using ready_error; fail).
  all: try (destruct (_ <? _); do 2 eexists; (split; [reflexivity|]); auto using ready_error; fail).
  - destruct (RP (bumped e p) (binv_bumped e p B) (ready_bumped e p R)) as (q & o' & E & RQ). rewrite E. cbn [bind]. eauto.
  - destruct (RP p B R) as (q & o' & E & RQ). rewrite E. cbn [bind]. eauto.
Qed.

Lemma refresh_total e p : env_ok e -> keeps_kind e -> pd_inv p -> ready p ->
  (exists q o, pd_refresh e p = Ok (q, o) /\ ready q) \/ marked_256 e p \/
  (exists f rest, heard_frame e p f rest /\ fatal_frame e p f).
Proof.
  intros K KK I0 R0. rewrite refresh_eq, rap_eq.
  pose proof (inv_timeout e p I0) as I1. pose proof (ready_timeout e p R0) as R1.
  assert (AR : arrived e (sc_timeout e p) = arrived e p) by (unfold sc_timeout; destruct (_ && _); reflexivity).
  assert (PM : pd_mode (fl p) = true) by (destruct I0 as [B _ _]; apply B).
  destruct (timeout_ids e p) as (TA & TS & TC & TM). pose proof (session_open_eq e p) as SO.
  assert (TE : enforce (fl (sc_timeout e p)) = enforce (fl p) /\ has_cb (sc_timeout e p) = has_cb p /\ file (sc_timeout e p) = file p) by (unfold sc_timeout; destruct (_ && _); auto).
  pose proof (receive_bounds e _ I1 (eo_rx e K)) as RB. rewrite AR in RB.
  destruct (check_packet_cases e (sc_timeout e p)) as [(X & _)|[(p1 & k & X & N & Y1 & _)|(p1 & X & G & Y1 & _)]].
  { split; [|apply I1]. apply I1. }
  { apply (eo_rx e K). }
  - right. left. destruct RB as [(q & k & E & _)|(_ & E)]; [congruence|exact E].
  - left. rewrite X, bind_Ok. pose proof N as (N1 & N2 & _ & _ & N3).
    pose proof (binv_rx _ p1 (iv_b _ I1) N1 (proj1 N2)) as B1.
    assert (RR : ready p1) by (eapply near_ready; [apply near_rx; exact N1|exact R1|apply core_same; auto|apply core_same; auto]).
    destruct k; try contradiction; cbn [rap_k]; rewrite bind_Ok; apply finish_total; auto; try (apply ready_reset; auto).
    all: try (apply binv_reset; auto).
  - pose proof G as (N1 & N2 & _).
    pose proof (binv_rx _ p1 (iv_b _ I1) N1 (proj1 N2)) as B1.
    assert (Bf : bytes (frame_of p1)) by (apply frame_bytes; apply (iv_ty p1 B1)).
    assert (Lf : 6 <= zlen (frame_of p1)).
    { destruct G as (_ & _ & _ & _ & _ & _ & S & _). destruct S as (_ & _ & _ & S). lia. }
    pose proof (got_full e _ p1 G) as GF. pose proof (got_heard e p p1 _ G eq_refl Bf) as GH.
    assert (RR : ready p1) by (eapply near_ready; [apply near_rx; exact N1|exact R1|apply core_same; auto|apply core_same; auto]).
    assert (A1 : address p1 = address p) by (rewrite <- TA; exact (f_equal (fun x => address x) N1)).
    assert (S1 : seqn p1 = seqn p) by (rewrite <- TS; exact (f_equal (fun x => seqn x) N1)).
    assert (C1 : sc p1 = sc p) by (rewrite <- TC; exact (f_equal (fun x => sc x) N1)).
    assert (E1 : enforce (fl p1) = enforce (fl p)) by (rewrite <- (proj1 TE); exact (f_equal (fun x => enforce (fl x)) N1)).
    assert (H1 : has_cb p1 = has_cb p) by (rewrite <- (proj1 (proj2 TE)); exact (f_equal (fun x => has_cb x) N1)).
    assert (F1 : file p1 = file p) by (rewrite <- (proj2 (proj2 TE)); exact (f_equal (fun x => file x) N1)).
    assert (Q1 : sc_active (fl p1) = session_open e p) by (rewrite <- SO; exact (f_equal (fun x => sc_active (fl x)) N1)).
    pose proof (binv_seen (frame_of p1) p1 B1) as Is.
    pose proof (full_seen (frame_of p1) p1 GF) as Fs.
    assert (Rs : ready (pd_seen (frame_of p1) p1)) by (eapply near_ready; [apply near_seen|exact RR|apply seen_same|apply seen_same]).
    destruct (seen_view (frame_of p1) p1) as (V1 & V2 & V3 & V4 & V5).
    assert (C2 : sc (pd_seen (frame_of p1) p1) = sc p1) by (unfold pd_seen; destruct (f_seq _ =? 0), (f_addr _ =? 127); reflexivity).
    assert (E2 : enforce (fl (pd_seen (frame_of p1) p1)) = enforce (fl p1)) by (unfold pd_seen; destruct (f_seq _ =? 0), (f_addr _ =? 127); reflexivity).
    assert (H2 : has_cb (pd_seen (frame_of p1) p1) = has_cb p1) by (unfold pd_seen; destruct (f_seq _ =? 0), (f_addr _ =? 127); reflexivity).
    assert (F2 : file (pd_seen (frame_of p1) p1) = file p1) by (unfold pd_seen; destruct (f_seq _ =? 0), (f_addr _ =? 127); reflexivity).
    assert (FO : frame_of (pd_seen (frame_of p1) p1) = frame_of p1) by (unfold pd_seen; destruct (f_seq _ =? 0), (f_addr _ =? 127); reflexivity).
    pose proof (pd_frame p1 (frame_of p1) (iv_mode p1 B1) (iv_skip p1 B1) (iv_seq p1 B1) Bf Lf) as C.
    rewrite X, bind_Ok, A1 in *. rewrite Q1 in V3.
    destruct C as [(D1 & ->)|[(D1 & D2 & ->)|[(D1 & D2 & D3 & ->)|(D1 & D2 & D3 & ->)]]].
    + left. cbn [rap_k]. rewrite bind_Ok. apply finish_total; auto.
    + left. cbn [rap_k]. rewrite bind_Ok. apply finish_total; auto; [apply binv_reset; auto|apply ready_reset; auto].
    + destruct (GH D1 D2 PM) as (rest & HF). clear GH. revert Is Fs Rs V3 C2 E2 H2 F2 FO. clear V1 V2 V4 V5.
      generalize (pd_seen (frame_of p1) p1). intros ps Is Fs Rs V3 C2 E2 H2 F2 FO.
      cbn [rap_k].
      destruct (decode_packet_total ps (iv_rxb ps Is) Fs) as [[[p2 r] D]|[S1' S2']].
      2:{ right. right. exists (frame_of p1), rest. split; auto. left. rewrite <- V3. rewrite FO in S2'. auto. }
      rewrite D, bind_Ok. pose proof (decode_packet_inv _ _ _ Is Fs D) as (I2 & F2' & R2).
      pose proof (near_decode ps p2 r (iv_mode ps Is) D) as N2'.
      destruct r as [c|l].
      { left. rewrite bind_Ok. apply finish_total; auto. apply (ready_near ps); auto. eapply decode_packet_err; eauto. }
      pose proof (decode_packet_core ps p2 _ (iv_mode ps Is) D) as (IC & _ & _ & _ & _ & _ & _ & _ & _ & _ & RI & EI & AI).
      assert (Rr2 : ready p2) by (apply (near_ready ps); auto).
      destruct R2 as [BL NL].
      destruct (command_total e KK p2 l Rr2 BL) as [(p3 & r & o & DC & R3)|FC].
      { left. rewrite DC, bind_Ok. apply finish_total; auto. eapply decode_command_inv; eauto. }
      right. right. exists (frame_of p1), rest. split; auto. right.
      destruct l as [|c d]; [congruence|]. exists c, d.
      assert (E3 : enforce (fl p2) = enforce (fl ps)) by exact (f_equal (fun x => enforce (fl x)) IC).
      assert (H3 : has_cb p2 = has_cb ps) by exact (f_equal (fun x => has_cb x) IC).
      assert (F3 : file p2 = file ps) by exact (f_equal (fun x => file x) IC).
      assert (KO : sc_keys_ok (sc ps)) by (destruct (iv_ty ps Is) as (_ & _ & _ & (KO & _) & _); exact KO).
      pose proof (decode_says ps p2 (c :: d) D (iv_rxb ps Is) Fs (fun _ => KO)) as SA.
      assert (LI : last_in ps = r_mac (sc p)) by (unfold last_in; rewrite (iv_mode ps Is), C2, C1; reflexivity).
      rewrite V3, C2, C1, LI, FO in SA. split; auto.
      unfold fatal_command in FC. cbv zeta in FC. change (getb (c :: d) 0) with c in FC. change (from (c :: d) 1) with d in FC.
      rewrite AI, V3, E3, E2, E1, H3, H2, H1 in FC. unfold overruns in *. rewrite F3, F2, F1 in FC. exact FC.
    + left. cbn [rap_k]. rewrite bind_Ok. apply finish_total; auto; [apply binv_nak; auto; unfold byte; lia|apply nak_ready; apply Rs].
Qed.

(* --- runs --- *)
Lemma caps_small_from : forall l cs, length cs = 17%nat -> Forall cap_small l -> caps_small cs -> caps_small (set_caps_from l cs).
Proof.
  induction l as [|c l IH]; intros cs L F C; cbn [set_caps_from]; auto. inversion F as [|? ? F1 F2]; subst.
  destruct (c_fc c <=? 0) eqn:E1; auto. unfold CAP_SENTINEL. destruct (c_fc c >=? 17) eqn:E2; auto.
  apply IH; auto; [rewrite upd_length; auto|]. unfold caps_small in *. unfold cap_small in F1.
  destruct C as [C1 C2].
  assert (G : forall k, (k = 1 \/ k = 2) -> c_num (nth (Z.to_nat k) cs (mkCap 0 0 0)) <= 32 -> c_num (nth (Z.to_nat k) (upd (Z.to_nat (c_fc c)) c cs) (mkCap 0 0 0)) <= 32).
  { intros k K X. destruct (Z.eq_dec (c_fc c) k) as [E|E].
    - rewrite E. rewrite nth_upd_same by lia. apply F1. lia.
    - rewrite nth_upd_other by lia. exact X. }
  split; [apply (G 1)|apply (G 2)]; auto.
Qed.

Lemma ready_setup i n p : info_typed i -> careful_info i -> pd_setup i n = Some p -> ready p.
Proof.
  intros _ CI H.
  assert (CS : caps_small (set_caps_from implicit_caps (set_caps_from (i_cap i) (caps pd_zero)))).
  { assert (Z : caps_small (caps pd_zero)) by (vm_compute; split; discriminate).
    assert (L : length (caps pd_zero) = 17%nat) by reflexivity.
    apply caps_small_from.
    - clear -L. revert L. generalize (caps pd_zero). induction (i_cap i) as [|c l IH]; intros cs L; cbn [set_caps_from]; auto.
      destruct (_ <=? 0); auto. destruct (_ >=? _); auto. apply IH. rewrite upd_length. auto.
    - repeat constructor; unfold cap_small; simpl; intros; lia.
    - apply caps_small_from; auto. }
  assert (G : forall p, reply_id p = 0 -> evq p = [] -> caps_small (caps p) -> ready p).
  { intros q A B C. split; [|rewrite A; discriminate|rewrite B; constructor|exact C]. apply ans_plain; rewrite A; simpl; lia. }
  unfold pd_setup in H. cbv zeta in H. destruct (i_scbk i).
  - injection H as <-. apply G; [reflexivity|reflexivity|exact CS].
  - destruct (enforce _); [discriminate|]. injection H as <-. apply G; [reflexivity|reflexivity|exact CS].
Qed.

Lemma switch_ftstat e p smb m : reply_id p = 122 -> build_switch e p smb m =
  do x <- file_stat_build e p m ; match x with (p1, Some l, o) => Ok (p1, Some (122 :: l), None, o) | (p1, None, o) => Ok (p1, None, None, o) end.
Proof.
  intros R. unfold build_switch. rewrite R. reflexivity.
Qed.

(* a status report that went through stayed within the file *)
Lemma sent_stat e p q ok o : reply_sent e p q ok o -> reply_id p = 122 -> tx_buf_size p < 69 \/ stat_ok p.
Proof.
  intros [(T & _)|(TX & p2 & pay & ss & m & smb & ob & ot & BS & M & _)] R; [left; auto|right].
  rewrite switch_ftstat in BS by exact R. unfold stat_ok. change (file p) with (file (after_init p)).
  unfold file_stat_build in BS. destruct (file (after_init p)) as [f|]; [|exact I].
  destruct (in_progress f); [|left; auto]. right. cbn [negb] in BS. unfold FT_STAT in BS. destruct (m <? 7) eqn:E; [lia|].
  cbv zeta in BS. fold (off_next f) in BS. destruct (off_next f >? f_size f) eqn:G; [discriminate|lia].
Qed.

Lemma tx_decode_file e p d q b o : file_tx_decode e p d = Ok (q, b, o) -> exists f, q = set_file f p.
Proof.
  unfold file_tx_decode. assert (S : p = set_file (file p) p) by (destruct p; reflexivity).
  destruct (file p) as [f|]; [|intros H; inv H; eauto].
  destruct (_ <=? _); [intros H; inv H; eauto|]. cbv zeta. destruct (negb _); [discriminate|].
  destruct (file_rx_open _ _ _ _ _) as [[f1|] o1]; [|intros H; inv H; eauto].
  destruct (negb _); [intros H; inv H; eauto|]. destruct (negb _); intros H; inv H; eauto.
Qed.

(* everything but the file record stays in order whatever command was decoded *)
Lemma command_ready e p l q r o : keeps_kind e -> ready p -> bytes l -> decode_command e p l = Ok (q, r, o) ->
  ready q \/ (r = RNone /\ reply_id q = 122 /\ forall x, x = q \/ x = bumped e q -> (tx_buf_size x < 69 \/ stat_ok x) -> ready x).
Proof.
  intros KK R BL DC. destruct (command_total e KK p l R BL) as [(q' & r' & o' & DC' & RQ)|FC]; [rewrite DC in DC'; inv DC'; auto|].
  unfold fatal_command in FC. cbv zeta in FC. unfold decode_command in DC. cbv zeta in DC.
  set (c := getb l 0) in *. set (d := from l 1) in *. set (p1 := set_cmd_id c (set_reply_id 0 p)) in *.
  assert (W : waiting c p1) by (split; [reflexivity|split; [reflexivity|split; apply R]]).
  destruct (enforce (fl p1) && negb (sc_active (fl p1)) && negb (plain_allowed c)) eqn:G.
  { destruct (cmd_name_null c); [discriminate|]. inv DC. left. apply nak_ready; apply W. }
  destruct FC as [(F1 & F2 & F3)|[(F1 & F2)|(F1 & F2)]].
  - exfalso. change (fl p1) with (fl p) in G. rewrite F1, F2 in G. unfold plain_allowed, unnamed, CMD_ID, CMD_CAP, CMD_CHLNG, CMD_SCRYPT in *. simpl in G. lia.
  - rewrite F1 in DC. cbv [decode_switch] in DC. change (100 =? CMD_POLL) with false in DC. change (100 =? CMD_LSTAT) with true in DC. cbv iota zeta in DC.
    change (has_cb p1) with (has_cb p) in DC. rewrite F2 in DC. destruct (negb (zlen d =? 0)); simpl in DC; [|discriminate].
    inv DC. left. apply (nak_ready 2); apply W.
  - assert (SW : decode_switch e p1 c d = Some (do r <- file_tx_decode e p1 d ; match r with (p1, true, o) => Ok (set_reply_id REPLY_FTSTAT p1, RNone, o) | (p1, false, o) => Ok (p1, RWait, o) end)).
    { rewrite F1. reflexivity. }
    rewrite SW in DC. destruct (file_tx_decode e p1 d) as [[[p2 b] o2]| |] eqn:FD; try discriminate. cbn [bind] in DC.
    destruct (tx_decode_file _ _ _ _ _ _ FD) as [f ->]. destruct b; cbn [bind] in DC; inv DC.
    + right. split; auto. split; [reflexivity|]. intros x X S.
      assert (G1 : reply_id x = 122 /\ cmd_id x = c /\ evq x = evq p1 /\ caps x = caps p1) by (destruct X as [->| ->]; unfold bumped; try destruct (sc_active _); auto).
      destruct G1 as (G1 & G2 & G3 & G4). split; [|auto|rewrite G3; apply W|rewrite G4; apply W].
      apply ans_plain; rewrite G1; simpl; [lia|]. intros [_ Y]; discriminate.
    + left. split; [|discriminate|apply W|apply W]. apply ans_plain; simpl; [lia|]. intros [_ Y]; discriminate.
Qed.

Lemma ready_do c p q o : call_typed c -> careful c -> pd_inv p -> ready p -> pd_do c p = Ok (q, o) -> ready q.
Proof.
  intros T C I R H. destruct c as [e|ev| |l|b|]; simpl in H.
  - pose proof (PdRun.env_typed e T) as K.
    destruct (refresh_kinds e p q o K I H) as [(-> & p2 & N & NS & B & Q)|[(f & rest & pr & HF & AN & N & NS & RP)|(f & rest & p1 & ps & p2 & l & p3 & r & oc & HF & SQ & RX & FO & -> & Bs & Fs & AN & D & BL & NL & B2 & N2 & DC & B3 & Q)]].
    + pose proof (ready_near _ _ N NS (ready_timeout e p R)) as R2. destruct Q as [->|[->| ->]]; auto using ready_reset, ready_error.
    + pose proof (ready_near _ _ N NS (ready_timeout e p R)) as R2. eapply ready_reply; eauto. apply AN.
    + pose proof (decode_packet_core _ p2 _ (iv_mode _ Bs) D) as (IC & _ & _ & _ & _ & _ & _ & _ & _ & _ & RI & EI & AI).
      assert (R2 : ready p2).
      { apply (near_ready (sc_timeout e p)); auto using ready_timeout.
        - rewrite RI. destruct (seen_same f p1) as [-> _]. apply core_same; auto.
        - rewrite EI. destruct (seen_same f p1) as [_ ->]. apply core_same; auto. }
      destruct (command_ready e p2 l p3 r oc C R2 BL DC) as [R3|(-> & R3 & R4)].
      * destruct Q as [(-> & -> & [->| ->])|[(-> & o2 & RP & ->)|(-> & o2 & RP & ->)]]; auto using ready_error.
        -- eapply ready_reply; [..|exact RP]; eauto using binv_bumped, ready_bumped.
        -- eapply ready_reply; [..|exact RP]; eauto.
      * destruct Q as [(X & _)|[(_ & o2 & RP & ->)|(X & _)]]; try discriminate.
        eapply ready_reply; [exact K|apply binv_bumped; exact B3| |exact RP].
        apply R4; auto. destruct (reply_phase_cases e _ q o2 K (binv_bumped e p3 B3) RP) as (q1 & ok & S & _).
        eapply sent_stat; eauto. unfold bumped. destruct (sc_active (fl p3)); exact R3.
  - inv H. unfold pd_notify_event. destruct (_ <? _); auto. destruct R as [A S E P]. split; auto; [destruct A; split; auto|]. simpl. apply Forall_app. auto.
  - inv H. destruct R as [A S E P]. split; auto; [destruct A; split; auto|]. simpl. constructor.
  - inv H. destruct R as [A S E P]. split; auto; [destruct A; split; auto|]. simpl. apply caps_small_from; auto. apply I.
  - inv H. eapply ready_same; [..|exact R]; reflexivity.
  - inv H. apply ready_set_file; auto. intros _. right. left. reflexivity.
Qed.

Lemma runs_ready i n h p : careful_info i -> pd_runs i n h p -> Forall (fun x => careful (en_call x)) h -> ready p.
Proof.
  intros CI R. induction R as [p T H|h p c q o R IH T H]; intros F; [eapply ready_setup; eauto|].
  inversion F; subst. eapply ready_do; eauto using runs_inv.
Qed.

Theorem pd_total i n h p e : careful_info i -> pd_runs i n h p -> Forall (fun x => careful (en_call x)) h ->
  call_typed (Refresh e) -> careful (Refresh e) ->
  (exists q o, pd_do (Refresh e) p = Ok (q, o)) \/ marked_256 e p \/
  (exists f rest, heard_frame e p f rest /\ fatal_frame e p f).
Proof.
  intros CI R F T C. destruct (refresh_total e p (PdRun.env_typed e T) C (runs_inv i n h p R) (runs_ready i n h p CI R F)) as [(q & o & H & _)|H]; eauto.
Qed.
