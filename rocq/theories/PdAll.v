(** PD: every valid packet is answered, with the exact list of exceptions (C44). *)
From Verif Require Import Base ListLemmas Crc SpecCrc CrcProofs CrcBurst Aes AesProofs Rb RbProofs
  Types Sc ScProofs Phy PhyCheck File Pd SpecRx SpecFrame SpecSec SpecCmd SpecApp MacProofs RxProofs RxFwd PdRx PdCore PhyTx PdTx PdReply
  PdStep PdWire PdFwd SpecPd PdRun PdSpeak PdPlain PdSec PdRefuse PdFacts PdKinds PdCase PdApp PdTrace PdHist PdHist2 PdAnswer PdMore SpecSay Frag.
From Coq Require Import ZifyBool ZifyNat.
Ltac Zify.zify_post_hook ::= Z.div_mod_to_equations.
Local Opaque aes_ecb_encrypt aes_cbc_encrypt aes_cbc_decrypt mac_of RB_SIZE osdp_mac enc1 cap_entries encrypt_data.

Lemma says_room_tx n p : n <= 256 -> says_room n p -> n <= tx_buf_size p.
Proof. unfold says_room, tx_buf_size, PBUF_SIZE. intros. destruct (peer_rx p =? 0) eqn:E; lia. Qed.

(* --- the length of an answer --- *)
Lemma reply_body_len p pay ss m : pay_ok p m pay -> zlen (reply_body p pay ss) <= 8 + Z.max 2 (match pay with Some d => zlen d | None => 2 end).
Proof.
  intros P. unfold reply_body.
  assert (D : zlen (match pay with Some d => d | None => [65; 9] end) = match pay with Some d => zlen d | None => 2 end) by (destruct pay; reflexivity).
  set (d := match pay with Some d => d | None => [65; 9] end) in *. pose proof (zlen_nonneg d).
  assert (T : zlen (tl d) <= zlen d) by (destruct d; unfold zlen; simpl; lia).
  destruct (in_sc_handshake true (reply_id p)).
  - destruct ss as [[ty b]|]; [|change (zlen (@nil Z)) with 0; lia]. rewrite zlen_app. change (zlen [83; pd_addr p; 0; 0; Z.lor (pd_ctl p) 8; 3; ty; b]) with 8.
    destruct (sc_active (fl p)); lia.
  - destruct (sc_active (fl p)); rewrite zlen_app.
    + change (zlen [83; pd_addr p; 0; 0; Z.lor (pd_ctl p) 8; 2; match pay with Some (_ :: _ :: _) => 24 | _ => 22 end]) with 7. lia.
    + change (zlen [83; pd_addr p; 0; 0; pd_ctl p]) with 5. lia.
Qed.

Lemma wire_len p b : sc_keys_ok (sc p) -> bytes b -> zlen (wire_of p b) <= zlen b + 22.
Proof.
  intros K B. unfold wire_of. pose proof (zlen_nonneg b).
  destruct (macced p b).
  - rewrite zlen_with_crc, zlen_app. unfold put_len, zlen at 1. rewrite !upd_length. fold (zlen (sealed_body p b)).
    assert (M : zlen (firstn 4 (sealed_mac p b)) <= 4) by (unfold zlen; rewrite firstn_length; lia).
    assert (S : zlen (sealed_body p b) <= zlen b + 16).
    { unfold sealed_body. dif; [|lia]. rewrite zlen_app.
      destruct (encrypt_data_length (negb (pd_mode (fl p))) (sc p) (skipn 8 b) K (bytes_skipn _ _ B)) as (EL & _). rewrite EL.
      pose proof (aes_pad_len_bounds (zlen (skipn 8 b) + 1)) as [PL PM]; [unfold zlen; lia|].
      assert (zlen (firstn 8 b) + zlen (skipn 8 b) = zlen b). { rewrite <- zlen_app, firstn_skipn. reflexivity. } lia. }
    lia.
  - rewrite zlen_with_crc. unfold put_len, zlen at 1. rewrite !upd_length. fold (zlen b). lia.
Qed.

Lemma ack_pay e p smb m p2 pay ss o : reply_id p = 64 -> build_switch e p smb m = Ok (p2, pay, ss, o) -> pay = Some [64].
Proof.
  intros R H. unfold build_switch in H. cbv zeta in H. rewrite R in H. change (64 =? REPLY_ACK) with true in H. cbv iota in H.
  apply assert_len_ok in H as [_ H]. congruence.
Qed.

(* an answer leaves the device whole when the panel's buffer is large enough *)
Lemma reply_full2 e p f pr q o : env_ok e -> pd_inv p -> seq_ok (seqn p) (f_seq f) -> answering p f pr ->
  says_room 165 pr \/ (reply_id pr = 64 /\ says_room 69 pr) -> 256 <= e_tx e -> reply_phase e pr = Ok (q, o) ->
  exists ob x, o = ob ++ [x] /\ no_tx ob /\ full_answer p f x.
Proof.
  intros K I SQ A PX TX H. pose proof A as (IB & _).
  destruct (reply_phase_cases e pr q o K IB H) as (q1 & ok & RS & _).
  assert (T : 69 <= tx_buf_size pr).
  { destruct PX as [X|[_ X]]; apply says_room_tx in X; lia. }
  destruct (reply_sent_frame e pr q1 ok o K IB RS) as (ob & ot & E & NT & X).
  destruct RS as [(L & _)|(_ & p2 & pay & ss & m & smb & ob' & ot' & BS & Hm & (-> & SM) & BR & NT' & TC & TY & -> & S)]; [lia|].
  pose proof (build_switch_ok e (after_init pr) smb (reply_room pr) p2 pay ss ob' (after_init_typed pr (iv_ty pr IB)) (eo_rand e K) Hm BS) as (_ & T2 & P & _).
  change (pay_ok (after_init pr) (reply_room pr) pay) with (pay_ok pr (reply_room pr) pay) in P.
  destruct (reply_body_facts e pr pay ss (reply_room pr) smb p2 ob' (iv_ty pr IB) (eo_rand e K) Hm BS SM) as (Bb & _ & _ & LB & _).
  cbv zeta in S.
  assert (K2 : sc_keys_ok (sc p2)).
  { destruct T2 as (_ & _ & _ & (K2 & _) & _). exact K2. }
  pose proof (wire_len p2 _ K2 Bb) as WL. pose proof (reply_body_len pr pay ss _ P) as RL.
  assert (ZL : zlen (mk_of pr ++ wire_of p2 (reply_body pr pay ss)) <= tx_buf_size pr).
  { rewrite zlen_app. pose proof (mk_of_len pr). unfold zlen at 1.
    destruct PX as [X1|[R X1]]; apply says_room_tx in X1; try lia.
    - destruct pay as [d|]; [|lia]. destruct P as (_ & P & _). lia.
    - assert (E0 : pay = Some [64]) by exact (ack_pay _ _ _ _ _ _ _ _ (R : reply_id (after_init pr) = 64) BS).
      subst pay. change (zlen [64]) with 1 in RL. lia. }
  pose proof (tx_buf_le pr).
  assert (OT : exists g, ot' = [OTx g] /\ ok = true).
  { destruct S as [(_ & _ & S)|(_ & S & _)]; [lia|]. destruct S as [(_ & _ & S)|[(k & _ & _ & _ & S)|(-> & ->)]]; [lia|lia|eauto]. }
  destruct OT as (g & -> & ->).
  destruct X as [->|(w & F & k & -> & Hk & -> & KF & Bw & Sw & Vw & Cw & Aw & Nw & _)].
  { exfalso. rewrite app_nil_r in E. apply (NT g). rewrite <- E. apply in_or_app. right. simpl; auto. }
  exists ob. eexists. split; [exact E|]. split; auto. exists (mk_of pr), w.
  split. { rewrite KF by auto. rewrite firstn_all2 by (unfold zlen; lia). reflexivity. }
  split; [unfold mk_of; dif; auto|]. do 4 (split; auto).
  rewrite Aw, Nw. rewrite (answer_addr_eq p f pr A), (answer_seq_eq p f pr (iv_seq p (iv_b p I)) A), (seq_after_ok _ _ SQ). auto.
Qed.

Lemma skipn_hd (l : list Z) : forall k, (k < length l)%nat -> skipn k l = nth k l 0 :: skipn (S k) l.
Proof. induction l as [|a l IH]; intros k H; simpl in H; [lia|]. destruct k; [reflexivity|]. simpl. apply IH. lia. Qed.

Lemma decode_shape p f q r : binv p -> full p -> frame_of p = f -> bytes f -> 6 <= zlen f -> decode_packet p = Ok (q, r) ->
  peer_rx q = peer_rx p /\
  (r = DErr (-6) \/ (exists c, r = DErr c /\ cmd_room f <= 0) \/ exists d, r = DData (cmd_code f :: d)).
Proof.
  intros B F Ef Bf L H. pose proof F as FU. pose proof (iv_ty p B) as (_ & _ & _ & _ & LB & BB).
  destruct (decode_packet_core _ _ _ (iv_mode _ B) H) as (X & _).
  split; [exact (f_equal (fun x => peer_rx x) X)|clear X].
  destruct (frame_from p LB F) as (Z & G & G2). rewrite Ef in *.
  revert H. unfold decode_packet. rewrite (iv_mode p B). cbv zeta.
  set (b := from (pbuf p) (mark_len p)) in *.
  assert (B4 : getb b 4 = getb f 4) by (unfold getb; apply G; unfold zlen in L; lia).
  assert (B5 : getb b 5 = nth 5 f 0) by (unfold getb; apply G; unfold zlen in L; lia).
  assert (N5 : 0 <= nth 5 f 0 < 256) by apply (bytes_getb f 5 Bf).
  rewrite B4, B5, <- f_scb_ctl, <- f_crc_ctl. destruct F as (F1 & _). rewrite F1, <- Z.
  unfold cmd_room, cmd_code. fold (f_tail f). assert (T : 1 <= f_tail f <= 2) by (unfold f_tail; destruct (f_crc f); lia).
  assert (RD : forall off len q1, 5 <= off -> off + len <= zlen f -> Ok (q1, ret_data b off len) = Ok (q, r) ->
            (len <= 0 /\ exists c, r = DErr c) \/ exists d, r = DData (nth (Z.to_nat off) f 0 :: d)).
  { intros off len q1 H1 H2 H. inv H. unfold ret_data. destruct (len <=? 0) eqn:E; [left; split; [lia|eauto]|right].
    exists (tl (sub b off len)). f_equal. unfold sub. rewrite <- (G (Z.to_nat off)) by (unfold zlen in H2; lia).
    assert (Y : (Z.to_nat off < length b)%nat).
    { unfold b, from. rewrite skipn_length, LB. destruct FU as (_ & FU & _). unfold mark_len in *. destruct (has_mark (fl p)); lia. }
    rewrite (skipn_hd b _ Y). destruct (Z.to_nat len) eqn:EL; [lia|]. reflexivity. }
  destruct (f_scb f).
  - assert (TY : 7 <= zlen f -> getb b 6 = f_sctype f). { intros L7. unfold getb, f_sctype. apply G. unfold zlen in L7. lia. }
    destruct (_ && _); [intros H; inv H; auto|]. destruct (_ || _); [intros H; inv H; auto|].
    destruct (negb (sc_active (fl p)) && (getb b 6 >? SCS_14)) eqn:NA; [intros H; inv H; auto|].
    destruct (sc_active (fl p) && (SCS_15 <=? getb b 6)) eqn:SA.
    + unfold decode_secure. intros H. apply bind_inv in H as (p1 & _ & H). cbv zeta in H.
      repeat (match type of H with (if ?b then _ else _) = _ => destruct b eqn:? end; try (inv H; auto; fail); try discriminate).
      * destruct (decrypt_data _ _ _ _) as [[d m]|]; [|inv H; auto]. inv H. right; right. exists (firstn (Z.to_nat m) d). f_equal. f_equal.
        unfold getb. apply G. unfold zlen in *. lia.
      * apply RD in H; try lia. destruct H as [(H & c & ->)|(d & ->)]; [right; left; exists c; split; auto|right; right; exists d; reflexivity].
        destruct (Z_le_dec 7 (zlen f)) as [L7|L7]; [|destruct (21 <=? f_sctype f); lia]. rewrite (TY L7) in SA. apply andb_true_iff in SA as [_ SA].
        unfold SCS_15 in SA. rewrite SA. lia.
    + intros H. apply RD in H; try lia. destruct H as [(H & c & ->)|(d & ->)]; [right; left; exists c; split; auto|right; right; exists d; reflexivity].
      destruct (21 <=? f_sctype f); lia.
  - destruct (sc_active (fl p)); [intros H; inv H; auto|]. intros H. apply RD in H; try lia. destruct H as [(H & c & ->)|(d & ->)]; [right; left; exists c; split; auto; lia|right; right].
    exists d. reflexivity.
Qed.

Lemma file_taken e p d q o : file_tx_decode e p d = Ok (q, true, o) -> taken e o /\ peer_rx q = peer_rx p.
Proof.
  unfold file_tx_decode, taken. cbv zeta. destruct (file p) as [f|]; [|discriminate]. dif; [discriminate|]. dif; [discriminate|].
  destruct (file_rx_open _ _ _ _ _) as [[f1|] o1]; [|discriminate]. dif; [discriminate|]. dif; [discriminate|].
  intros H. inv H. split; [|reflexivity]. eexists. eexists. split; [apply in_or_app; right; left; reflexivity|].
  apply negb_false_iff, Z.eqb_eq in Heqb2. rewrite Heqb2. apply negb_false_iff, Z.eqb_eq in Heqb0.
  unfold from, zlen. rewrite skipn_length. unfold zlen, FT_HDR in *. lia.
Qed.

Lemma file_untaken e p d q o : file_tx_decode e p d = Ok (q, false, o) -> ~ taken e o /\ peer_rx q = peer_rx p.
Proof.
  unfold file_tx_decode, taken. cbv zeta. destruct (file p) as [f|]; [|intros H; inv H; split; auto; intros (? & ? & [] & _)].
  dif; [intros H; inv H; split; auto; intros (? & ? & [] & _)|]. dif; [discriminate|].
  destruct (file_rx_open _ _ _ _ _) as [[f1|] o1] eqn:RO; pose proof (open_no_write _ _ _ _ _ _ _ RO) as NW.
  2:{ intros H. inv H. split; auto. intros (x & y & X & _). exact (NW _ _ X). }
  dif; [intros H; inv H; split; auto; intros (x & y & X & _); exact (NW _ _ X)|]. dif; [|discriminate].
  intros H. inv H. split; [|reflexivity]. intros (x & y & X & Y). apply in_app_or in X as [X|[X|[]]]; [exact (NW _ _ X)|]. inv X.
  apply negb_true_iff, Z.eqb_neq in Heqb2. apply Heqb2. rewrite Y. apply negb_false_iff, Z.eqb_eq in Heqb0.
  unfold from, zlen in *. rewrite skipn_length. unfold FT_HDR in *. lia.
Qed.

(* what a command does to the announced size and when it leaves the packet waiting *)
Lemma rxsize_case e p d q r o : dec_case e p 123 d q r o ->
  (q = p /\ r = RGeneric) \/ (exists k, q = nak k p) \/ (r = RNone /\ reply_id q = 64 /\ peer_rx q = le16 (getb d 0) (getb d 1)).
Proof.
  intros H. inversion H; subst; try discriminate; try (exfalso; unfold status_cmd, multi_cmd in *; intuition discriminate); eauto.
Qed.

Lemma command_says e p c d q r o : decode_command e p (c :: d) = Ok (q, r, o) ->
  peer_rx q = peer_rx p \/ (c = 123 /\ r = RNone /\ reply_id q = 64 /\ peer_rx q = le16 (getb d 0) (getb d 1)).
Proof.
  intros H. destruct (de_rx _ _ _ _ _ _ _ (command_eff _ _ _ _ _ _ _ H)) as [X|[-> X]]; auto.
  destruct (command_case _ _ _ _ _ _ _ H) as (_ & [(k & _ & -> & _)|[(q1 & D & _ & -> & _)|(_ & D)]]); auto.
  - apply rxsize_case in D as [(-> & _)|[(k & ->)|(Y & _)]]; auto. discriminate.
  - apply rxsize_case in D as [(-> & _)|[(k & ->)|(Y & Z & _)]]; auto.
Qed.

Lemma wait_taken e p c d q o : decode_command e p (c :: d) = Ok (q, RWait, o) -> c = 124 /\ ~ taken e o.
Proof.
  intros H. destruct (command_case _ _ _ _ _ _ _ H) as (_ & [(k & _ & _ & X & _)|[(q1 & _ & _ & _ & X)|(_ & D)]]); try discriminate.
  inversion D; subst. split; auto. eapply file_untaken; eauto.
Qed.

(* the answer, or why there is none *)
Lemma every_answered e p f rest q o : env_ok e -> pd_inv p -> next_frame e p f rest -> f_intact f -> f_mine (address p) f ->
  seq_ok (seqn p) (f_seq f) -> says_room 165 p -> 256 <= e_tx e -> pd_refresh e p = Ok (q, o) ->
  (exists ob x, o = ob ++ [x] /\ no_tx ob /\ full_answer p f x) \/
  (cmd_room f <= 0 /\ o = []) \/
  (cmd_code f = 124 /\ ~ taken e o /\ no_tx o) \/
  (cmd_code f = 123 /\ 0 < peer_rx q < 69 /\ no_tx o).
Proof.
  intros K I N V M S PX TX H.
  destruct (frame_verdict e p f rest K I N) as (p1 & R & Ef & Rr & Sy & I1 & F1 & Bf & _ & _ & _ & _ & X).
  rewrite (X V M S) in H. clear X.
  assert (L6 : 6 <= zlen f) by (destruct N as ((_ & _ & _ & L) & _); lia).
  assert (RT : peer_rx (pd_seen f p1) = peer_rx p).
  { transitivity (peer_rx p1); [unfold pd_seen; cbv zeta; destruct (f_seq f =? 0), (f_addr f =? 127); reflexivity|].
    transitivity (peer_rx (sc_timeout e p)); [exact (f_equal (fun x => peer_rx x) R)|]. unfold sc_timeout. dif; reflexivity. }
  assert (A : answering p f (pd_seen f p1)) by (apply (answering_timeout e), answering_seen; auto).
  pose proof A as (Bs & _).
  assert (FS : full (pd_seen f p1)). { apply full_seen; auto. }
  assert (FE : frame_of (pd_seen f p1) = f). { rewrite <- Ef at 2. unfold pd_seen. cbv zeta. destruct (f_addr f =? 127), (f_seq f =? 0); reflexivity. }
  apply bind_inv in H as (y & RK & H). cbn [rap_k] in RK. apply bind_inv in RK as ([p2 r] & DP & RK).
  destruct (decode_packet_inv _ _ _ Bs FS DP) as (B2 & F2 & B3).
  pose proof (answering_dec _ _ _ _ _ A B2 DP) as A2.
  destruct (decode_shape _ f _ _ Bs FS FE Bf L6 DP) as (PR & D). rewrite RT in PR.
  assert (S2 : says_room 165 p2) by (unfold says_room; rewrite PR; exact PX).
  clear Ef FE. destruct D as [->|[(c & -> & CR)|(d & ->)]].
  - change (-6 =? -6) with true in RK. cbv iota in RK. inv RK. cbn [pd_finish] in H. apply bind_inv in H as ([q1 o2] & RP & H). inv H.
    left. exact (reply_full2 e p f p2 _ _ K I S A2 (or_introl S2) TX RP).
  - destruct (c =? -6); inv RK; cbn [pd_finish] in H.
    + apply bind_inv in H as ([q1 o2] & RP & H). inv H. left. exact (reply_full2 e p f p2 _ _ K I S A2 (or_introl S2) TX RP).
    + inv H. right; left. auto.
  - destruct B3 as (Bl & _). destruct y as [[p3 rr] oc].
    destruct (decode_command_inv e p2 _ p3 rr oc K Bl B2 RK) as (I3 & _).
    destruct (decode_command_core e p2 _ _ _ _ RK) as (CC & _ & NT & _ & R1 & R2 & R3).
    pose proof (answering_cmd p f p2 p3 A2 I3 CC) as A3.
    assert (AB : answering p f (bumped e p3)). { unfold bumped. dif; auto. destruct A3 as (Y & A3). split; [|exact A3]. apply (binv_bumped e) in Y. revert Y. unfold bumped. rewrite Heqb. auto. }
    destruct (command_says _ _ _ _ _ _ _ RK) as [PS|(C & -> & RI & PS)].
    + assert (S3 : says_room 165 p3) by (unfold says_room; rewrite PS; exact S2).
      assert (SB : says_room 165 (bumped e p3)) by (unfold bumped; dif; exact S3).
      unfold pd_finish in H. destruct rr; try congruence.
      * apply bind_inv in H as ([q1 o2] & RP & H). inv H.
        destruct (reply_full2 e p f _ _ _ K I S AB (or_introl SB) TX RP) as (ob & x & -> & NO & FA). left. exists (oc ++ ob), x.
        rewrite app_assoc. auto with notx.
      * destruct (wait_taken _ _ _ _ _ _ RK) as (C & NK). right; right; left. destruct (_ <? _); inv H; auto.
      * apply bind_inv in H as ([q1 o2] & RP & H). inv H.
        destruct (reply_full2 e p f _ _ _ K I S A3 (or_introl S3) TX RP) as (ob & x & -> & NO & FA). left. exists (oc ++ ob), x.
        rewrite app_assoc. auto with notx.
    + cbn [pd_finish] in H. apply bind_inv in H as ([q1 o2] & RP & H). inv H.
      assert (PB : peer_rx (bumped e p3) = peer_rx p3) by (unfold bumped; dif; reflexivity).
      assert (RB : reply_id (bumped e p3) = 64) by (unfold bumped; dif; exact RI).
      assert (P0 : 0 <= peer_rx p3).
      { rewrite PS. inversion Bl; subst. pose proof (bytes_getb d 0 H2). pose proof (bytes_getb d 1 H2). unfold byte, le16 in *. lia. }
      destruct (Z_lt_dec (peer_rx p3) 69) as [LT|GE]; [destruct (Z.eq_dec (peer_rx p3) 0) as [E0|NE]|].
      * destruct (fun W => reply_full2 e p f _ _ _ K I S AB W TX RP) as (ob & x & -> & NO & FA); [right; split; auto; left; congruence|]. left. exists (oc ++ ob), x.
        rewrite app_assoc. auto with notx.
      * right; right; right. split; auto.
        destruct (reply_phase_cases e (bumped e p3) q o2 K (proj1 AB) RP) as (q2 & ok & RS & QQ).
        assert (TB : tx_buf_size (bumped e p3) < 69). { unfold tx_buf_size, PBUF_SIZE. rewrite PB. destruct (peer_rx p3 =? 0) eqn:?; lia. }
        destruct RS as [(_ & -> & -> & ->)|(Y & _)]; [|lia].
        destruct QQ as (_ & _ & [(-> & _)|(Y & _)]); [|discriminate]. rewrite app_nil_r. split; auto.
        change (peer_rx (state_reset false (bumped e p3))) with (peer_rx (bumped e p3)). rewrite PB. lia.
      * destruct (fun W => reply_full2 e p f _ _ _ K I S AB W TX RP) as (ob & x & -> & NO & FA); [right; split; auto; right; lia|]. left. exists (oc ++ ob), x.
        rewrite app_assoc. auto with notx.
Qed.
