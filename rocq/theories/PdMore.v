(** PD: authentication inside a session, and that plain commands are answered. *)
From Verif Require Import Base ListLemmas Crc SpecCrc CrcProofs CrcBurst Aes AesProofs Rb RbProofs
  Types Sc ScProofs Phy PhyCheck File Pd SpecRx SpecFrame SpecSec SpecCmd SpecApp MacProofs RxProofs RxFwd PdRx PdCore PhyTx PdTx PdReply
  PdStep PdWire PdFwd SpecPd PdRun PdSpeak PdPlain PdSec PdRefuse PdFacts PdKinds PdCase PdApp PdTrace PdHist PdHist2 PdAnswer.
From Coq Require Import ZifyBool ZifyNat.
Ltac Zify.zify_post_hook ::= Z.div_mod_to_equations.
Local Opaque aes_ecb_encrypt aes_cbc_encrypt aes_cbc_decrypt mac_of RB_SIZE osdp_mac enc1 cap_entries.

(* what a session accepts: a handshake block, or the right MAC *)
Definition authentic (s : schan) (f : list Z) : Prop :=
  f_scb f = true /\ (17 <= f_sctype f <= 20 \/ (21 <= f_sctype f <= 24 /\ f_mac f = mac_wanted s f)).

Lemma list_Z_dec (a b : list Z) : {a = b} + {a <> b}.
Proof. apply list_eq_dec. apply Z.eq_dec. Qed.

Lemma decode_authentic p q l f : decode_packet p = Ok (q, DData l) -> binv p -> full p -> frame_of p = f -> bytes f -> 7 <= zlen f ->
  sc_active (fl p) = true -> authentic (sc p) f.
Proof.
  intros D I F E Bf L A. unfold authentic. pose proof (iv_ty p I) as (_ & _ & _ & _ & LB & _).
  destruct (f_scb f) eqn:SB.
  2:{ rewrite (decode_plain p f) in D; auto; [|lia]. rewrite A in D. discriminate. }
  split; auto. destruct (Z_le_dec 17 (f_sctype f)) as [H1|H1]; [destruct (Z_le_dec (f_sctype f) 24) as [H2|H2]|].
  - destruct (Z_le_dec (f_sctype f) 20) as [H3|H3]; [left; lia|]. right. split; [lia|].
    destruct (list_Z_dec (f_mac f) (mac_wanted (sc p) f)) as [Y|Y]; auto. exfalso.
    destruct (decode_bad_mac p f I F E Bf SB L ltac:(lia) A Y) as (m & _ & X). congruence.
  - exfalso. revert D. unfold decode_packet. cbv zeta.
    pose proof (getb_frame p 4 LB F) as G4. pose proof (getb_frame p 6 LB F) as G6. rewrite E in G4, G6.
    rewrite G4 by lia. rewrite G6 by lia. rewrite f_scb_ctl in SB. unfold getb in SB. rewrite SB. unfold f_sctype in *.
    replace ((nth (Z.to_nat 6) f 0 <? SCS_11) || (nth (Z.to_nat 6) f 0 >? SCS_18)) with true.
    2:{ symmetry. apply orb_true_iff. right. change (Z.to_nat 6) with 6%nat. unfold SCS_18. lia. }
    destruct (_ && _); discriminate.
  - exfalso. revert D. unfold decode_packet. cbv zeta.
    pose proof (getb_frame p 4 LB F) as G4. pose proof (getb_frame p 6 LB F) as G6. rewrite E in G4, G6.
    rewrite G4 by lia. rewrite G6 by lia. rewrite f_scb_ctl in SB. unfold getb in SB. rewrite SB. unfold f_sctype in *.
    replace ((nth (Z.to_nat 6) f 0 <? SCS_11) || (nth (Z.to_nat 6) f 0 >? SCS_18)) with true.
    2:{ symmetry. apply orb_true_iff. left. change (Z.to_nat 6) with 6%nat. unfold SCS_11. lia. }
    destruct (_ && _); discriminate.
Qed.

(* a packet that carries a command has at least seven bytes *)
Lemma decode_min p q l : decode_packet p = Ok (q, DData l) -> binv p -> full p -> 7 <= zlen (frame_of p).
Proof.
  intros D B F. pose proof (iv_ty p B) as (_ & _ & _ & _ & LB & BB).
  destruct (frame_from p LB F) as (Z & _ & _).
  pose proof (bytes_getb (from (pbuf p) (mark_len p)) 5 (bytes_skipn _ _ BB)) as B5. unfold byte in B5.
  assert (PB : pblen p = plen p) by apply F.
  revert D. unfold decode_packet, ret_data. cbv zeta. rewrite PB, <- Z. set (z := zlen (frame_of p)) in *. set (b := from (pbuf p) (mark_len p)) in *.
  set (t := if ctl_crc (getb b 4) then 2 else 1). assert (T : 1 <= t) by (unfold t; destruct (ctl_crc (getb b 4)); lia).
  destruct (ctl_scb (getb b 4)).
  - destruct (_ && _); [discriminate|]. destruct (_ || _); [discriminate|]. destruct (_ && _); [discriminate|].
    destruct (sc_active (fl p) && _).
    + intros D. apply bind_inv in D as (p1 & _ & D). cbv zeta in D. unfold ret_data in D.
      repeat (match type of D with (if ?b then _ else _) = _ => destruct b eqn:?; [try discriminate|try discriminate] end); try lia.
      match type of D with context [if ?b then _ else _] => destruct b eqn:?; [discriminate|lia] end.
    + intros D. match type of D with context [if ?b then _ else _] => destruct b eqn:?; [discriminate|lia] end.
  - destruct (if pd_mode (fl p) then _ else _); [discriminate|].
    intros D. match type of D with context [if ?b then _ else _] => destruct b eqn:?; [discriminate|lia] end.
Qed.

(* C13: a call of the application during a session comes from a packet with a handshake block or the right MAC *)
Lemma call_authentic e p q o x : env_ok e -> pd_inv p -> pd_refresh e p = Ok (q, o) -> session_open e p = true -> ~ quiet_out x -> In x o ->
  exists f rest, heard_frame e p f rest /\ (f_seq f = 0 \/ authentic (sc p) f).
Proof.
  intros K I H SO NQ IN.
  destruct (refresh_call e p q o K I H x NQ IN) as (f & rest & p1 & p2 & l & p3 & r & oc & o2 & HF & SQ & FO & RX & BS & FS & DP & _).
  exists f, rest. split; auto. destruct (f_seq f =? 0) eqn:S0; [left; lia|]. right.
  assert (FE : frame_of (pd_seen f p1) = f). { rewrite <- FO at 2. unfold pd_seen. cbv zeta. destruct (f_addr f =? 127), (f_seq f =? 0); reflexivity. }
  pose proof (decode_min _ _ _ DP BS FS) as L. rewrite FE in L.
  rewrite <- session_open_eq in SO.
  destruct (core_view _ _ RX) as (_ & R2 & R3 & _). destruct (seen_view f p1) as (_ & V2 & V3 & _).
  assert (SC : sc (pd_seen f p1) = sc p).
  { rewrite V2, R2. apply (timeout_fields e p). }
  rewrite <- SC. apply (decode_authentic _ p2 l); auto.
  - apply HF.
  - rewrite V3, R3, SO, S0. reflexivity.
Qed.

(** * C44 *)
(* x is a complete answer packet to f *)
Definition full_answer (p : pd) (f : list Z) (x : out) : Prop :=
  exists mk w, x = OTx (mk ++ w) /\ (mk = [] \/ mk = [255]) /\ bytes w /\ f_shape true w /\ f_crc w = true /\ crc_valid w /\
    nth 1 w 0 = answer_addr p f /\ f_seq w = f_seq f.

Lemma reply_full e p f pr q o : env_ok e -> pd_inv p -> seq_ok (seqn p) (f_seq f) -> answering p f pr -> sc_active (fl pr) = false ->
  peer_rx pr = 0 -> 256 <= e_tx e -> reply_phase e pr = Ok (q, o) ->
  exists ob x, o = ob ++ [x] /\ no_tx ob /\ full_answer p f x.
Proof.
  intros K I SQ A SA PX TX H. pose proof A as (IB & _).
  destruct (reply_phase_cases e pr q o K IB H) as (q1 & ok & RS & _).
  assert (T : tx_buf_size pr = 256) by (unfold tx_buf_size; rewrite PX; reflexivity).
  destruct (reply_sent_frame e pr q1 ok o K IB RS) as (ob & ot & E & NT & X).
  destruct RS as [(L & _)|(_ & p2 & pay & ss & m & smb & ob' & ot' & BS & Hm & (-> & SM) & BR & NT' & TC & TY & -> & S)]; [lia|].
  destruct (reply_body_facts e pr pay ss (reply_room pr) smb p2 ob' (iv_ty pr IB) (eo_rand e K) Hm BS SM) as (_ & _ & _ & LB & _ & MC & _).
  rewrite SA in MC. cbn [andb] in MC. cbv zeta in S.
  assert (ZL : zlen (mk_of pr ++ wire_of p2 (reply_body pr pay ss)) <= 256).
  { unfold wire_of. rewrite MC. rewrite zlen_app, zlen_with_crc. pose proof (mk_of_len pr). unfold zlen in *. unfold put_len. rewrite !upd_length. lia. }
  assert (OT : exists g, ot' = [OTx g] /\ ok = true).
  { destruct S as [(_ & _ & S)|(_ & S & _)]; [lia|]. destruct S as [(_ & _ & S)|[(k & _ & _ & _ & S)|(-> & ->)]]; [lia|lia|eauto]. }
  destruct OT as (g & -> & ->).
  destruct X as [->|(w & F & k & -> & Hk & -> & KF & Bw & Sw & Vw & Cw & Aw & Nw & _)].
  { exfalso. rewrite app_nil_r in E. apply (NT g). rewrite <- E. apply in_or_app. right. simpl; auto. }
  exists ob. eexists. split; [exact E|]. split; auto. exists (mk_of pr), w.
  split. { rewrite KF by auto. rewrite firstn_all2 by (unfold zlen; lia). reflexivity. }
  split; [unfold mk_of; dif; auto|]. do 4 (split; auto).
  rewrite Aw, Nw. rewrite (answer_addr_eq p f pr A), (answer_seq_eq p f pr (iv_seq p (iv_b p I)) A), (seq_after_ok _ _ SQ). auto.
Qed.

Lemma wait_file e p c d q o : decode_command e p (c :: d) = Ok (q, RWait, o) -> c = 124.
Proof.
  intros H. destruct (command_case _ _ _ _ _ _ _ H) as (_ & [(k & _ & _ & X & _)|[(q1 & _ & _ & _ & X)|(_ & D)]]); try discriminate.
  inversion D; auto.
Qed.

Lemma plain_answered e p f rest c d q o : env_ok e -> pd_inv p -> clear_cmd e p f rest c d -> c <> 124 -> c <> 123 -> peer_rx p = 0 -> 256 <= e_tx e ->
  pd_refresh e p = Ok (q, o) -> exists ob x, o = ob ++ [x] /\ no_tx ob /\ full_answer p f x.
Proof.
  intros K I (N & V & M & S & SB & SA & PY) N1 N2 PX TX H. rewrite <- session_open_eq in SA.
  destruct (plain_command e p f rest c d K I N V M S SB SA PY) as (ps & A & F & SA2 & AV & EN & SC & RB & Bp & _ & X).
  rewrite X in H. apply bind_inv in H as ([[p3 r] oc] & DC & H).
  destruct (decode_command_inv e ps (c :: d) p3 r oc K Bp (proj1 A) DC) as (I3 & _).
  destruct (decode_command_core e ps _ _ _ _ DC) as (CC & SM & NT & _ & R1 & R2 & R3).
  assert (SA3 : sc_active (fl p3) = false). { destruct (sc_active (fl p3)) eqn:Y; auto. rewrite SM in SA2; auto. }
  pose proof (answering_cmd p f ps p3 A I3 CC) as A3.
  destruct (view_fields _ _ AV) as (_ & _ & _ & _ & _ & _ & PV & _).
  assert (P3 : peer_rx p3 = 0). { destruct (de_rx _ _ _ _ _ _ _ (command_eff _ _ _ _ _ _ _ DC)) as [Y|[Y _]]; congruence. }
  assert (B3 : bumped e p3 = p3) by (unfold bumped; rewrite SA3; reflexivity).
  unfold pd_finish in H. destruct r; try congruence.
  - apply bind_inv in H as ([q1 o2] & RP & H). rewrite B3 in RP. inv H.
    destruct (reply_full e p f p3 q o2 K I S A3 SA3 P3 TX RP) as (ob & x & -> & NO & FA). exists (oc ++ ob), x.
    rewrite app_assoc. auto with notx.
  - apply wait_file in DC. congruence.
  - apply bind_inv in H as ([q1 o2] & RP & H). inv H.
    destruct (reply_full e p f p3 q o2 K I S A3 SA3 P3 TX RP) as (ob & x & -> & NO & FA). exists (oc ++ ob), x.
    rewrite app_assoc. auto with notx.
Qed.

(** * Pool and baud rates *)
Lemma pool_runs i n h p : pd_runs i n h p -> pool p = n.
Proof.
  induction 1 as [p T S|h p c q o R IH T D].
  - destruct (setup_fresh i n p S) as (_ & (X & _) & _). exact X.
  - destruct (other_call c p q o D) as [(e & ->)|[X _]].
    + pose proof (run_step e i n h p q o R T D) as K. rewrite <- IH. clear -K.
      pose proof (timeout_fields e p) as TF. cbv zeta in TF. destruct TF as (_ & _ & _ & _ & _ & _ & _ & _ & _ & _ & _ & _ & _ & _ & _ & TP).
      destruct K.
      * destruct (near_fields _ _ H) as (_ & _ & _ & _ & _ & _ & _ & _ & _ & _ & _ & _ & _ & _ & _ & _ & NP).
        destruct (same_fields _ _ H2) as ((A & _) & _). destruct (ans_fields _ _ A) as (_ & (_ & P & _) & _). congruence.
      * destruct (near_fields _ _ H0) as (_ & _ & _ & _ & _ & _ & _ & _ & _ & _ & _ & _ & _ & _ & _ & _ & NP).
        destruct (ans_fields _ _ (ar_core _ _ _ H4)) as (_ & (_ & P & _) & _). congruence.
      * destruct (near_fields _ _ H7) as (_ & _ & _ & _ & _ & _ & _ & _ & _ & _ & _ & _ & _ & _ & _ & _ & NP).
        destruct (same_fields _ _ H9) as ((A & _) & _). destruct (ans_fields _ _ A) as (_ & (_ & P & _) & _).
        destruct (cmd_fields _ _ _ _ _ _ H8) as ((_ & _ & _ & _ & _ & P3) & _). congruence.
      * destruct (near_fields _ _ H7) as (_ & _ & _ & _ & _ & _ & _ & _ & _ & _ & _ & _ & _ & _ & _ & _ & NP).
        destruct (ans_fields _ _ (ar_core _ _ _ H12)) as (_ & (_ & P & _) & _).
        destruct (cmd_fields _ _ _ _ _ _ H8) as ((_ & _ & _ & _ & _ & P3) & _).
        pose proof (bumped_fields e p3) as BF. cbv zeta in BF. destruct BF as (BF & _). destruct (ans_fields _ _ BF) as (_ & (_ & PB & _) & _).
        destruct H9 as [[_ ->]|[_ ->]]; congruence.
    + destruct (other_fields p q X) as (_ & (_ & _ & _ & Y & _)). congruence.
Qed.

Lemma baud_legal b : baud_ok b = true -> In b legal_bauds.
Proof. unfold baud_ok, legal_bauds. intros H. simpl. lia. Qed.
