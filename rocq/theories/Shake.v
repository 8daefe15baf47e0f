(** The handshake of a secure channel as a whole. *)
From Verif Require Import Base ListLemmas SpecCrc Aes AesProofs Rb RbProofs Types Sc ScProofs Phy File Pd Cp CpCtx PdRun SpecRx SpecFrame SpecSec SpecSession
  SpecPd SpecCp SpecCpRun SpecLink SpecHand RxProofs MacProofs PdRx PdTx PdStep PdReply CpTx CpRx CpInv LinkProofs LinkStep CpSend Hand.
From Coq Require Import ZifyBool ZifyNat.
Ltac Zify.zify_post_hook ::= Z.div_mod_to_equations.
Local Opaque aes_ecb_encrypt aes_cbc_encrypt aes_cbc_decrypt mac_of RB_SIZE osdp_mac enc1 osdp_encrypt encrypt_data.

(* what the handshake leaves alone *)
Record after_shake (c p c' p' : pd) : Prop := {
  as_keep : ckeep c' = ckeep c;
  as_idle : phy_state c' = PIdle /\ rq_offline c' = false;
  as_dkeep : dkeep p' = dkeep p;
  as_caps : caps p' = caps p /\ peer_rx p' = peer_rx p;
  as_inv : pd_inv p';
  as_dev : install (fl p') = install (fl p) /\ use_scbkd (fl p') = use_scbkd (fl p) || (install (fl p) && use_scbkd (fl c));
  as_set : use_scbkd (fl c) = true -> eph c' = EphCmd (CKeyset 1 16 (scbk (sc c)))
}.

Lemma shake_all : forall c p e1 e2,
  may_shake c p -> env_typed e1 -> env_typed e2 -> 256 <= e_tx e2 ->
  moves (cp_do (Update e1) c) (fun c1 => says (cp_do (Update e2) c1) (fun c2 w1 =>
  forall e3, hears e3 w1 -> says (pd_do (Refresh e3) p) (fun p1 w2 =>
  forall e4, hears e4 w2 -> moves (cp_do (Update e4) c2) (fun c3 =>
  forall e5 e6, env_typed e5 -> env_typed e6 -> 256 <= e_tx e6 ->
  moves (cp_do (Update e5) c3) (fun c4 => says (cp_do (Update e6) c4) (fun c5 w3 =>
  forall e7, hears e7 w3 -> says (pd_do (Refresh e7) p1) (fun p2 w4 =>
  forall e8, hears e8 w4 -> exists c6 o, cp_do (Update e8) c5 = Ok (c6, o) /\
  in_step c6 p2 /\ quiet c6 /\ quiet p2 /\ state c6 = (if use_scbkd (fl c) then SSetScbk else SOnline) /\ after_shake c p c6 p2))))))).
Proof.
  intros c p e1 e2 [(RC & RP) (St & Ph & Off) (QC & QP) (Ad & A127) Sq (N1 & N2) (Cap & CS) Key] T1 T2 X2.
  pose proof (cp_reach_inv c RC) as I. pose proof (reach_inv p RP) as Ip. pose proof (ci_b c I) as B.
  destruct (pan_chlng e1 e2 c I T1 T2 St Ph QC N1 X2) as (c1 & c2 & U1 & U2 & K2 & S2).
  exists c1. split; [unfold cp_do; rewrite U1; reflexivity|]. eexists c2, _. split; [unfold cp_do; rewrite U2; reflexivity|].
  intros e3 (E3 & T3 & C3 & X3 & D3). rewrite Z.mod_small in D3 by lia. rewrite <- Ad in D3.
  apply (delivers_marked _ [255] _ _ (or_intror eq_refl)) in D3.
  set (b := if use_scbkd (fl c) then 0 else 1) in *.
  assert (Bb : byte b) by (unfold b, byte; destruct (use_scbkd (fl c)); lia).
  assert (S03 : 0 <= seq_next (seqn c) <= 3) by (pose proof (cv_seq c B); unfold seq_next; destruct (seqn c =? 3) eqn:X; lia).
  destruct (cv_ty c B) as (_ & _ & _ & (W1 & W2 & W3 & _) & _).
  destruct (dev_chlng e3 p (seq_next (seqn c)) b (cp_random (sc c)) Ip C3 (proj1 (proj2 T3)) QP Cap CS N2 X3 ltac:(lia) S03 Sq Bb W3 D3)
    as (p1 & m2 & a2 & R3 & M2 & A2 & O2 & UP & AP & SP).
  set (u := use_scbkd (fl p) || (install (fl p) && (b =? 0))) in *.
  assert (EK : session_base_key u (sc p) = session_base_key (use_scbkd (fl c)) (sc c)).
  { unfold u, b. symmetry. destruct (use_scbkd (fl c)); exact Key. }
  rewrite EK in R3, SP.
  eexists p1, _. split; [exact R3|].
  intros e4 (E4 & T4 & C4 & X4 & D4). apply (delivers_marked _ _ _ _ M2) in D4.
  destruct (do_inv (Refresh e3) p p1 _ T3 Ip R3) as [B1 F1 Y1]. assert (I1 : pd_inv p1) by (constructor; assumption).
  destruct (iv_ty p (iv_b p Ip)) as (_ & _ & _ & (_ & _ & _ & _ & PU & _) & _).
  assert (R8 : r8 (rnd8 e3)) by (apply r8_rnd; apply T3).
  assert (BU : byte (if u then 0 else 1)) by (unfold byte; destruct u; lia).
  assert (RA : reply_addr c2 a2) by (destruct A2 as (x & y & z); rewrite Ad in z; rewrite <- (ak_addr _ _ _ K2) in z; exact (conj x (conj y z))).
  assert (KS : session_base_key (use_scbkd (fl c2)) (sc c2) = session_base_key (use_scbkd (fl c)) (sc c)) by (rewrite (ak_scbkd _ _ _ K2), S2; reflexivity).
  assert (SM : seqn c2 mod 4 = seq_next (seqn c)) by (rewrite (ak_seq _ _ _ K2); lia).
  pose proof (pan_ccrypt e4 c2 a2 (if u then 0 else 1) (client_uid (sc p)) (rnd8 e3) (ak_inv _ _ _ K2) C4 (ak_quiet _ _ _ K2) (ak_phy _ _ _ K2)
    (eq_trans (ak_state _ _ _ K2) St) (ak_cmd _ _ _ K2) BU RA PU R8) as PC.
  cbv zeta in PC. rewrite KS, SM, S2 in PC. destruct (PC D4) as (c3 & U4 & St3 & Ph3 & O3 & S3). clear PC.
  exists c3. split; [unfold cp_do; rewrite U4; reflexivity|].
  assert (I3 : cpi c3). { apply (cp_do_inv (Update e4) c2 c3 [] E4 (ak_inv _ _ _ K2)). unfold cp_do; rewrite U4; reflexivity. }
  intros e5 e6 T5 T6 X6.
  assert (N3 : 69 <= tx_buf_size c3) by (unfold tx_buf_size in *; rewrite (po_peer _ _ O3), (ak_peer _ _ _ K2); exact N1).
  destruct (pan_scrypt e5 e6 c3 I3 T5 T6 St3 Ph3 (po_rb _ _ O3) N3 X6) as (c4 & c5 & U5 & U6 & K5 & S5).
  set (cc := crypt (s_enc (sc c3)) (pd_random (sc c3)) (cp_random (sc c3))) in *.
  exists c4. split; [unfold cp_do; rewrite U5; reflexivity|]. eexists c5, _. split; [unfold cp_do; rewrite U6; reflexivity|].
  intros e7 (E7 & T7 & C7 & X7 & D7). apply (delivers_marked _ [255] _ _ (or_intror eq_refl)) in D7.
  rewrite (po_addr _ _ O3), (ak_addr _ _ _ K2), Z.mod_small, <- Ad, <- (do_addr _ _ _ O2) in D7 by lia.
  rewrite (po_seq _ _ O3), (ak_seq _ _ _ K2) in D7. set (s := seq_next (seqn c)) in *.
  assert (BC : blk cc). { destruct (cv_ty c3 (ci_b c3 I3)) as (_ & _ & _ & ((V1 & _) & _ & V3 & V4 & _) & _). apply blk_crypt; assumption. }
  assert (CCE : cc = crypt (s_enc (sc p1)) (pd_random (sc p1)) (cp_random (sc p1))) by (unfold cc; rewrite S3, SP; reflexivity).
  assert (S4 : 0 <= seq_next s <= 3) by (unfold seq_next; destruct (s =? 3) eqn:X; lia).
  assert (SQ : seq_ok (seqn p1) (seq_next s)) by (rewrite (do_seq _ _ _ O2); unfold seq_ok; right; right; reflexivity).
  assert (Bc : byte (if use_scbkd (fl c3) then 0 else 1)) by (unfold byte; destruct (use_scbkd (fl c3)); lia).
  assert (CAP1 : sc_is_capable p1 = true) by (unfold sc_is_capable in *; rewrite (do_cap _ _ _ O2), (do_dis _ _ _ O2); exact Cap).
  assert (CS1 : cap_sc p1 = true) by (unfold cap_sc, cap_at in *; rewrite (do_caps _ _ _ O2); exact CS).
  assert (N4 : 69 <= tx_buf_size p1) by (unfold tx_buf_size in *; rewrite (do_peer _ _ _ O2); exact N2).
  assert (AD1 : 0 <= address p1 < 127) by (rewrite (do_addr _ _ _ O2); lia).
  destruct (dev_scrypt e7 p1 (seq_next s) _ cc I1 C7 (proj1 (proj2 T7)) (do_quiet _ _ _ O2) CAP1 CS1 N4 X7 AD1 S4 SQ Bc BC D7 AP CCE)
    as (p2 & m4 & a4 & R7 & M4 & A4 & O4 & (AP2 & UP2) & SP2).
  eexists p2, _. split; [exact R7|].
  intros e8 (E8 & T8 & C8 & X8 & D8). apply (delivers_marked _ _ _ _ M4) in D8.
  set (m0 := rmac0 (s_mac1 (sc p1)) (s_mac2 (sc p1)) cc) in *.
  assert (I2 : pd_inv p2) by exact (do_inv (Refresh e7) p1 p2 _ T7 I1 R7).
  destruct (iv_ty p2 (iv_b p2 I2)) as (_ & _ & _ & ((Z1 & Z2 & Z3 & Z4 & Z5) & _) & _).
  assert (BM : blk m0) by (rewrite SP2 in Z4; exact Z4).
  assert (RA5 : reply_addr c5 a4).
  { destruct A4 as (x & y & z). rewrite (do_addr _ _ _ O2), Ad in z. split; [exact x|]. split; [exact y|]. rewrite (ak_addr _ _ _ K5), (po_addr _ _ O3), (ak_addr _ _ _ K2). exact z. }
  assert (SN5 : seqn c5 = seq_next s) by (rewrite (ak_seq _ _ _ K5), (po_seq _ _ O3), (ak_seq _ _ _ K2); reflexivity).
  assert (SM5 : seqn c5 mod 4 = seq_next s) by (rewrite SN5; lia).
  assert (OF5 : rq_offline c5 = false) by (rewrite (ak_off _ _ _ K5), (po_off _ _ O3), (ak_off _ _ _ K2); exact Off).
  assert (B1b : byte 1) by (unfold byte; lia).
  rewrite <- SM5 in D8.
  destruct (pan_rmac e8 c5 a4 1 m0 (ak_inv _ _ _ K5) C8 (ak_quiet _ _ _ K5) (ak_phy _ _ _ K5) (eq_trans (ak_state _ _ _ K5) St3) (ak_cmd _ _ _ K5) B1b RA5 BM OF5 D8)
    as (c6 & o & U8 & St6 & Q6 & A6 & Ad6 & Sq6 & S6 & K6 & Ph6 & Of6 & Ep6).
  assert (DO8 : cp_do (Update e8) c5 = Ok (c6, o)) by (unfold cp_do; rewrite U8; reflexivity).
  assert (I6 : cpi c6) by exact (cp_do_inv (Update e8) c5 c6 o E8 (ak_inv _ _ _ K5) DO8).
  pose proof (ci_b c6 I6) as B6. destruct (cv_ty c6 B6) as (_ & _ & _ & ((Y6a & Y6b & Y6c & Y6d & Y6e) & _) & _).
  exists c6, o. split; [exact DO8|]. split; [|split; [exact Q6|split; [exact (do_quiet _ _ _ O4)|]]].
  2:{ split; [rewrite St6, (ak_scbkd _ _ _ K5), (po_scbkd _ _ O3), (ak_scbkd _ _ _ K2); reflexivity|]. constructor.
      - exact (eq_trans K6 (eq_trans (ak_keep _ _ _ K5) (eq_trans (po_keep _ _ O3) (ak_keep _ _ _ K2)))).
      - exact (conj Ph6 Of6).
      - exact (eq_trans (do_keep _ _ _ O4) (do_keep _ _ _ O2)).
      - exact (conj (eq_trans (do_caps _ _ _ O4) (do_caps _ _ _ O2)) (eq_trans (do_peer _ _ _ O4) (do_peer _ _ _ O2))).
      - exact I2.
      - split; [exact (eq_trans (do_inst _ _ _ O4) (do_inst _ _ _ O2))|]. rewrite UP2, UP, (do_inst _ _ _ O2), (po_scbkd _ _ O3), (ak_scbkd _ _ _ K2). unfold u, b. clear. destruct (use_scbkd (fl c)), (use_scbkd (fl p)), (install (fl p)); reflexivity.
      - intros Y. assert (UY : use_scbkd (fl c5) = use_scbkd (fl c)) by (rewrite (ak_scbkd _ _ _ K5), (po_scbkd _ _ O3), (ak_scbkd _ _ _ K2); reflexivity).
        assert (V5 : ckeep c5 = ckeep c) by exact (eq_trans (ak_keep _ _ _ K5) (eq_trans (po_keep _ _ O3) (ak_keep _ _ _ K2))).
        assert (W5 : scbk (sc c5) = scbk (sc c)) by (unfold ckeep in V5; congruence). rewrite <- W5. apply Ep6. rewrite UY. exact Y. }
  assert (AD6 : address c6 = address c) by (rewrite Ad6, (ak_addr _ _ _ K5), (po_addr _ _ O3), (ak_addr _ _ _ K2); reflexivity).
  constructor.
  - constructor.
    + exact (cv_mode c6 B6).
    + exact (do_mode _ _ _ O4).
    + split; [exact (cv_skip c6 B6)|exact (do_skip _ _ _ O4)].
    + rewrite (do_addr _ _ _ O4), (do_addr _ _ _ O2), AD6. split; [exact Ad|exact A127].
    + exact (do_bc _ _ _ O4).
  - split; [exact A6|exact AP2].
  - rewrite (do_cap _ _ _ O4), (do_dis _ _ _ O4). apply andb_true_iff in CAP1 as [x y]. split; [exact x|]. apply negb_true_iff. exact y.
  - rewrite (do_seq _ _ _ O4), Sq6, SN5. split; [reflexivity|exact S4].
  - rewrite SP2, SP, S6, S5, S3. split; [reflexivity|split; reflexivity].
  - rewrite SP2, S6. reflexivity.
  - repeat (constructor; [assumption|]). constructor.
Qed.
