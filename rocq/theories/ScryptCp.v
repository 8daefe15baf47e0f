(** CP: what a panel transmits to prove its key. *)
From Verif Require Import Base ListLemmas Crc SpecCrc CrcProofs CrcBurst Aes AesProofs Rb RbProofs
  Types Sc ScProofs Phy PhyCheck File Pd Cp SpecRx SpecFrame SpecSec SpecSession SpecReply SpecAuth RxProofs RxFwd PdRx PdCore PhyTx PdTx PdReply
  PdStep PdRun PdWire PdFwd PdSec PdHist2 WireSec SaysProofs AuthProofs CpCtx SpecPd SpecCp SpecCpRun CpTx CpRx CpStep CpInv CpEdge CpFacts CpSum CpWire CpHist DrawnCp.
From Coq Require Import ZifyBool ZifyNat.
Local Opaque aes_ecb_encrypt aes_cbc_encrypt aes_cbc_decrypt mac_of RB_SIZE osdp_mac enc1 cap_entries osdp_encrypt encrypt_data.

(* the proof as transmitted: the case CMD_SCRYPT of cp_build_command, osdp_cp.c:184-397, and osdp_sc.c:61-67 *)
Definition own_proof (p : pd) (n : list Z) (d : list Z) : Prop := exists m,
  d = firstn m (255 :: handshake_frame (address p mod 128) (seq_next (seqn p)) 19 (if use_scbkd (fl p) then 0 else 1) (119 :: n)).
(* the value, osdp_sc.c:61-67 *)
Definition own_value (p : pd) : list Z := enc1 (s_enc (sc p)) (firstn 8 (pd_random (sc p)) ++ firstn 8 (cp_random (sc p))).

Lemma scrypt_sent e p q ok o d : cbinv p -> hs_ok p -> fread_typed e -> cmd_id p = 119 -> sc_active (fl p) = false ->
  cmd_sent e p q ok o -> In (OTx d) o -> own_proof p (own_value p) d.
Proof.
  intros I HK FR CI A S IN. assert (v4 := cv_seq _ I).
  destruct S as [(_ & _ & _ & ->) | (TB & p2 & pay & ss & ob & B & RM & TY & CP & CR & NT & S)]; [destruct IN|].
  destruct S as [(-> & _ & _ & ->) | (dd & -> & S)]; [destruct (NT d IN)|].
  destruct S as (S1 & S2 & S3 & S4 & S5 & S6 & S7 & S8).
  destruct S8 as [(_ & _ & -> & _) | (LE & (ot & -> & SE) & Q)]; [destruct (NT d IN)|].
  apply in_app_or in IN. destruct IN as [IN|IN]; [destruct (NT d IN)|].
  assert (SD : exists k, d = firstn k (255 :: wire_of p2 (cmd_body p dd ss))).
  { destruct SE as [(-> & _) | [(k & K1 & -> & _) | SE]]; [destruct IN| |].
    - destruct IN as [X|[]]. injection X as <-. eexists; reflexivity.
    - destruct SE as (-> & _). destruct IN as [X|[]]. injection X as <-. exists (length (255 :: wire_of p2 (cmd_body p dd ss))).
      rewrite firstn_all. reflexivity. }
  assert (BD : dd = 119 :: own_value p /\ ss = Some (19, if use_scbkd (fl p) then 0 else 1)).
  { unfold build_cmd_switch in B. change (cmd_id (cp_init p)) with (cmd_id p) in B. rewrite CI in B. cbv zeta in B.
    cbn -[cmd_room assert_len compute_cp_cryptogram] in B. unfold assert_len in B. destruct (17 <? cmd_room p); [|discriminate]. destruct (cmd_smb p); cbn [negb] in B; [|discriminate].
    injection B as _ B1 B2 _. split; [rewrite <- B1; unfold own_value; rewrite <- enc1_eq; reflexivity|symmetry; exact B2]. }
  destruct BD as (-> & ->). destruct SD as (k & ->). exists k. f_equal. f_equal.
  assert (TX : tx_buf_size p <= 256) by apply tx_buf_le.
  unfold wire_of in *. rewrite S6, A in *. unfold cmd_body in *.
  assert (IH : in_sc_handshake false (cmd_id p) = true) by (rewrite CI; reflexivity). rewrite IH in *.
  destruct (cp_ctl_eq p v4) as [_ C2]. rewrite C2 in *. rewrite <- cp_addr_mod. unfold handshake_frame. f_equal.
  rewrite zlen_cons, zlen_with_crc, zlen_put_len in LE.
  set (b := if use_scbkd (fl p) then 0 else 1) in *. set (x := 119 :: own_value p) in *.
  assert (Z : zlen ([83; cp_addr p; 0; 0; 12 + seq_next (seqn p); 3; 19; b] ++ x) + 2 = zlen x + 10).
  { rewrite zlen_app. change (zlen [83; cp_addr p; 0; 0; 12 + seq_next (seqn p); 3; 19; b]) with 8. lia. }
  rewrite Z in *. destruct (bytes0 (zlen x + 10)) as [E1 E2]. { pose proof (zlen_nonneg x). lia. }
  unfold put_len. rewrite E1, E2. reflexivity.
Qed.

Lemma scrypt_upd e p q rc o d : cpi p -> env_typed e -> state_update e p = Ok (q, rc, o) -> In (OTx d) o -> state p = SScrypt ->
  own_proof p (own_value p) d.
Proof.
  intros I ET U IN SC. destruct (upd_tx e p q rc o d I ET U IN) as (SE & RU & _). pose proof (cpi_case e p q rc o I ET U) as C.
  assert (CI : cmd_id p = 119). { pose proof (ci_cmd p I RU) as K. unfold cmd_of_state in K. rewrite SC in K. exact K. }
  assert (A : sc_active (fl p) = false). { destruct (sc_active (fl p)) eqn:A; auto. destruct (ci_act p I A); congruence. }
  assert (NI : phy_state p <> PIdle /\ phy_state p <> PReplyWait) by (destruct SE as [S|[S _]]; split; congruence). destruct NI as [N1 N2].
  assert (CB : cbinv (set_phy_state PSend p)) by (apply cbinv_phy; apply I).
  assert (GO : forall p1 ok o1, cmd_sent e (set_phy_state PSend p) p1 ok o1 -> In (OTx d) o1 -> own_proof p (own_value p) d).
  { intros p1 ok o1 CS IN1. refine (scrypt_sent e (set_phy_state PSend p) p1 ok o1 d CB _ (proj2 (proj2 ET)) CI A CS IN1).
    intros X. exfalso. change (sc_active (fl p) = true) in X. congruence. }
  destruct C as [ | p1 c o P G C0 -> | p1 c o1 o P G C0 F | p1 o S CS -> | p1 o1 o S CS E | | | p1 o P R T L E
     | p1 o P R -> | p1 r o1 o P R K E | p1 r o1 o P R K E ]; try (destruct IN; fail); try (exfalso; congruence).
  - eapply GO; eauto.
  - destruct (cmd_sent_fx e _ _ _ _ CB CS) as [x1 x2 x3 x4 x5].
    eapply GO; [exact CS|]. apply (ended_tx _ _ _ _ _ _ _ _ E); auto.
    + apply cbinv_phy; auto.
    + change (rq_restart p1 = false). rewrite <- (ci_rq _ I). change (rq_restart p) with (rq_restart (set_phy_state PSend p)). apply (tcore_fields _ _ x1).
Qed.
