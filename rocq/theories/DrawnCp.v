(** CP: the random number of a handshake is the one drawn when the handshake began. *)
From Verif Require Import Base ListLemmas Crc SpecCrc CrcProofs CrcBurst Aes AesProofs Rb RbProofs
  Types Sc ScProofs Phy PhyCheck File Pd Cp SpecRx SpecFrame SpecSec SpecSession SpecReply SpecAuth RxProofs RxFwd PdRx PdCore PhyTx PdTx PdReply
  PdStep PdRun PdWire PdFwd PdSec PdHist2 WireSec SaysProofs AuthProofs CpCtx SpecPd SpecCp SpecCpRun CpTx CpRx CpStep CpInv CpEdge CpFacts CpSum CpWire CpHist.
From Coq Require Import ZifyBool ZifyNat.
Local Opaque aes_ecb_encrypt aes_cbc_encrypt aes_cbc_decrypt mac_of RB_SIZE osdp_mac enc1 cap_entries osdp_encrypt encrypt_data.

(* the two states of a handshake, osdp_cp.c:1129-1179 *)
Definition shaking (s : cpstate) : bool := match s with SChlng | SScrypt => true | _ => false end.
(* eight random bytes of the caller's generator, osdp_sc.c:219-245 *)
Definition drawn (e : env) : list Z := firstn 8 (e_rand e ++ zeros 8).

Lemma setup_drawn e p : pd_mode (fl p) = false -> cp_random (sc (sc_setup (e_rand e) p)) = drawn e.
Proof. intros M. unfold sc_setup. rewrite M. reflexivity. Qed.

Lemma fin_drawn e p q ok : cbinv p -> fin_rel e p q ok -> shaking (state q) = true ->
  (state p <> SChlng /\ state q = SChlng /\ cp_random (sc q) = drawn e) \/
  (shaking (state p) = true /\ (state q = SScrypt -> state p = SChlng) /\ sc q = sc p).
Proof.
  intros I F S. pose proof (fr_edge _ _ _ _ F) as E. pose proof (fr_sc _ _ _ _ F) as M. unfold edge_ok, sc_move in *.
  destruct (state q) eqn:SQ; try discriminate.
  - destruct (state p) eqn:SP; cbn [st_eqb andb negb] in M;
      try (left; split; [discriminate|split; [reflexivity|rewrite M; apply setup_drawn; apply (cv_mode _ I)]]).
    right. split; [reflexivity|]. split; [discriminate|exact M].
  - cbn [st_eqb andb] in M. right. destruct (state p) eqn:SP; try contradiction; auto.
Qed.

Lemma checked_rnd p1 p3 st : checked p1 p3 st -> cp_random (sc p3) = cp_random (sc p1) /\ pd_mode (fl p3) = pd_mode (fl p1).
Proof. intros [N -> |p2 K T ->]; [auto|]. destruct T as [U -> |ty n k d U E TA ->]; auto. Qed.

Lemma upd_drawn e p q rc o : cpi p -> env_typed e -> state_update e p = Ok (q, rc, o) -> shaking (state q) = true ->
  (state p <> SChlng /\ state q = SChlng /\ cp_random (sc q) = drawn e) \/
  (shaking (state p) = true /\ cp_random (sc q) = cp_random (sc p)).
Proof.
  intros I T U S. destruct (upd_summary e p q rc o I T U) as [H | p1 RE X PI FP F | p1 p3 ok st RE RU X C FP F].
  - right. rewrite <- (hd_state _ _ _ H). split; [exact S|]. destruct (kcore_fields _ _ (hd_key _ _ _ H)) as (_ & _ & _ & _ & k5 & _). exact k5.
  - destruct (fin_drawn e p1 q true (px_b _ _ X) F S) as [(A & B & D)|(A & _ & B)].
    + left. rewrite (px_state _ _ X) in A. auto.
    + right. rewrite (px_state _ _ X) in A. split; [exact A|]. rewrite B. apply (px_rnd _ _ X).
  - destruct (checked_same _ _ _ C) as (d1 & _). destruct (checked_rnd _ _ _ C) as (r1 & m1).
    pose proof (px_state _ _ X) as PS.
    destruct (fin_drawn e p3 q (ok && st) (fp_b _ FP) F S) as [(A & B & D)|(A & _ & B)].
    + left. rewrite d1, PS in A. auto.
    + right. rewrite d1, PS in A. split; [exact A|]. rewrite B, r1. apply (px_rnd _ _ X).
Qed.

Lemma drawn_runs k n i h p : cp_runs k n i h p -> shaking (state p) = true ->
  exists h2 en h1 e, h = h2 ++ en :: h1 /\ ce_call en = Update e /\ state (ce_pd en) <> SChlng /\
    cp_random (sc p) = drawn e /\ Forall (fun x => shaking (state (ce_pd x)) = true /\ cp_random (sc (ce_pd x)) = drawn e) h2.
Proof.
  induction 1 as [p T E|h p c q o R IH CT D]; intros S.
  { exfalso. unfold new_pd in E. destruct (i_scbk i); try destruct (enforce _); try discriminate; injection E as <-; discriminate. }
  pose proof (cp_runs_inv _ _ _ _ _ R) as I.
  assert (KEEP : shaking (state p) = true -> cp_random (sc q) = cp_random (sc p) ->
    exists h2 en h1 e, mkCe p c o :: h = h2 ++ en :: h1 /\ ce_call en = Update e /\ state (ce_pd en) <> SChlng /\
      cp_random (sc q) = drawn e /\ Forall (fun x => shaking (state (ce_pd x)) = true /\ cp_random (sc (ce_pd x)) = drawn e) h2).
  { intros S1 Q. destruct (IH S1) as (h2 & en & h1 & e & H1 & H2 & H3 & H4 & H5).
    exists (mkCe p c o :: h2), en, h1, e. split; [rewrite H1; reflexivity|]. split; [exact H2|]. split; [exact H3|]. split; [congruence|].
    apply Forall_cons; [split; [exact S1|exact H4]|exact H5]. }
  destruct (is_update c) eqn:UC.
  2:{ destruct (other_eq c p q o UC D) as [U _]. destruct (ucore_fields _ _ U) as (u1 & _ & _ & _ & _ & _ & _ & u8 & _).
      apply KEEP; [rewrite <- u1; exact S|rewrite u8; reflexivity]. }
  destruct c as [e| | | | |]; try discriminate. destruct (cp_do_update e p q o D) as (rc & U).
  destruct (upd_drawn e p q rc o I CT U S) as [(A & _ & B)|(A & B)]; [|apply KEEP; assumption].
  exists [], (mkCe p (Update e) o), h, e. split; [reflexivity|]. split; [reflexivity|]. split; [exact A|]. split; [exact B|apply Forall_nil].
Qed.

(* the challenge as transmitted: the case CMD_CHLNG of cp_build_command, osdp_cp.c:184-397 *)
Definition challenge (p : pd) (n : list Z) (d : list Z) : Prop := exists m,
  d = firstn m (255 :: handshake_frame (address p mod 128) (seq_next (seqn p)) 17 (if use_scbkd (fl p) then 0 else 1) (118 :: n)).

Lemma chlng_sent e p q ok o d : cbinv p -> hs_ok p -> fread_typed e -> cmd_id p = 118 -> sc_active (fl p) = false ->
  cmd_sent e p q ok o -> In (OTx d) o -> challenge p (cp_random (sc p)) d.
Proof.
  intros I HK FR CI A S IN. assert (v4 := cv_seq _ I).
  destruct S as [(_ & _ & _ & ->) | (TB & p2 & pay & ss & ob & B & RM & TY & CP & CR & NT & S)]; [destruct IN|].
  destruct S as [(-> & _ & _ & ->) | (dd & -> & S)]; [destruct (NT d IN)|].
  destruct S as (S1 & S2 & S3 & S4 & S5 & S6 & S7 & S8).
  destruct S8 as [(_ & _ & -> & _) | (LE & (ot & -> & SE) & Q)]; [destruct (NT d IN)|].
  apply in_app_or in IN. destruct IN as [IN|IN]; [destruct (NT d IN)|].
  assert (SD : exists k, d = firstn k (255 :: wire_of p2 (cmd_body p dd ss))).
  { destruct SE as [(-> & _) | [(k & K1 & -> & _) | SE]]; [destruct IN| |].
    - destruct IN as [X|[]]. injection X as <-. eexists; reflexivity.
    - destruct SE as (-> & _). destruct IN as [X|[]]. injection X as <-. exists (length (255 :: wire_of p2 (cmd_body p dd ss))).
      rewrite firstn_all. reflexivity. }
  assert (BD : dd = 118 :: cp_random (sc p) /\ ss = Some (17, if use_scbkd (fl p) then 0 else 1)).
  { unfold build_cmd_switch in B. change (cmd_id (cp_init p)) with (cmd_id p) in B. rewrite CI in B. cbv zeta in B.
    change (118 =? CMD_CHLNG) with true in B. cbn -[cmd_room assert_len] in B. unfold assert_len in B. destruct (9 <? cmd_room p); [|discriminate]. destruct (cmd_smb p); cbn [negb] in B; [|discriminate].
    injection B as _ B1 B2 _. split; [symmetry; exact B1|symmetry; exact B2]. }
  destruct BD as (-> & ->). destruct SD as (k & ->). exists k. f_equal. f_equal.
  assert (TX : tx_buf_size p <= 256) by apply tx_buf_le.
  unfold wire_of in *. rewrite S6, A in *. unfold cmd_body in *.
  assert (IH : in_sc_handshake false (cmd_id p) = true) by (rewrite CI; reflexivity). rewrite IH in *.
  destruct (cp_ctl_eq p v4) as [_ C2]. rewrite C2 in *. rewrite <- cp_addr_mod. unfold handshake_frame. f_equal.
  rewrite zlen_cons, zlen_with_crc, zlen_put_len in LE.
  set (b := if use_scbkd (fl p) then 0 else 1) in *. set (x := 118 :: cp_random (sc p)) in *.
  assert (Z : zlen ([83; cp_addr p; 0; 0; 12 + seq_next (seqn p); 3; 17; b] ++ x) + 2 = zlen x + 10).
  { rewrite zlen_app. change (zlen [83; cp_addr p; 0; 0; 12 + seq_next (seqn p); 3; 17; b]) with 8. lia. }
  rewrite Z in *. destruct (bytes0 (zlen x + 10)) as [E1 E2]. { pose proof (zlen_nonneg x). lia. }
  unfold put_len. rewrite E1, E2. reflexivity.
Qed.

Lemma chlng_upd e p q rc o d : cpi p -> env_typed e -> state_update e p = Ok (q, rc, o) -> In (OTx d) o -> state p = SChlng ->
  challenge p (cp_random (sc p)) d.
Proof.
  intros I ET U IN SC. destruct (upd_tx e p q rc o d I ET U IN) as (SE & RU & _). pose proof (cpi_case e p q rc o I ET U) as C.
  assert (CI : cmd_id p = 118). { pose proof (ci_cmd p I RU) as K. unfold cmd_of_state in K. rewrite SC in K. exact K. }
  assert (A : sc_active (fl p) = false). { destruct (sc_active (fl p)) eqn:A; auto. destruct (ci_act p I A); congruence. }
  assert (NI : phy_state p <> PIdle /\ phy_state p <> PReplyWait) by (destruct SE as [S|[S _]]; split; congruence). destruct NI as [N1 N2].
  assert (CB : cbinv (set_phy_state PSend p)) by (apply cbinv_phy; apply I).
  assert (GO : forall p1 ok o1, cmd_sent e (set_phy_state PSend p) p1 ok o1 -> In (OTx d) o1 -> challenge p (cp_random (sc p)) d).
  { intros p1 ok o1 CS IN1. refine (chlng_sent e (set_phy_state PSend p) p1 ok o1 d CB _ (proj2 (proj2 ET)) CI A CS IN1).
    intros X. exfalso. change (sc_active (fl p) = true) in X. congruence. }
  destruct C as [ | p1 c o P G C0 -> | p1 c o1 o P G C0 F | p1 o S CS -> | p1 o1 o S CS E | | | p1 o P R T L E
     | p1 o P R -> | p1 r o1 o P R K E | p1 r o1 o P R K E ]; try (destruct IN; fail); try (exfalso; congruence).
  - eapply GO; eauto.
  - destruct (cmd_sent_fx e _ _ _ _ CB CS) as [x1 x2 x3 x4 x5].
    eapply GO; [exact CS|]. apply (ended_tx _ _ _ _ _ _ _ _ E); auto.
    + apply cbinv_phy; auto.
    + change (rq_restart p1 = false). rewrite <- (ci_rq _ I). change (rq_restart p) with (rq_restart (set_phy_state PSend p)). apply (tcore_fields _ _ x1).
Qed.
