(** CP: the frame that a refresh puts on the line. *)
From Verif Require Import Base ListLemmas Crc SpecCrc CrcProofs CrcBurst Aes AesProofs Rb RbProofs
  Types Sc ScProofs Phy PhyCheck File Pd Cp SpecRx SpecFrame SpecSec SpecSession RxProofs PdRx PdCore PhyTx PdTx PdReply
  PdStep PdRun PdWire PdFwd PdSec WireSec CpCtx SpecPd SpecCp CpTx CpRx CpStep CpInv CpEdge CpFacts CpSum.
From Coq Require Import ZifyBool ZifyNat.
Ltac Zify.zify_post_hook ::= Z.div_mod_to_equations.
Local Opaque aes_ecb_encrypt aes_cbc_encrypt aes_cbc_decrypt mac_of RB_SIZE osdp_mac enc1 cap_entries osdp_encrypt encrypt_data.

(* the frame for a command code with its data, in the state of entry p *)
Definition cmd_frame (p : pd) (code : Z) (data w : list Z) : Prop :=
  let a := address p mod 128 in
  let n := seq_next (seqn p) in
  if sc_active (fl p) then
    w = secure_frame a n (if zlen data >? 0 then 23 else 21) code data (s_enc (sc p)) (s_mac1 (sc p)) (s_mac2 (sc p)) (r_mac (sc p))
  else if in_sc_handshake false (cmd_id p) then
    exists ty b, (ty = 17 \/ ty = 19) /\ (b = 0 \/ b = 1) /\ w = handshake_frame a n ty b (code :: data)
  else w = plain_frame a n (code :: data).

Lemma cp_addr_mod p : cp_addr p = address p mod 128.
Proof. unfold cp_addr. change 127 with (Z.ones 7). rewrite Z.land_ones by lia. reflexivity. Qed.

Lemma cp_ctl_eq p : -1 <= seqn p <= 3 -> cp_ctl p = 4 + seq_next (seqn p) /\ Z.lor (cp_ctl p) 8 = 12 + seq_next (seqn p).
Proof.
  intros H. pose proof (seq_next_range (seqn p) H) as R. unfold cp_ctl. set (n := seq_next (seqn p)) in *. clearbody n.
  assert (n = 0 \/ n = 1 \/ n = 2 \/ n = 3) as [-> | [-> | [-> | ->]]] by lia; split; reflexivity.
Qed.

Lemma wire_of_cmd p p2 d ss code data : -1 <= seqn p <= 3 -> hs_ok p -> bytes d -> d = code :: data ->
  pd_mode (fl p2) = false -> macced p2 (cmd_body p d ss) = sc_active (fl p) ->
  (sc_active (fl p) = true -> sc_keys_ok (sc p2) /\ s_enc (sc p2) = s_enc (sc p) /\ s_mac1 (sc p2) = s_mac1 (sc p) /\ s_mac2 (sc p2) = s_mac2 (sc p) /\
     r_mac (sc p2) = r_mac (sc p)) ->
  match ss with
  | Some (ty, b) => (ty = 17 \/ ty = 19) /\ (b = 0 \/ b = 1) /\ cmd_smb p = true /\ in_sc_handshake false (cmd_id p) = true
  | None => in_sc_handshake false (cmd_id p) = true -> False
  end ->
  zlen (wire_of p2 (cmd_body p d ss)) <= 256 ->
  cmd_frame p code data (wire_of p2 (cmd_body p d ss)).
Proof.
  intros HS HK BD ED MD MA KS SS L. unfold cmd_frame. rewrite <- cp_addr_mod.
  destruct (cp_ctl_eq p HS) as [C1 C2]. pose proof (seq_next_range (seqn p) HS) as R.
  unfold cmd_body in *. rewrite C1, C2 in *. subst d. pose proof (Forall_inv BD) as Bc. pose proof (Forall_inv_tail BD) as Bt. cbv beta in Bc.
  pose proof (byte_cp_addr p) as BA.
  destruct (sc_active (fl p)) eqn:A.
  - rewrite HK in * by auto. destruct (KS eq_refl) as (K0 & K1 & K2 & K3 & K4).
    assert (T : (if zlen (code :: data) >? 1 then 23 else 21) = (if zlen data >? 0 then 23 else 21)).
    { rewrite zlen_cons. replace (1 + zlen data >? 1) with (zlen data >? 0) by lia. reflexivity. }
    rewrite T in *.
    set (ty := if zlen data >? 0 then 23 else 21) in *.
    assert (BT : byte ty) by (unfold ty; destruct (zlen data >? 0); unfold byte; lia). clearbody ty.
    pose proof (wire_secure p2 (cp_addr p) (seq_next (seqn p)) ty code data Bt BA R BT Bc K0) as W.
    cbv zeta in W. cbn [app] in W, L, MA |- *. specialize (W MA L). destruct W as [W _].
    rewrite W, K1, K2, K3. unfold last_out. rewrite MD, K4. reflexivity.
  - unfold wire_of in *. rewrite MA in *. destruct (in_sc_handshake false (cmd_id p)).
    + destruct ss as [[ty b]|]; [|destruct (SS eq_refl)]. destruct SS as (S1 & S2 & _). exists ty, b. split; [exact S1|]. split; [exact S2|].
      unfold handshake_frame. f_equal. rewrite zlen_with_crc, zlen_put_len in L.
      assert (Z : zlen ([83; cp_addr p; 0; 0; 12 + seq_next (seqn p); 3; ty; b] ++ code :: data) + 2 = zlen (code :: data) + 10).
      { rewrite zlen_app. change (zlen [83; cp_addr p; 0; 0; 12 + seq_next (seqn p); 3; ty; b]) with 8. lia. }
      rewrite Z in *. destruct (bytes0 (zlen (code :: data) + 10)) as [E1 E2].
      { pose proof (zlen_nonneg (code :: data)). lia. }
      unfold put_len. rewrite E1, E2. reflexivity.
    + unfold plain_frame. f_equal. rewrite zlen_with_crc, zlen_put_len in L.
      assert (Z : zlen ([83; cp_addr p; 0; 0; 4 + seq_next (seqn p)] ++ code :: data) + 2 = zlen (code :: data) + 7).
      { rewrite zlen_app. change (zlen [83; cp_addr p; 0; 0; 4 + seq_next (seqn p)]) with 5. lia. }
      rewrite Z in *. destruct (bytes0 (zlen (code :: data) + 7)) as [E1 E2].
      { pose proof (zlen_nonneg (code :: data)). lia. }
      unfold put_len. rewrite E1, E2. reflexivity.
Qed.

Lemma build_rel_sc p p2 : cbuild_rel (cp_init p) p2 -> hs_ok p -> sc_active (fl p) = true -> sc p2 = sc p.
Proof.
  intros [-> | [(_ & f & ->) | [C ->]]] H A; try reflexivity.
  exfalso. specialize (H A). change (cmd_id (cp_init p)) with (cmd_id p) in C. rewrite C in H. discriminate.
Qed.

(* what a transmission consists of *)
Record tx_is (e : env) (p : pd) (d : list Z) : Prop := {
  tx_ex : exists w k code data,
    d = firstn (Z.to_nat k) (255 :: w) /\ 0 < k <= zlen (255 :: w) /\ zlen (255 :: w) <= tx_buf_size p /\ bytes w /\
    f_shape false w /\ f_crc w = true /\ crc_valid w /\ nth 1 w 0 = address p mod 128 /\ f_seq w = seq_next (seqn p) /\
    (code = cmd_id p \/ cmd_id p = CMD_FILETRANSFER /\ code = CMD_ABORT) /\ bytes (code :: data) /\
    cmd_frame p code data w
}.

Lemma f_seq_ctl w n : 0 <= n <= 3 -> nth 4 w 0 = 4 + n \/ nth 4 w 0 = 12 + n -> f_seq w = n /\ f_crc w = true.
Proof.
  intros R H. unfold f_seq, f_crc. assert (n = 0 \/ n = 1 \/ n = 2 \/ n = 3) as [-> | [-> | [-> | ->]]] by lia;
  destruct H as [-> | ->]; split; reflexivity.
Qed.

Lemma cmd_sent_tx e p q ok o d : cbinv p -> hs_ok p -> fread_typed e -> cmd_sent e p q ok o -> In (OTx d) o -> tx_is e p d.
Proof.
  intros I HK FR S IN. assert (I0 := I). destruct I as [v1 v2 v3 v4 v5 v6]. destruct S as [(_ & _ & _ & ->) | (TB & p2 & pay & ss & ob & B & RM & TY & CP & CR & NT & S)]; [destruct IN|].
  destruct S as [(-> & _ & _ & ->) | (dd & -> & S)]; [destruct (NT d IN)|].
  destruct S as (S1 & S2 & S3 & S4 & S5 & S6 & S7 & S8).
  destruct S8 as [(_ & _ & -> & _) | (LE & (ot & -> & SE) & Q)]; [destruct (NT d IN)|].
  apply in_app_or in IN. destruct IN as [IN|IN]; [destruct (NT d IN)|].
  set (w := wire_of p2 (cmd_body p dd ss)) in *.
  assert (SD : exists k, 0 < k <= zlen (255 :: w) /\ d = firstn (Z.to_nat k) (255 :: w)).
  { destruct SE as [(-> & _) | [(k & K1 & -> & _) | SE]]; [destruct IN| |].
    - destruct IN as [X|[]]. injection X as <-. exists k. split; [lia|auto].
    - destruct SE as (-> & _). destruct IN as [X|[]]. injection X as <-. exists (zlen (255 :: w)). split.
      + rewrite zlen_cons. pose proof (zlen_nonneg w). lia.
      + unfold zlen. rewrite Nat2Z.id, firstn_all. reflexivity. }
  destruct SD as (k & K1 & K2).
  assert (TX : tx_buf_size p <= 256) by apply tx_buf_le.
  assert (LW : zlen w <= 256) by (rewrite zlen_cons in LE; lia).
  destruct (build_cmd_ok e (cp_init p) (cmd_smb p) (cmd_room p) p2 (Some dd) ss ob) as (_ & _ & CP1 & _ & SS); auto.
  { apply cp_init_typed; auto. }
  destruct CP1 as (BD & LD & t & DT).
  assert (ED : exists code data, dd = code :: data /\ (code = cmd_id p \/ cmd_id p = CMD_FILETRANSFER /\ code = CMD_ABORT)).
  { change (cmd_id (cp_init p)) with (cmd_id p) in DT. destruct DT as [-> | [D1 ->]]; eexists _, _; split; eauto. }
  destruct ED as (code & data & ED & EC).
  assert (MD : pd_mode (fl p2) = false).
  { destruct CR as [-> | [(_ & f & ->) | [_ ->]]]; exact v1. }
  assert (KO : sc_keys_ok (sc p2)) by (apply TY).
  destruct (wire_shape p2 (cmd_body p dd ss) KO S1 S2 S4) as (W1 & W2 & W3 & W4 & W5); auto.
  { intros X. apply S7; auto. }
  fold w in W1, W2, W3, W4, W5. rewrite S3, cp_addr_mod in W4.
  destruct (cp_ctl_eq p v4) as [C1 C2]. pose proof (seq_next_range (seqn p) v4) as R.
  destruct (f_seq_ctl w (seq_next (seqn p)) R) as [Q1 Q2].
  { rewrite W5. destruct S5 as [-> | ->]; lia. }
  assert (FS : f_reply (cmd_body p dd ss) = false).
  { unfold f_reply. rewrite S3. pose proof (Z.mod_pos_bound (address p) 128). rewrite cp_addr_mod. lia. }
  rewrite FS in W2.
  constructor. exists w, k, code, data. subst dd. repeat split; auto; try lia; try apply W2.
  apply wire_of_cmd; auto.
  { intros A. rewrite (build_rel_sc p p2 CR HK A) in *. repeat split; auto; apply KO. }
  destruct ss as [[ty b]|].
  - destruct SS as (X1 & X2 & X3 & X4). auto.
  - intros X. change (cmd_id (cp_init p)) with (cmd_id p) in SS. specialize (SS X). discriminate.
Qed.

Lemma tx_is_phy e p d s : tx_is e (set_phy_state s p) d -> tx_is e p d.
Proof. intros [X]. constructor. exact X. Qed.

Lemma finish_out e cur p ok o0 q rc o : finish_update e cur p ok o0 = Ok (q, rc, o) -> exists o9, o = o0 ++ o9 /\ no_tx o9.
Proof.
  intros F.
  unfold finish_update in F. destruct (if ok then next_ok_state e p else Ok (next_err_state e p)) as [[[a b] c] | |] eqn:E; try discriminate.
  rewrite bind_Ok in F.
  assert (NC : no_tx c).
  { revert E. unfold next_ok_state, next_err_state, notify_sc_status. destruct ok.
    - destruct (state p); try (intros E; injection E as <- <- <-; intros ? []).
      + destruct (sc_is_capable _); [|destruct (enforce _)]; intros E; injection E as <- <- <-; intros ? [].
      + match goal with |- context [if ?b then _ else _] => destruct b end; intros E; injection E as <- <- <-; apply no_tx_notify.
      + unfold keyset_complete. destruct (if negb _ then _ else _) as [x| |]; simpl; try discriminate. intros E; injection E as <- <- <-. apply no_tx_notify.
    - destruct (state p); intros E; try (injection E as <- <- <-; intros ? []).
      + destruct (enforce _); [|destruct (negb _)]; injection E as <- <- <-; intros ? [].
      + injection E as <- <- <-. apply no_tx_notify. }
  destruct (do_requests e a b) as [[p3 n2] o3] eqn:D.
  assert (ND : no_tx o3).
  { revert D. unfold do_requests. destruct (_ || _); [|intros D; injection D as <- <- <-; intros ? []].
    destruct (rq_restart a); cbn; destruct (rq_offline _); cbn; destruct (rq_event _); cbn; intros D; injection D as <- <- <-; try apply no_tx_cb; intros ? []. }
  destruct (st_eqb cur n2).
  - injection F as <- <- <-. exists (c ++ o3). split; auto. intros d IN. rewrite !in_app_iff in IN. destruct IN as [IN|IN]; [apply (NC _ IN)|apply (ND _ IN)].
  - destruct (state_change e p3 n2) as [p4 o4] eqn:SC.
    assert (N4 : no_tx o4).
    { revert SC. unfold state_change, notify_pd_status, notify_sc_status. destruct n2; intros SC; injection SC as <- <-; try apply no_tx_notify; try (intros ? []).
      intros x X. apply in_app_or in X. destruct X as [X|X]; revert X; apply no_tx_notify. }
    injection F as <- <- <-. exists (c ++ o3 ++ o4). split; auto. intros d IN. rewrite !in_app_iff in IN. destruct IN as [IN|[IN|IN]]; [apply (NC _ IN)|apply (ND _ IN)|apply (N4 _ IN)].
Qed.

Lemma ended_out e cur ok p1 o1 q o : ended e cur ok p1 o1 q o -> cbinv p1 -> rq_restart p1 = false ->
  exists o9, o = o1 ++ o9 /\ no_tx o9.
Proof.
  intros (p2 & st & o2 & C & F) I RQ.
  destruct (check_reply_fx e p1 p2 st o2 C I RQ) as (_ & _ & _ & _ & N & _).
  destruct (finish_out _ _ _ _ _ _ _ _ F) as (o9 & -> & N9).
  exists (o2 ++ notify_command_status e p2 st ++ o9). rewrite <- !app_assoc. split; auto.
  pose proof (no_tx_cmdst e p2 st) as NS.
  intros d IN. rewrite !in_app_iff in IN. destruct IN as [IN|[IN|IN]]; [apply (N _ IN)|apply (NS _ IN)|apply (N9 _ IN)].
Qed.

Lemma ended_tx e cur ok p1 o1 q o d : ended e cur ok p1 o1 q o -> cbinv p1 -> rq_restart p1 = false -> In (OTx d) o -> In (OTx d) o1.
Proof.
  intros E I R IN. destruct (ended_out _ _ _ _ _ _ _ E I R) as (o9 & -> & N). apply in_app_or in IN. destruct IN as [IN|IN]; auto. destruct (N _ IN).
Qed.

(* every transmission of a refresh *)
Theorem upd_tx e p q rc o d : cpi p -> env_typed e -> state_update e p = Ok (q, rc, o) -> In (OTx d) o ->
  sending e p /\ phy_running p = true /\ tx_is e p d.
Proof.
  intros I ET U IN. pose proof (cpi_case e p q rc o I ET U) as C. assert (I0 := I). destruct I as [i1 i2 i3 i4 i5 i6 i7 i8].
  assert (RC : forall p1 r o1, phy_state p = PReplyWait -> reply_case e p p1 r o1 -> cbinv p1 /\ rq_restart p1 = false /\ no_tx o1).
  { intros p1 r o1 P R. destruct (i3 P) as (W & _ & S0). destruct (reply_case_fx e p p1 r o1 i1 S0 W R) as [c1 c2 c3 c4].
    split; auto. split; auto. rewrite <- i8. apply (wcore_fields _ _ c1). }
  destruct C as [ | p1 c o P G C0 -> | p1 c o1 o P G C0 F | p1 o S CS -> | p1 o1 o S CS E | | | p1 o P R T L E
     | p1 o P R -> | p1 r o1 o P R K E | p1 r o1 o P R K E ]; try (destruct IN; fail).
  - destruct (get_cmd_fx e p p1 c o G i1) as [_ _ _ _ _ _ _ _ _ N]. destruct (N _ IN).
  - destruct (get_cmd_fx e p p1 c o1 G i1) as [_ _ _ _ _ _ _ _ _ N]. destruct (finish_out _ _ _ _ _ _ _ _ F) as (o9 & -> & N9).
    apply in_app_or in IN. destruct IN as [IN|IN]; exfalso; [apply (N _ IN)|apply (N9 _ IN)].
  - split; auto. split; [eapply sending_phy; eauto|]. apply (tx_is_phy e p d PSend). eapply cmd_sent_tx; eauto.
    + apply cbinv_phy; auto.
    + intros A. apply (hs_of_cmd p I0 (sending_phy e p S) A).
    + exact (proj2 (proj2 ET)).
  - split; auto. split; [eapply sending_phy; eauto|]. apply (tx_is_phy e p d PSend).
    assert (CB : cbinv (set_phy_state PSend p)) by (apply cbinv_phy; auto).
    destruct (cmd_sent_fx e _ _ _ _ CB CS) as [x1 x2 x3 x4 x5].
    eapply cmd_sent_tx; eauto.
    + intros A. apply (hs_of_cmd p I0 (sending_phy e p S) A).
    + exact (proj2 (proj2 ET)).
    + apply (ended_tx _ _ _ _ _ _ _ _ E); auto. apply cbinv_phy; auto.
      change (rq_restart p1 = false). rewrite <- i8. change (rq_restart p) with (rq_restart (set_phy_state PSend p)). apply (tcore_fields _ _ x1).
  - exfalso. destruct (RC _ _ _ P R) as (c1 & c2 & c3). apply (ended_tx _ _ _ _ _ _ _ d E) in IN; auto. apply cbinv_phy; auto.
  - exfalso. destruct (RC _ _ _ P R) as (c1 & c2 & c3). apply (c3 _ IN).
  - exfalso. destruct (RC _ _ _ P R) as (c1 & c2 & c3). destruct (stamped_fx e r p1) as (a & b & ST). rewrite ST in E. apply (ended_tx _ _ _ _ _ _ _ d E) in IN; auto.
    + apply (c3 _ IN).
    + apply cbinv_phy. cbgi c1.
  - exfalso. destruct (RC _ _ _ P R) as (c1 & c2 & c3). apply (ended_tx _ _ _ _ _ _ _ d E) in IN; auto.
    + apply (c3 _ IN).
    + apply cbinv_phy; auto.
Qed.
