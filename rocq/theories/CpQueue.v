(** CP: the command queue of a PD entry. *)
From Verif Require Import Base ListLemmas Crc SpecCrc CrcProofs CrcBurst Aes AesProofs Rb RbProofs
  Types Sc ScProofs Phy PhyCheck File Pd Cp SpecRx SpecFrame SpecSec SpecSession RxProofs RxFwd PdRx PdCore PhyTx PdTx PdReply
  PdStep PdRun PdWire PdFwd PdSec PdHist2 WireSec CpCtx SpecPd SpecCp SpecCpRun CpTx CpRx CpStep CpInv CpEdge CpFacts CpSum CpWire CpHist CpTime CpFwd CpRetry CpSeq.
From Coq Require Import ZifyBool ZifyNat.
Ltac Zify.zify_post_hook ::= Z.div_mod_to_equations.
Local Opaque aes_ecb_encrypt aes_cbc_encrypt aes_cbc_decrypt mac_of RB_SIZE osdp_mac enc1 cap_entries osdp_encrypt encrypt_data.

Lemma fin_cmdq e p q ok o0 rc o : finish_update e (state p) p ok o0 = Ok (q, rc, o) -> fin_pre p ->
  (state p = SSetScbk -> use_scbkd (fl p) = true) -> cmdq q = cmdq p.
Proof. intros F P S. pose proof (finish_rel _ _ _ _ _ _ _ F P S) as R. apply (core_l _ _ (fr_core _ _ _ _ R)). Qed.

Lemma reply_cmdq e p p1 r o : cpi p -> phy_state p = PReplyWait -> reply_case e p p1 r o -> cmdq p1 = cmdq p.
Proof.
  intros I P R. destruct (ci_rx p I P) as (W & _ & S0). destruct (reply_case_fx e p p1 r o (ci_b p I) S0 W R) as [c1 _ _ _ _ _ _ _ _ _].
  apply (wcore_fields _ _ c1).
Qed.

Lemma sent_cmdq e p p1 ok o : cpi p -> cmd_sent e (set_phy_state PSend p) p1 ok o -> cmdq p1 = cmdq p /\ eph p1 = eph p /\ cmd_id p1 = cmd_id p.
Proof.
  intros I CS. assert (CB : cbinv (set_phy_state PSend p)) by (apply cbinv_phy; apply I).
  pose proof (sx_core _ _ _ _ _ (cmd_sent_fx e _ _ _ _ CB CS)) as X.
  split; [exact (f_equal (fun x => cmdq x) X)|]. split; [exact (f_equal (fun x => eph x) X)|exact (f_equal (fun x => cmd_id x) X)].
Qed.

Lemma reason_cmdq e p p1 ok : cpi p -> phy_running p = true -> reason e p p1 ok -> cmdq p1 = cmdq p.
Proof.
  intros I R RE. destruct RE as [P _ _ _ _ _ E | o1 S CS | P RC _ _ | r o1 P RC K | r o1 p0 P RC E K].
  - unfold phy_running in R. rewrite P in R. discriminate.
  - apply (sent_cmdq e p p1 _ _ I CS).
  - eapply reply_cmdq; eauto.
  - eapply reply_cmdq; eauto.
  - rewrite E. destruct (stamped_fx e r p0) as (a & b & ->). simpl. eapply reply_cmdq; eauto.
Qed.

(* the queue after a refresh *)
Lemma upd_cmdq e p q rc o : cpi p -> env_typed e -> state_update e p = Ok (q, rc, o) ->
  cmdq p = taken_cmd (mkCe p (Update e) o) ++ cmdq q.
Proof.
  intros I ET U.
  assert (NI : phy_state p <> PIdle -> taken_cmd (mkCe p (Update e) o) = []).
  { intros P. unfold taken_cmd. simpl. destruct (state p); auto. destruct (phy_state p); auto. congruence. }
  assert (NO : state p <> SOnline -> taken_cmd (mkCe p (Update e) o) = []).
  { intros P. unfold taken_cmd. simpl. destruct (state p); auto. congruence. }
  assert (PK : forall p1 c o1, phy_state p = PIdle -> picked e p p1 c o1 -> cmdq p = taken_cmd (mkCe p (Update e) o) ++ cmdq p1).
  { intros p1 c o1 P K. destruct K as [k cq K1 K2 E1 K3 K4|f K1 K2 E1 K3|f K1 K2 E1 K3 K4|f K1 K2 E1 K3 K4|K1 E1 K2]; rewrite E1.
    5: { rewrite NO; auto. intros X. rewrite X in K1. auto. }
    all: unfold taken_cmd; simpl; rewrite K1, P, K2; reflexivity. }
  destruct (upd_phases e p q rc o I ET U) as [[G _] | PQ].
  - destruct G as [P1 T1 E O | p1 c P1 K C0 E N | p1 S1 CS E | P1 R1 T1 O | p1 P1 R1 T1 L E O | p1 P1 R1 E N].
    + rewrite NI by congruence. rewrite E. auto.
    + rewrite E. simpl. eapply PK; eauto.
    + rewrite NI by (destruct S1 as [S|[S _]]; congruence). rewrite E. simpl. destruct (sent_cmdq e p p1 true o I CS) as [-> _]. auto.
    + rewrite NI by congruence. simpl. symmetry. eapply reply_cmdq; eauto.
    + rewrite NI by congruence. rewrite E. simpl. symmetry. eapply reply_cmdq; eauto.
    + rewrite NI by congruence. rewrite E. simpl. symmetry. eapply reply_cmdq; eauto.
  - destruct (phy_running p) eqn:R.
    + rewrite NI by (intros P; unfold phy_running in R; rewrite P in R; discriminate). simpl.
      destruct (upd_summary e p q rc o I ET U) as [H | p1 RE X PI1 FP F | p1 p3 ok st RE RU X C FP F].
      * exfalso. pose proof (hd_run _ _ _ H) as Y. unfold phy_running in Y. rewrite PQ in Y. discriminate.
      * unfold phy_running in R. rewrite PI1 in R. discriminate.
      * destruct (core_l _ _ (fr_core _ _ _ _ F)) as (_ & _ & _ & _ & _ & _ & _ & c8 & _).
        destruct (checked_same _ _ _ C) as (_ & _ & _ & _ & _ & _ & _ & _ & _ & _ & _ & _ & d13 & _).
        rewrite c8, d13. symmetry. eapply reason_cmdq; eauto.
    + assert (P : phy_state p = PIdle) by (destruct (ci_phy p I); congruence).
      pose proof (cpi_case e p q rc o I ET U) as C.
      destruct C as [P1 T1 E | p1 c o P1 G C0 E | p1 c o1 o P1 G C0 F | p1 o SE CS E | p1 o1 o SE CS E | P1 R1 T1 | p1 P1 R1 T1 L E | p1 o P1 R1 T1 L E
       | p1 o P1 R1 E | p1 r o1 o P1 R1 K E | p1 r o1 o P1 R1 K E ]; try congruence; try (destruct SE as [S|[S _]]; congruence).
      * rewrite E in PQ. discriminate.
      * destruct (get_cmd_fx e p p1 c o1 G (ci_b p I)) as [g1 g2 g3 g4 g5 g6 g7 g8 g9 g10].
        assert (FP : fin_pre (set_cmd_id c p1)).
        { constructor; simpl; [cbgi g1 | congruence | rewrite g3; apply I | rewrite g4, g6; apply I | rewrite g5, (ci_rq p I); discriminate]. }
        rewrite <- g4 in F. change (state p1) with (state (set_cmd_id c p1)) in F.
        assert (SS : state (set_cmd_id c p1) = SSetScbk -> use_scbkd (fl (set_cmd_id c p1)) = true).
        { simpl. rewrite g4, g6. apply (ci_set p I). }
        rewrite (fin_cmdq _ _ _ _ _ _ _ F FP SS). simpl. exact (PK p1 c o1 P (get_cmd_picked _ _ _ _ _ G)).
Qed.

Lemma send_cmdq e c p q o : cp_do (Send e c) p = Ok (q, o) ->
  cmdq q = cmdq p ++ accepted_cmd (mkCe p (Send e c) o).
Proof.
  intros D. simpl in D. injection D as <- <-. unfold accepted_cmd. simpl. unfold cp_send_command.
  destruct (negb (st_eqb (state p) SOnline)); [destruct c; simpl; rewrite app_nil_r; auto|].
  destruct c; simpl; try (destruct (zlen (cmdq p) <? pool p); simpl; rewrite ?app_nil_r; reflexivity).
  - destruct (negb _ || _); simpl; [rewrite app_nil_r; auto|]. destruct (zlen (cmdq p) <? pool p); simpl; rewrite ?app_nil_r; reflexivity.
  - unfold file_tx_command. rewrite app_nil_r. destruct (file p); auto. destruct (in_progress f); [destruct (Z.testbit _ _); auto; destruct (_ =? _); auto|].
    destruct (Z.testbit _ _); auto. destruct (e_fopen _ _ _) as [rc sz]. destruct (rc <? 0); auto. destruct (sz <=? 0); auto.
Qed.

Lemma left_out_refl {A} (l : list A) : left_out l l.
Proof. induction l; constructor; auto. Qed.
Lemma left_out_app {A} (a b c : list A) : left_out a b -> left_out (a ++ c) (b ++ c).
Proof. induction 1; simpl; try (constructor; auto; fail). apply left_out_refl. Qed.
Lemma left_out_nil {A} (l : list A) : left_out [] l.
Proof. induction l; constructor; auto. Qed.
Lemma left_out_front {A} (a b c : list A) : left_out (a ++ b) c -> left_out a c.
Proof.
  intros H. remember (a ++ b) as x eqn:E. revert a E. induction H as [|x a' c H IH|x a' c H IH]; intros a E.
  - symmetry in E. apply app_eq_nil in E as [-> _]. constructor.
  - destruct a as [|y a]; simpl in E; [apply left_out_nil|]. injection E as -> ->. apply lo_keep. apply IH. reflexivity.
  - apply lo_drop. apply IH. auto.
Qed.

(* calls that are neither refresh, nor send, nor flush leave the queue alone *)
Lemma other_cmdq c p q o : cp_do c p = Ok (q, o) -> match c with Update _ | Send _ _ | FlushCmds => False | _ => True end -> cmdq q = cmdq p.
Proof.
  destruct c as [e|e c| |enf inst ign other ds| |]; simpl; intros D X; try contradiction; injection D as <- <-; try reflexivity.
  unfold cp_modify_flag. destruct other, enf, inst, ign; reflexivity.
Qed.

Theorem queue_order k n i h p : cp_runs k n i h p ->
  left_out (in_time taken_cmd h ++ cmdq p) (in_time accepted_cmd h) /\
  (Forall (fun en => is_flush (ce_call en) = false) h -> in_time accepted_cmd h = in_time taken_cmd h ++ cmdq p).
Proof.
  induction 1 as [p T N|h p c q o R [IH1 IH2] CT D].
  - simpl. assert (E : cmdq p = []).
    { unfold new_pd in N. destruct (i_scbk i); [|destruct (enforce _); [discriminate|]]; injection N as <-; reflexivity. }
    rewrite E. split; [constructor|auto].
  - pose proof (cp_runs_inv _ _ _ _ _ R) as I. simpl.
    destruct c as [e|e c| |enf inst ign other ds| |].
    + destruct (cp_do_update e p q o D) as (rc & U). pose proof (upd_cmdq e p q rc o I CT U) as X.
      change (accepted_cmd _) with (@nil cmd). rewrite app_nil_r, <- app_assoc, <- X. split; auto.
      intros F. inversion F; subst. auto.
    + change (taken_cmd _) with (@nil cmd). rewrite app_nil_r, (send_cmdq e c p q o D), app_assoc. split; [apply left_out_app; auto|].
      intros F. inversion F; subst. rewrite IH2 by auto. reflexivity.
    + simpl in D. injection D as <- <-. change (taken_cmd _) with (@nil cmd). change (accepted_cmd _) with (@nil cmd). rewrite !app_nil_r.
      split; [change (cmdq (fst (cp_flush_commands p))) with (@nil cmd); rewrite ?app_nil_r; eapply left_out_front; eauto|].
      intros F. inversion F; subst. discriminate.
    + change (taken_cmd _) with (@nil cmd). change (accepted_cmd _) with (@nil cmd). rewrite !app_nil_r, (other_cmdq _ _ _ _ D Logic.I). split; auto.
      intros F. inversion F; subst. auto.
    + change (taken_cmd _) with (@nil cmd). change (accepted_cmd _) with (@nil cmd). rewrite !app_nil_r, (other_cmdq _ _ _ _ D Logic.I). split; auto.
      intros F. inversion F; subst. auto.
    + change (taken_cmd _) with (@nil cmd). change (accepted_cmd _) with (@nil cmd). rewrite !app_nil_r, (other_cmdq _ _ _ _ D Logic.I). split; auto.
      intros F. inversion F; subst. auto.
Qed.

(** * Refusals *)
Definition queued (c : cmd) : Prop := match c with CFileTx _ _ => False | _ => True end.
Lemma send_refused e p c q o : cp_send_command e p c = (q, false, o) ->
  q = p /\ no_tx o /\ (queued c -> o = []).
Proof.
  unfold cp_send_command. destruct (negb (st_eqb (state p) SOnline)).
  { intros H. injection H as <- <-. split; auto. split; auto using no_tx_nil. }
  destruct c; try (destruct (zlen (cmdq p) <? pool p); intros H; inversion H; subst; split; auto; split; auto using no_tx_nil; fail).
  - destruct (negb _ || _); [intros H; inversion H; subst; split; auto; split; auto using no_tx_nil|].
    destruct (zlen (cmdq p) <? pool p); intros H; inversion H; subst; split; auto; split; auto using no_tx_nil.
  - assert (NO : no_tx [OFOpen file_id 0]) by (intros d [X|[]]; discriminate).
    unfold file_tx_command. destruct (file p); [|intros H; inversion H; subst; split; auto; split; auto using no_tx_nil].
    destruct (in_progress f); [destruct (Z.testbit _ _); [destruct (_ =? _)|]; intros H; inversion H; subst; split; auto; split; auto using no_tx_nil|].
    destruct (Z.testbit _ _); [intros H; inversion H; subst; split; auto; split; auto using no_tx_nil|].
    destruct (e_fopen _ _ _) as [rc sz]. destruct (rc <? 0); [intros H; inversion H; subst; split; auto; split; auto; intros []|].
    destruct (sz <=? 0); intros H; inversion H; subst; split; auto; split; auto; intros [].
Qed.


Lemma send_accepts e p c : queued c ->
  snd (fst (cp_send_command e p c)) = true <->
  state p = SOnline /\ zlen (cmdq p) < pool p /\ (forall ty n k, c = CKeyset ty n k -> ty = 1 /\ sc_active (fl p) = true).
Proof.
  intros Q. unfold cp_send_command.
  destruct (st_eqb (state p) SOnline) eqn:ST; simpl.
  2: { split; [discriminate|]. intros (X & _). rewrite X in ST. discriminate. }
  assert (SO : state p = SOnline) by (destruct (state p); try discriminate; auto).
  assert (EN : snd (fst (if zlen (cmdq p) <? pool p then (set_cmdq (cmdq p ++ [c]) p, true, @nil out) else (p, false, []))) = true <-> zlen (cmdq p) < pool p).
  { destruct (zlen (cmdq p) <? pool p) eqn:L; simpl; split; intros; try lia; auto; discriminate. }
  destruct c; try (rewrite EN; split; [intros; split; auto; split; auto; intros; discriminate|tauto]).
  - match goal with |- context[negb (?x =? 1) || ?y] => destruct (negb (x =? 1) || y) eqn:B end; simpl.
    + split; [discriminate|]. intros (_ & _ & X). destruct (X _ _ _ eq_refl) as [-> Y]. rewrite Y in B. discriminate.
    + rewrite EN. apply Bool.orb_false_iff in B as [B1 B2]. apply Bool.negb_false_iff in B1, B2. split; [|tauto].
      intros L. split; auto. split; auto. intros ty n0 k0 X. injection X as <- <- <-. split; [lia|auto].
  - destruct Q.
Qed.

(** * The command that is being served *)
Definition app_code (c : Z) : Prop := ~ In c [96; 124; 162].

Definition serving (h : list cp_entry) (p : pd) : Prop :=
  phy_running p = true -> state p = SOnline -> app_code (cmd_id p) ->
  exists a k, in_time taken_cmd h = a ++ [k] /\ eph p = EphCmd k /\ wire_code (sc_active (fl p)) k (cmd_id p).

Lemma went_keep e p q o : cpi p -> went_on e p q o -> phy_running p = true -> cmd_id q = cmd_id p /\ eph q = eph p /\ sc_active (fl q) = sc_active (fl p).
Proof.
  intros I G R. destruct G as [P1 T1 E O | p1 c P1 K C0 E N | p1 S1 CS E | P1 R1 T1 O | p1 P1 R1 T1 L E O | p1 P1 R1 E N].
  - rewrite E. auto.
  - unfold phy_running in R. rewrite P1 in R. discriminate.
  - rewrite E. simpl. destruct (sent_cmdq e p p1 true o I CS) as (_ & -> & ->). split; auto. split; auto.
    assert (CB : cbinv (set_phy_state PSend p)) by (apply cbinv_phy; apply I).
    exact (f_equal (fun x => sc_active (fl x)) (sx_core _ _ _ _ _ (cmd_sent_fx e _ _ _ _ CB CS))).
  - destruct (nodata_ev e p q I P1 R1) as (RX & _). split; [exact (f_equal (fun x => cmd_id x) RX)|]. split; [exact (f_equal (fun x => eph x) RX)|exact (f_equal (fun x => sc_active (fl x)) RX)].
  - destruct (nodata_ev e p p1 I P1 R1) as (RX & _). rewrite E. simpl. split; [exact (f_equal (fun x => cmd_id x) RX)|]. split; [exact (f_equal (fun x => eph x) RX)|exact (f_equal (fun x => sc_active (fl x)) RX)].
  - rewrite E. simpl. destruct (reply_phy e p p1 _ _ I P1 R1) as (_ & _ & Y & _). split; auto.
    destruct (ci_rx p I P1) as (W & _ & S0). pose proof (reply_case_fx e p p1 _ o (ci_b p I) S0 W R1) as FX.
    split; [|apply (rx_act1 _ _ _ _ _ FX); discriminate].
    clear FX E Y. remember CRetry as r eqn:ER. destruct R1 as [k X K S|k X K C|pf r o G S F]; try discriminate.
    pose proof G as (RX & W1 & _ & _ & PL & _). assert (E1 : eph pf = eph p) by exact (f_equal (fun x => eph x) RX).
    assert (I1 : cbinv pf) by (eapply cbinv_rx; eauto; [apply (ci_b p I)|apply W1]).
    subst r. remember CRetry as r eqn:ER. destruct F as [B E|A B C E|A B C D E|k A B C D H1|p2 l r o A B C D H1 H2]; try discriminate.
    + rewrite E. exact E1.
    + destruct (got_full _ _ _ G) as (FU & _).
      destruct (cp_decode_packet _ _ _ I1 ltac:(destruct FU as (x & y & _); lia) H1) as (Ip2 & DC & _ & _ & _ & BL & NE & L & _ & E3 & _).
      assert (L1 : 1 <= zlen l) by (destruct l; [congruence|]; rewrite zlen_cons; pose proof (zlen_nonneg l); lia).
      destruct (resp_ev e p2 l p1 r o H2 L1 ER) as (_ & _ & X3).
      congruence.
Qed.

Lemma serving_runs k n i h p : cp_runs k n i h p -> serving h p.
Proof.
  induction 1 as [p T N|h p c q o R IH CT D].
  - intros X. unfold new_pd in N. destruct (i_scbk i); [|destruct (enforce _); [discriminate|]]; injection N as <-; discriminate.
  - pose proof (cp_runs_inv _ _ _ _ _ R) as I. intros RQ SQ AQ. destruct (is_update c) eqn:UC.
    + destruct c as [e| | | | |]; try discriminate. destruct (cp_do_update e p q o D) as (rc & U).
      destruct (upd_phases e p q rc o I CT U) as [[G _] | PQ]; [|unfold phy_running in RQ; rewrite PQ in RQ; discriminate].
      pose proof (went_state e p q o I CT G) as SP.
      destruct (phy_running p) eqn:RP.
      * destruct (went_keep e p q o I G RP) as (E1 & E2 & E3). rewrite E1 in *. rewrite SQ in SP. symmetry in SP.
        destruct (IH RP SP AQ) as (a & k0 & X1 & X2 & X3). exists a, k0. simpl.
        assert (TK : taken_cmd (mkCe p (Update e) o) = []) by (unfold taken_cmd; simpl; rewrite SP; destruct (phy_state p) eqn:PP; auto; unfold phy_running in RP; rewrite PP in RP; discriminate).
        rewrite TK, app_nil_r, E2, E3. auto.
      * destruct G as [P1 T1 E O | p1 c P1 K C0 E NX | p1 S1 CS E | P1 R1 T1 O | p1 P1 R1 T1 L E O | p1 P1 R1 E NX];
          try (exfalso; unfold phy_running in RP; rewrite P1 in RP; discriminate).
        2: { exfalso. unfold phy_running in RP. destruct S1 as [S|[S _]]; rewrite S in RP; discriminate. }
        rewrite E in AQ |- *. simpl in AQ |- *. rewrite SQ in SP. symmetry in SP.
        destruct K as [k0 cq K1 K2 E1 K3 K4|f K1 K2 E1 K3|f K1 K2 E1 K3 K4|f K1 K2 E1 K3 K4|K1 E1 K2].
        -- exists (in_time taken_cmd h), k0. unfold taken_cmd at 2. simpl. rewrite SP, P1, K2. rewrite E1. simpl. auto.
        -- exfalso. apply AQ. simpl. destruct K3 as [K3|[K3|[K3|K3]]]; subst; auto; lia.
        -- exfalso. apply AQ. simpl. auto.
        -- exfalso. lia.
        -- rewrite SP in K1. destruct K1.
    + destruct (other_eq c p q o UC D) as [E N]. 
      destruct (ucore_fields _ _ E) as (u1 & u2 & u3 & u4 & u5 & u6 & u7 & u8 & u9 & u10 & u11 & u12 & u13 & _).
      assert (TK : taken_cmd (mkCe p c o) = []) by (unfold taken_cmd; destruct c; try discriminate; reflexivity).
      simpl. rewrite TK, app_nil_r, u13, u9, u11. rewrite u11 in AQ. apply IH; auto; [unfold phy_running in *; rewrite <- u2; auto|congruence].
Qed.
