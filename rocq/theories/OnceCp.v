(** CP: each command taken from the queue is reported once, in order. *)
From Verif Require Import Base ListLemmas Crc SpecCrc CrcProofs CrcBurst Aes AesProofs Rb RbProofs
  Types Sc ScProofs Phy PhyCheck File Pd Cp SpecRx SpecFrame SpecSec SpecSession RxProofs RxFwd PdRx PdCore PhyTx PdTx PdReply
  PdStep PdRun PdWire PdFwd PdSec PdHist2 WireSec CpCtx SpecPd SpecCp SpecCpRun CpTx CpRx CpStep CpInv CpEdge CpFacts CpSum CpWire CpHist CpTime CpFwd CpRetry CpSeq CpQueue CpReply SpecOnce.
From Coq Require Import ZifyBool ZifyNat.
Ltac Zify.zify_post_hook ::= Z.div_mod_to_equations.
Local Opaque aes_ecb_encrypt aes_cbc_encrypt aes_cbc_decrypt mac_of RB_SIZE osdp_mac enc1 cap_entries osdp_encrypt encrypt_data.

Lemma silent_no_report o : silent o -> flat_map report_of o = [].
Proof. induction 1 as [|x t [A B] _ IH]; simpl; auto. rewrite IH, app_nil_r. unfold report_of, is_status in *. repeat match goal with |- context [match ?v with _ => _ end] => destruct v; auto; try discriminate end. Qed.

(* the end of a refresh reports nothing about commands by itself *)
Lemma finish_no_report e cur p ok o0 q rc o : finish_update e cur p ok o0 = Ok (q, rc, o) -> no_notif p ->
  flat_map report_of o = flat_map report_of o0.
Proof.
  intros FU NN. destruct (finish_events _ _ _ _ _ _ _ _ FU) as (a & cb & b & -> & SA & SB & CC & _).
  rewrite !flat_map_app, (silent_no_report a SA), (silent_no_report b SB), app_nil_r. simpl.
  assert (Z : flat_map report_of cb = []); [|rewrite Z, app_nil_r; auto].
  destruct CC as [-> |(_ & [-> |[(ev & -> & E)|(y & -> & _)]])]; auto.
  specialize (NN ev E). destruct ev; auto. discriminate.
Qed.

(* what the end of an exchange reports *)
Definition told_at_end (p : pd) (l : list Z) : Prop :=
  l = kind_of_code (cmd_id p) \/ l = [] /\ cmd_id p = 128.

Lemma status_report e p st : e_evcb e = true -> notif (fl p) = true -> told_at_end p (flat_map report_of (notify_command_status e p st)).
Proof.
  intros E N. unfold told_at_end, notify_command_status, app_cmd_of, notify, kind_of_code. cbv zeta. rewrite E, N. cbn [andb].
  unfold CMD_OUT, CMD_LED, CMD_BUZ, CMD_TEXT, CMD_COMSET, CMD_ISTAT, CMD_OSTAT, CMD_LSTAT, CMD_RSTAT, CMD_KEYSET, CMD_MFG.
  repeat match goal with |- context [if ?b then _ else _] => destruct b eqn:? end; simpl; auto; try (exfalso; lia).
  right. split; auto. lia.
Qed.

Lemma ended_report e cur ok p1 o1 q o : ended e cur ok p1 o1 q o -> silent o1 -> no_notif p1 -> e_evcb e = true -> notif (fl p1) = true ->
  told_at_end p1 (flat_map report_of o).
Proof.
  intros (p2 & st & o2 & CK & FU) S1 NN E N.
  pose proof (check_silent _ _ _ _ _ CK) as S2. destruct (check_checked _ _ _ _ _ CK) as (CH & _).
  rewrite (finish_no_report _ _ _ _ _ _ _ _ FU); [|intros ev; destruct (check_eph _ _ _ CH) as (-> & _); apply NN].
  rewrite !flat_map_app, (silent_no_report o1 S1), (silent_no_report o2 S2). simpl.
  assert (CC : cmd_id p2 = cmd_id p1 /\ notif (fl p2) = notif (fl p1)).
  { change (cmd_id (state_reset false p2) = cmd_id p1 /\ notif (fl (state_reset false p2)) = notif (fl p1)).
    destruct CH as [_ -> |p2' K TT ->]; auto. destruct TT as [U -> |ty n k d U E0 TA ->]; auto. }
  destruct CC as [C1 C2]. rewrite <- C2 in N. pose proof (status_report e p2 st E N) as X. unfold told_at_end in *. rewrite C1 in X. exact X.
Qed.

Lemma wire_kind act k c : wire_code act k c -> kind_of_code c = kind_of act k.
Proof.
  destruct k as [| | | |ty n d| | | |ty n d|]; simpl; intros W; try contradiction; subst; auto.
  - destruct ((ty =? 1) && act); auto.
  - destruct (ty =? 0) eqn:A, (ty =? 1) eqn:B, (ty =? 2) eqn:C, (ty =? 3) eqn:D; destruct ((0 <=? ty) && (ty <=? 3)) eqn:F; auto; exfalso; lia.
Qed.

Lemma none_kind c : c <= 0 -> kind_of_code c = [].
Proof. intros H. unfold kind_of_code. repeat match goal with |- context [if ?b then _ else _] => destruct b eqn:? end; auto; exfalso; lia. Qed.

(* one refresh: what becomes due and what is reported *)
Definition balanced (e : env) (p q : pd) (o : list out) : Prop :=
  let en := mkCe p (Update e) o in
  (reports en = [] /\ under_way p ++ kinds en = under_way q) \/
  (under_way q = [] /\ kinds en = [] /\ (reports en = under_way p \/ reports en = [] /\ under_way p = [7])).

Lemma kinds_idle e p o : phy_state p <> PIdle -> kinds (mkCe p (Update e) o) = [].
Proof. intros H. unfold kinds, taken_cmd. simpl. destruct (state p); auto. destruct (phy_state p); auto. congruence. Qed.
Lemma kinds_off e p o : state p <> SOnline -> kinds (mkCe p (Update e) o) = [].
Proof. intros H. unfold kinds, taken_cmd. simpl. destruct (state p); auto. congruence. Qed.
Lemma way_off p : state p <> SOnline -> under_way p = [].
Proof. intros H. unfold under_way. destruct (state p); auto. congruence. Qed.
Lemma way_idle p : phy_running p = false -> under_way p = [].
Proof. intros H. unfold under_way. rewrite H. destruct (state p); auto. Qed.
Lemma reports_none e p o : flat_map report_of o = [] -> reports (mkCe p (Update e) o) = [].
Proof. intros H. unfold reports. simpl. rewrite H. destruct (own_keyset p); auto. Qed.

Lemma pick_way e p p1 c o : phy_state p = PIdle -> picked e p p1 c o -> forall x,
  kinds (mkCe p (Update e) x) = match state p with SOnline => kind_of_code c | _ => [] end.
Proof.
  intros P K x. unfold kinds, taken_cmd. simpl. destruct K as [k cq K1 K2 E1 K3 K4|f K1 K2 E1 K3|f K1 K2 E1 K3 K4|f K1 K2 E1 K3 K4|K1 E1 K2].
  - rewrite K1, P, K2. simpl. rewrite app_nil_r. symmetry. apply wire_kind. exact K3.
  - rewrite K1, P, K2. simpl. destruct K3 as [-> |[-> |[-> | ->]]]; reflexivity.
  - rewrite K1, P, K2, K3. reflexivity.
  - rewrite K1, P, K2, K3. reflexivity.
  - destruct (state p); auto. destruct K1.
Qed.

Lemma pick_state e p p1 c o : picked e p p1 c o -> state p1 = state p.
Proof. intros [k cq K1 K2 E1 K3 K4|f K1 K2 E1 K3|f K1 K2 E1 K3 K4|f K1 K2 E1 K3 K4|K1 E1 K2]; rewrite E1; reflexivity. Qed.

Lemma way_run p q : state q = state p -> cmd_id q = cmd_id p -> phy_running q = phy_running p -> under_way q = under_way p.
Proof. intros A B C. unfold under_way. rewrite A, B, C. reflexivity. Qed.

Lemma upd_balanced e p q rc o : cpi p -> no_notif p -> env_typed e -> e_evcb e = true -> notif (fl p) = true ->
  state_update e p = Ok (q, rc, o) -> balanced e p q o.
Proof.
  intros I NN ET EC NT U. pose proof (cpi_case e p q rc o I ET U) as C.
  assert (PH := upd_phases e p q rc o I ET U).
  (* an exchange ends *)
  assert (EN : forall ok p1 o1, phy_running p = true -> silent o1 -> no_notif p1 -> notif (fl p1) = true -> cmd_id p1 = cmd_id p ->
      ended e (state p) ok p1 o1 q o -> phy_state q = PIdle -> balanced e p q o).
  { intros ok p1 o1 R S1 N1 T1 CI E Q. right.
    split; [apply way_idle; unfold phy_running; rewrite Q; auto|]. split; [apply kinds_idle; intros X; unfold phy_running in R; rewrite X in R; discriminate|].
    pose proof (ended_report _ _ _ _ _ _ _ E S1 N1 EC T1) as TE. unfold told_at_end in TE. rewrite CI in TE.
    pose proof (ci_cmd p I R) as CM. unfold reports, under_way, own_keyset. simpl. rewrite R.
    unfold cmd_of_state in CM. destruct (state p) eqn:S; cbv iota in CM; try (left; destruct TE as [-> |[-> _]]; auto; unfold kind_of_code; try rewrite CM; reflexivity); auto.
    - destruct TE as [-> |[-> TE]]; auto. right. rewrite TE. auto.
    - left. destruct TE as [-> |[-> _]]; auto. destruct CM. }
  assert (GO : phy_running q = true -> flat_map report_of o = [] -> phy_running p = true -> cmd_id q = cmd_id p -> state q = state p -> balanced e p q o).
  { intros R1 X R0 CI ST. left. split; [apply reports_none; auto|].
    rewrite kinds_idle, app_nil_r; [symmetry; apply way_run; congruence|]. intros Y. unfold phy_running in R0. rewrite Y in R0. discriminate. }
  assert (RR : phy_state p = PReplyWait -> phy_running p = true) by (intros P; unfold phy_running; rewrite P; auto).
  assert (RS : sending e p -> phy_running p = true) by (intros [S|[S _]]; unfold phy_running; rewrite S; auto).
  assert (RN : forall p1 r o1, phy_state p = PReplyWait -> reply_case e p p1 r o1 -> notif (fl p1) = true).
  { intros p1 r o1 P R. destruct (ci_rx p I P) as (W & _ & S0). destruct (reply_case_fx e p p1 r o1 (ci_b p I) S0 W R) as [c1 _ _ _ _ _ _ _ _ _].
    rewrite <- NT. exact (f_equal (fun x => notif (fl x)) c1). }
  assert (RC : forall p1 r o1, phy_state p = PReplyWait -> reply_case e p p1 r o1 -> silent o1 /\ no_notif p1 /\ cmd_id p1 = cmd_id p /\ state p1 = state p).
  { intros p1 r o1 P R. split; [eapply reply_silent; eauto|]. split; [apply (src_no_notif e p p1); auto; eapply reply_src; eauto|].
    destruct (reply_phy e p p1 r o1 I P R) as (_ & _ & CI & _). split; auto. exact (px_state _ _ (reply_pre _ _ _ _ _ I P R)). }
  pose proof I as I0. destruct I0 as [i1 i2 i3 i4 i5 i6 i7 i8]. assert (BR : bytes (e_rand e)) by apply ET.
  assert (RF : forall p1 r o1, phy_state p = PReplyWait -> reply_case e p p1 r o1 -> reply_fx e p p1 r o1).
  { intros p1 r o1 P R. destruct (i3 P) as (W & _ & S0). apply reply_case_fx; auto. }
  assert (EI : forall p1 r o1 ok x o2, phy_state p = PReplyWait -> reply_case e p p1 r o1 -> ended e (state p) ok (set_phy_state x p1) o1 q o2 -> phy_state q = PIdle).
  { intros p1 r o1 ok x o2 P R E. destruct (RF _ _ _ P R) as [c1 c2 c3 c4 c5 c6 c7 c8 c9 c10].
    destruct (wcore_fields _ _ c1) as (w1 & w2 & w3 & w4 & w5 & w6 & w7 & w8 & _).
    apply (ended_idle _ _ _ _ _ _ _ E); simpl; auto; try congruence; try lia.
    - apply cbinv_phy; auto.
    - rewrite w2. auto. }
  destruct C as [P1 T1 E | p1 c o P1 G1 C0 E | p1 c o1 o P1 G1 C0 F | p1 o SE CS E | p1 o1 o SE CS E | P1 R1 T1 | p1 P1 R1 T1 L E | p1 o P1 R1 T1 L E
       | p1 o P1 R1 E | p1 r o1 o P1 R1 K E | p1 r o1 o P1 R1 K E ].
  - subst q. left. split; [apply reports_none; reflexivity|]. rewrite kinds_idle, app_nil_r; auto. congruence.
  - left. pose proof (get_cmd_picked _ _ _ _ _ G1) as PK. split; [apply reports_none, silent_no_report; eapply get_cmd_silent; eauto|].
    rewrite (pick_way e p p1 c o P1 PK), (way_idle p) by (unfold phy_running; rewrite P1; auto). subst q. simpl. unfold under_way, phy_running. simpl.
    rewrite (pick_state _ _ _ _ _ PK). reflexivity.
  - pose proof (get_cmd_picked _ _ _ _ _ G1) as PK. left. split.
    + apply reports_none. destruct (pick_src _ _ _ _ _ PK) as (SR & _).
      rewrite (finish_no_report _ _ _ _ _ _ _ _ F); [|exact (src_no_notif e p p1 SR NN)]. apply silent_no_report. eapply get_cmd_silent; eauto.
    + rewrite (pick_way e p p1 c o1 P1 PK), (way_idle p) by (unfold phy_running; rewrite P1; auto). simpl.
      rewrite (none_kind c C0).
      assert (Q : phy_state q = PIdle).
      { destruct (get_cmd_fx e p p1 c o1 G1 i1) as [g1 g2 g3 g4 g5 g6 g7 g8 g9 g10].
        rewrite <- g4 in F. change (state p1) with (state (set_cmd_id c p1)) in F.
        apply (finish_idle _ _ _ _ _ _ _ F); auto. constructor; simpl; [cbgi g1 | congruence | rewrite g3; exact i4 | rewrite g4, g6; auto | congruence]. }
      rewrite (way_idle q) by (unfold phy_running; rewrite Q; auto). destruct (state p); auto.
  - assert (CB : cbinv (set_phy_state PSend p)) by (apply cbinv_phy; auto).
    destruct (cmd_sent_fx e _ _ _ _ CB CS) as [x1 x2 x3 x4 x5].
    apply GO; auto; subst q; simpl; auto.
    + apply silent_no_report. eapply sent_silent; eauto.
    + exact (f_equal (fun x => cmd_id x) x1).
    + exact (f_equal (fun x => state x) x1).
  - assert (CB : cbinv (set_phy_state PSend p)) by (apply cbinv_phy; auto).
    destruct (cmd_sent_fx e _ _ _ _ CB CS) as [x1 x2 x3 x4 x5].
    apply (EN false (set_phy_state PErr p1) o1); auto; simpl.
    + eapply sent_silent; eauto.
    + intros ev. assert (EE : eph p1 = eph p) by exact (f_equal (fun x => eph x) x1). simpl. rewrite EE. apply NN.
    + rewrite <- NT. exact (f_equal (fun x => notif (fl x)) x1).
    + exact (f_equal (fun x => cmd_id x) x1).
    + destruct (tcore_fields _ _ x1) as (t1 & t2 & t3 & t4 & t5 & t6 & t7 & t8 & t9 & t10 & t11 & t12 & t13 & t14 & t15 & t16 & t17 & t18 & t19 & t20 & t21 & _).
      simpl in t2, t4, t9, t21. apply (ended_idle _ _ _ _ _ _ _ E); simpl; auto; try congruence; try lia.
      * apply cbinv_phy; auto.
      * rewrite t21, t2. auto.
  - destruct (RC _ _ _ P1 R1) as (A & B & CI & ST). apply GO; auto.
    destruct (RF _ _ _ P1 R1) as [c1 _ _ _ _ _ _ _ _ _]. destruct (wcore_fields _ _ c1) as (w1 & w2 & w3 & _). unfold phy_running. rewrite w3, P1. reflexivity.
  - destruct (RC _ _ _ P1 R1) as (A & B & CI & ST). subst q. apply GO; auto.
  - destruct (RC _ _ _ P1 R1) as (A & B & CI & ST). apply (EN false (set_phy_state PErr p1) []); auto; first [exact (RN _ _ _ P1 R1)|eapply EI; eauto|idtac].
  - destruct (RC _ _ _ P1 R1) as (A & B & CI & ST). subst q. apply GO; auto. apply silent_no_report; auto.
  - destruct (RC _ _ _ P1 R1) as (A & B & CI & ST). pose proof (RN _ _ _ P1 R1) as N1. destruct (stamped_fx e r p1) as (a & b & SF). rewrite SF in E.
    apply (EN true (set_phy_state PDone (set_tstamp a (set_sc_tstamp b p1))) o1); auto.
    destruct (RF _ _ _ P1 R1) as [c1 c2 c3 c4 c5 c6 c7 c8 c9 c10].
    destruct (wcore_fields _ _ c1) as (w1 & w2 & w3 & w4 & w5 & w6 & w7 & w8 & _).
    apply (ended_idle _ _ _ _ _ _ _ E); simpl; auto; try congruence; try lia.
    + apply cbinv_phy. cbgi c2.
    + rewrite w2. auto.
  - destruct (RC _ _ _ P1 R1) as (A & B & CI & ST). apply (EN false (set_phy_state PErr p1) o1); auto; first [exact (RN _ _ _ P1 R1)|eapply EI; eauto|idtac].
Qed.

Lemma left_out_nil {A} (l : list A) : left_out [] l.
Proof. induction l; constructor; auto. Qed.
Lemma left_out_app2 {A} (a b c d : list A) : left_out a b -> left_out c d -> left_out (a ++ c) (b ++ d).
Proof. induction 1; intros X; simpl; auto; constructor; auto. Qed.
Lemma left_out_refl {A} (l : list A) : left_out l l.
Proof. induction l; constructor; auto. Qed.
Lemma left_out_trans {A} (b c : list A) : left_out b c -> forall a, left_out a b -> left_out a c.
Proof.
  induction 1 as [|x b c H IH|x b c H IH]; intros a X; auto.
  - inversion X; subst; constructor; auto.
  - constructor; auto.
Qed.

Lemma not_mfg_app a b : not_mfg (a ++ b) = not_mfg a ++ not_mfg b.
Proof. apply filter_app. Qed.

(* a call other than a refresh *)
Lemma other_reports c p q o : is_update c = false -> cp_do c p = Ok (q, o) -> flat_map report_of o = [].
Proof.
  intros U D. apply silent_no_report. apply (other_events c p q o U D).
Qed.

Lemma once_runs k n i h p : cp_runs k n i h p -> Forall listens h ->
  left_out (in_time reports h ++ under_way p) (in_time kinds h) /\
  not_mfg (in_time kinds h) = not_mfg (in_time reports h ++ under_way p).
Proof.
  induction 1 as [p T N|h p c q o R IH CT D]; intros L.
  - assert (Z : under_way p = []) by (unfold new_pd in N; destruct (i_scbk i); [|destruct (enforce _); [discriminate|]]; injection N as <-; reflexivity).
    simpl. rewrite Z. split; [constructor|reflexivity].
  - inversion L as [|en t L1 L2]; subst. destruct (IH L2) as (I1 & I2). clear IH. simpl.
    destruct (is_update c) eqn:UC.
    + destruct c as [e| | | | |]; try discriminate. destruct L1 as [L1 L1']. destruct (cp_do_update e p q o D) as (rc & U).
      destruct (upd_balanced e p q rc o (cp_runs_inv _ _ _ _ _ R) (runs_no_notif _ _ _ _ _ R) CT L1 L1' U) as [(A & B)|(A & B & C)].
      * rewrite A, app_nil_r, <- B, app_assoc. split; [apply left_out_app2; auto; apply left_out_refl|rewrite !not_mfg_app in *; congruence].
      * rewrite A, B, !app_nil_r. destruct C as [-> |[-> C]]; [auto|]. rewrite C in I1, I2. rewrite app_nil_r. split.
        -- eapply left_out_trans; eauto. rewrite <- (app_nil_r (in_time reports h)) at 1. apply left_out_app2; [apply left_out_refl|apply left_out_nil].
        -- rewrite not_mfg_app in I2. simpl in I2. rewrite app_nil_r in I2. exact I2.
    + destruct (other_eq c p q o UC D) as [E N].
      destruct (ucore_fields _ _ E) as (u1 & u2 & u3 & u4 & u5 & u6 & u7 & u8 & u9 & u10 & u11 & u12 & u13 & _).
      assert (TK : kinds (mkCe p c o) = []) by (unfold kinds, taken_cmd; destruct c; try discriminate; reflexivity).
      assert (RP : reports (mkCe p c o) = []) by (unfold reports; simpl; rewrite (other_reports c p q o UC D); destruct (own_keyset p); auto).
      rewrite TK, RP, !app_nil_r. rewrite (way_run p q) by (unfold phy_running; rewrite ?u2; auto). auto.
Qed.
