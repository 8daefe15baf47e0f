(** Several devices on one line. *)
From Verif Require Import Base ListLemmas Crc SpecCrc CrcProofs CrcBurst Aes AesProofs Rb RbProofs
  Types Sc ScProofs Phy PhyCheck File Pd Cp PdRun SpecRx SpecFrame SpecSec SpecSession SpecCmd SpecApp SpecPd SpecLink RxProofs RxFwd PdRx PdCore PhyTx PdTx PdReply
  PdStep PdWire PdFwd PdSpeak PdSec PdApp PdTrace PdHist PdHist2 MacProofs WireSec CpCtx SpecCp SpecCpRun CpTx CpRx CpStep CpInv CpEdge CpFacts CpSum CpWire CpFwd Chunk Trip ChunkRun LinkProofs LinkStep CpSend SpecTalk Hand Line Talk Talk2 Talk3 Talk4 Talk5 PdPlain PdRefuse SpecLost Lost Lost2 SpecHand SpecRun Run1 Run2 Run3 SpecBus Bus Keys SpecRun SpecShare.
From Coq Require Import ZifyBool ZifyNat.
Ltac Zify.zify_post_hook ::= Z.div_mod_to_equations.
Local Opaque aes_ecb_encrypt aes_cbc_encrypt aes_cbc_decrypt mac_of RB_SIZE osdp_mac enc1 osdp_encrypt encrypt_data cap_entries.

(* --- what the panel puts on the line --- *)
Lemma on_wire_none o : no_tx o -> on_wire o = [].
Proof. induction o as [|x o IH]; intros N; [reflexivity|]. unfold on_wire in *. cbn [flat_map]. rewrite IH; [|intros b X; apply (N b); right; exact X]. destruct x; try reflexivity. exfalso. eapply N. left. reflexivity. Qed.
Lemma on_wire_app a b : on_wire (a ++ b) = on_wire a ++ on_wire b.
Proof. unfold on_wire. apply flat_map_app. Qed.

Lemma tx_or_not o : no_tx o \/ exists d, In (OTx d) o.
Proof.
  induction o as [|x o IH]; [left; intros b []|]. destruct IH as [N|(d & IN)]; [|right; exists d; right; exact IN].
  destruct x; try (left; intros b [X|X]; [discriminate|exact (N b X)]). right. eexists. left. reflexivity.
Qed.

Lemma panel_sent e p q ok o : cbinv p -> hs_ok p -> fread_typed e -> 256 <= e_tx e -> cmd_sent e p q ok o ->
  no_tx o \/ exists w, on_wire o = 255 :: w /\ zlen w <= 255 /\ bytes w /\ f_shape false w /\ f_intact w /\ nth 1 w 0 = address p mod 128.
Proof.
  intros I HK FR TX S. destruct I as [v1 v2 v3 v4 v5 v6]. destruct S as [(_ & _ & _ & ->) | (TB & p2 & pay & ss & ob & B & RM & TY & CP & CR & NT & S)]; [left; auto with notx|].
  destruct S as [(-> & _ & _ & ->) | (dd & -> & S)]; [left; exact NT|].
  destruct S as (S1 & S2 & S3 & S4 & S5 & S6 & S7 & S8).
  destruct S8 as [(_ & _ & -> & _) | (LE & (ot & -> & SE) & Q)]; [left; exact NT|].
  set (w := wire_of p2 (cmd_body p dd ss)) in *.
  assert (TXB : tx_buf_size p <= 256) by apply tx_buf_le. rewrite zlen_cons in LE.
  destruct SE as [(_ & _ & SE) | [(k & K1 & -> & _ & SE) | (-> & _)]]; [rewrite zlen_cons in SE; lia|rewrite zlen_cons in SE; lia|].
  right. exists w. split; [rewrite on_wire_app, (on_wire_none ob NT); unfold on_wire; cbn [flat_map app]; rewrite app_nil_r; reflexivity|]. split; [lia|].
  assert (KO : sc_keys_ok (sc p2)) by (apply TY).
  destruct (wire_shape p2 (cmd_body p dd ss) KO S1 S2 S4) as (W1 & W2 & W3 & W4 & W5); [intros X; apply S7; auto|fold w; lia|].
  fold w in W1, W2, W3, W4, W5. rewrite S3, cp_addr_mod in W4.
  destruct (cp_ctl_eq p v4) as [C1 C2]. pose proof (seq_next_range (seqn p) v4) as R.
  destruct (f_seq_ctl w (seq_next (seqn p)) R) as [Q1 Q2].
  { rewrite W5. destruct S5 as [-> | ->]; lia. }
  assert (FS : f_reply (cmd_body p dd ss) = false).
  { unfold f_reply. rewrite S3. pose proof (Z.mod_pos_bound (address p) 128). rewrite cp_addr_mod. lia. }
  rewrite FS in W2. split; [exact W1|]. split; [exact W2|]. split; [unfold f_intact; rewrite Q2; exact W3|exact W4].
Qed.

Lemma panel_wire e c q o : cp_reach c -> env_typed e -> 256 <= e_tx e -> cp_do (Update e) c = Ok (q, o) ->
  on_wire o = [] \/ (phy_state c = PSend \/ phy_state c = PWait) /\ exists w, on_wire o = 255 :: w /\ zlen w <= 255 /\ bytes w /\ f_shape false w /\ f_intact w /\ nth 1 w 0 = address c mod 128.
Proof.
  intros RC ET TX D. pose proof (cp_reach_inv c RC) as I. unfold cp_do in D. destruct (state_update e c) as [[[q0 rc] o0]| |] eqn:U; cbn [bind fst snd] in D; try discriminate. injection D as <- <-.
  pose proof (cpi_case e c q0 rc o0 I ET U) as C. assert (I0 := I). destruct I as [i1 i2 i3 i4 i5 i6 i7 i8].
  assert (HK : sending e c -> hs_ok (set_phy_state PSend c)) by (intros S A; apply (hs_of_cmd c I0 (sending_phy e c S) A)).
  assert (CB : cbinv (set_phy_state PSend c)) by (apply cbinv_phy; auto).
  destruct (tx_or_not o0) as [N|(d & IN)]; [left; exact (on_wire_none _ N)|].
  destruct (upd_tx e c q0 rc o0 d I0 ET U IN) as (SD & _ & _).
  destruct C as [ H1 H2 H3 | p1 c0 o P G C0 E | p1 c0 o1 o P G C0 F | p1 o S CS E | p1 o1 o S CS E | P R T | p1 P R T L E | p1 o P R T L E
     | p1 o P R E | p1 r o1 o P R K E | p1 r o1 o P R K E ]; try (destruct IN; fail).
  - exfalso. destruct (get_cmd_fx e c p1 c0 o G i1) as [_ _ _ _ _ _ _ _ _ N]. apply (N _ IN).
  - exfalso. destruct (get_cmd_fx e c p1 c0 o1 G i1) as [_ _ _ _ _ _ _ _ _ N]. destruct (CpWire.finish_out _ _ _ _ _ _ _ _ F) as (o9 & -> & N9).
    apply in_app_or in IN. destruct IN as [IN|IN]; [apply (N _ IN)|apply (N9 _ IN)].
  - destruct (panel_sent e _ _ _ _ CB (HK S) (proj2 (proj2 ET)) TX CS) as [N|X]; [destruct (N d IN)|right; split; [destruct S as [S|[S _]]; auto|exact X]].
  - destruct (cmd_sent_fx e _ _ _ _ CB CS) as [x1 x2 x3 x4 x5].
    destruct (ended_out _ _ _ _ _ _ _ E) as (o9 & -> & N9).
    { apply cbinv_phy; auto. }
    { change (rq_restart p1 = false). rewrite <- i8. change (rq_restart c) with (rq_restart (set_phy_state PSend c)). apply (tcore_fields _ _ x1). }
    rewrite on_wire_app, (on_wire_none o9 N9), app_nil_r.
    destruct (panel_sent e _ _ _ _ CB (HK S) (proj2 (proj2 ET)) TX CS) as [N|X]; [left; exact (on_wire_none _ N)|right; split; [destruct S as [S|[S _]]; auto|exact X]].
  - exfalso. destruct SD as [SD|[SD _]]; congruence.
  - exfalso. destruct SD as [SD|[SD _]]; congruence.
  - exfalso. destruct SD as [SD|[SD _]]; congruence.
  - exfalso. destruct SD as [SD|[SD _]]; congruence.
Qed.

(* --- what a device puts on the line --- *)
Lemma device_wire e p q o : env_ok e -> pd_inv p -> 256 <= e_tx e -> pd_refresh e p = Ok (q, o) ->
  on_wire o = [] \/ exists mk w, on_wire o = mk ++ w /\ (mk = [] \/ mk = [255]) /\ bytes w /\ f_shape true w.
Proof.
  intros K I TX H. destruct (refresh_shape e p q o K I H) as [N|(f & rest & pr & oc & o2 & A & S & Bf & V & M & AN & RP & -> & NT)]; [left; exact (on_wire_none _ N)|].
  rewrite on_wire_app, (on_wire_none oc NT). cbn [app]. destruct AN as (Ib & _).
  destruct (reply_phase_cases e pr q o2 K Ib RP) as (q1 & ok & RS & _).
  assert (OK : ok = true \/ no_tx o2).
  { destruct RS as [(_ & _ & _ & ->)|(_ & p2 & pay & ss & m & smb & ob & ot & _ & _ & _ & _ & NB & _ & _ & -> & S0)]; [right; auto with notx|].
    cbv zeta in S0. pose proof (tx_buf_le pr). destruct S0 as [(-> & _ & _)|(L & S0 & _)]; [right; rewrite app_nil_r; exact NB|].
    destruct S0 as [(_ & _ & X)|[(k & _ & _ & _ & X)|(_ & X)]]; [lia|lia|left; exact X]. }
  destruct OK as [->|N]; [|left; exact (on_wire_none _ N)].
  destruct (reply_sent_frame e pr q1 true o2 K Ib RS) as (ob & ot & -> & NB & [->|(w & F & k & -> & Hk & -> & KF & Bw & Sw & _)]).
  - left. rewrite app_nil_r. exact (on_wire_none _ NB).
  - right. rewrite (KF eq_refl). unfold zlen. rewrite Nat2Z.id, firstn_all. exists (mk_of pr), w. split; [|split; [unfold mk_of; destruct (has_mark (fl pr)); auto|split; assumption]].
    rewrite on_wire_app, (on_wire_none ob NB). unfold on_wire. cbn [flat_map app]. apply app_nil_r.
Qed.

(* --- benign for the others --- *)
Lemma benign_app a x y : benign a x -> benign a y -> benign a (x ++ y).
Proof.
  intros H B. induction H as [|b s N H IH|f s Sh L Bf V A1 A2 H IH|f s Sh Bf N H IH]; [exact B|cbn [app]; apply bn_stray; assumption|rewrite <- app_assoc; apply bn_command; assumption|rewrite <- app_assoc; apply bn_reply; assumption].
Qed.
Lemma panel_benign a w : zlen w <= 255 -> bytes w -> f_shape false w -> f_intact w -> f_addr w <> a -> f_addr w <> 127 -> benign a (255 :: w).
Proof. intros L B Sh V A1 A2. apply bn_stray; [discriminate|]. rewrite <- (app_nil_r w). apply bn_command; try assumption. apply bn_nil. Qed.
Lemma device_benign a mk w : mk = [] \/ mk = [255] -> bytes w -> f_shape true w -> one_start (mk ++ w) -> benign a (mk ++ w).
Proof.
  intros M B Sh O. assert (R : benign a w).
  { rewrite <- (app_nil_r w). apply bn_reply; [exact Sh|exact B| |apply bn_nil]. destruct (shape_som _ _ Sh) as (t & ->). cbn [tl]. apply (O mk t). reflexivity. }
  destruct M as [->| ->]; [exact R|]. apply bn_stray; [discriminate|exact R].
Qed.

(* --- one station --- *)
Definition base (s : station) (p0 : pd) : net := mkNet (n_c (st_net s)) p0 (n_at (st_net s)) (to_p (st_net s)) (to_c (st_net s)).
Record kept (s : station) (p0 : pd) (fc : list cmd) (fe : list event) : Prop := {
  kp_un : undisturbed p0 (n_p (st_net s));
  kp_reach : pd_reach (n_p (st_net s));
  kp_steady : steady (n_c (st_net s)) p0;
  kp_phase : phase (base s p0) fc fe;
  kp_ear : benign (address p0) (pending (n_p (st_net s)) ++ st_ear s);
  kp_busy : silent s \/ p0 = n_p (st_net s) /\ caught_up s
}.
Lemma idle_phase s fc fe : phy_state (n_c s) = PIdle -> phase s fc fe -> ph0 s /\ fc = [] /\ fe = [].
Proof. intros X P. inversion P as [H|j H|j H|r H]; subst; [auto|..]; destruct H as [H _]; rewrite X in H; discriminate. Qed.

Lemma silent_phase s fc fe : phy_state (n_c s) = PIdle \/ phy_state (n_c s) = PSend -> phase s fc fe -> fe = [] /\ (ph0 s /\ fc = [] \/ exists j, ph1 j s /\ fc = job_list j).
Proof. intros X P. inversion P as [H|j H|j H|r H]; subst; [split; auto|split; [reflexivity|right; exists j; auto]|..]; destruct H as [H _]; rewrite H in X; destruct X; discriminate. Qed.
Lemma phase_silent s fc fe : phase s fc fe -> ph0 s \/ (exists j, ph1 j s) -> phy_state (n_c s) = PIdle \/ phy_state (n_c s) = PSend.
Proof. intros _ [H|[j H]]; [left|right]; apply H. Qed.

Lemma steady_un c p q : undisturbed p q -> pd_reach q -> quiet q -> steady c p -> steady c q.
Proof.
  intros U R Q SD. destruct (undisturbed_view p q U) as ((v1 & v2 & v3 & v4 & v5) & (v6 & v7 & v8 & v9) & (w1 & w2 & w3 & w4 & w5 & w6 & w7)).
  apply (steady_p c p q SD R); [constructor; assumption|exact Q|]. rewrite v6. apply SD.
Qed.
Lemma settle s p0 fc fe : kept s p0 fc fe -> caught_up s -> steady (n_c (st_net s)) (n_p (st_net s)) /\ phase (st_net s) fc fe.
Proof.
  intros [U R SD PH B K] CU. destruct s as [[c p t wp wc] ear]. unfold base in *. cbn [st_net st_ear n_c n_p n_at to_p to_c] in *.
  destruct K as [K|[-> _]]; [|split; assumption]. split; [exact (steady_un c p0 p U R (drained_quiet p R (proj2 CU)) SD)|].
  destruct (silent_phase (mkNet c p0 t wp wc) fc fe K PH) as (-> & [((X & LN & T1 & T2) & ->)|(j & (X & LN & X1 & X2 & X3 & T1 & T2) & ->)]); cbn [n_c n_p to_p to_c] in *.
  - apply ph_0. split; [exact X|]. split; [exact (undisturbed_line c p0 p U LN)|]. split; assumption.
  - apply ph_1. split; [exact X|]. split; [exact (undisturbed_line c p0 p U LN)|]. split; [exact X1|]. split; [exact X2|]. split; [|split; assumption]. cbn [n_p].
    destruct (undisturbed_view p0 p U) as ((_ & _ & _ & v4 & _) & _). unfold job_ok, good_cmd in *. destruct j; [rewrite v4|]; exact X3.
Qed.
Lemma quiet_pending p : quiet p -> pending p = [].
Proof. intros (a & _ & b & _). unfold pending. rewrite a, b. reflexivity. Qed.

(* what was accounted for *)
Definition balance (s s' : station) (fc : list cmd) (fe : list event) (fc' : list cmd) (fe' : list event) (l : list action) (o : list out) : Prop :=
  app_calls o ++ fc' ++ map upto (cmdq (n_c (st_net s'))) = fc ++ map upto (cmdq (n_c (st_net s)) ++ cmds_of l) /\
  told_events o ++ fe' ++ map upto_ev (evq (n_p (st_net s'))) = fe ++ map upto_ev (evq (n_p (st_net s)) ++ events_of l) /\
  sc_active (fl (n_c (st_net s'))) = sc_active (fl (n_c (st_net s))).

Lemma comset_kept e p q o : pd_reach p -> call_typed (Refresh e) -> pd_refresh e p = Ok (q, o) -> (forall a b, ~ In (OCmd (CComset a b)) o) -> address q = address p.
Proof.
  intros (i & n & h & RR) T H N. destruct (com_step e p q o (com_runs i n h p RR) (PdHist.run_step e i n h p q o RR T H)) as (_ & [[X _]|(S & d & a & b & f & rest & C & B & A1 & A2 & _)]); [exact X|].
  exfalso. destruct C as (_ & L & L1 & L2 & CB & IN). exact (N _ _ IN).
Qed.
Lemma in_calls k o : In (OCmd k) o -> In k (app_calls o).
Proof. intros H. unfold app_calls. apply in_flat_map. exists (OCmd k). split; [exact H|left; reflexivity]. Qed.
Lemma phase_plain s fc fe : steady (n_c s) (n_p s) -> phase s fc fe -> forall a b, ~ In (CComset a b) fc.
Proof.
  intros SD P a b H. inversion P as [X|j X|j X|r X]; subst; try (destruct H; fail).
  - destruct X as (_ & _ & _ & _ & JO & _). destruct j as [k|]; [|destruct H]. destruct H as [H|[]]. destruct JO as (PC & _). destruct k; cbn [plain_cmd] in PC; try contradiction; discriminate.
  - destruct X as (_ & _ & JO & _). destruct j as [k|]; [|destruct H]. destruct H as [H|[]]. destruct JO as (PC & _). destruct k; cbn [plain_cmd] in PC; try contradiction; discriminate.
Qed.

(* station i acts; w is what the others hear *)
Lemma st_update0 s p0 fc fe e n o : kept s p0 fc fe -> caught_up s -> allowed (st_net s) (AUpdate e) -> act (AUpdate e) (st_net s) = Ok (n, o) ->
  let s' := mkStation n (st_ear s) in
  exists fc' fe', kept s' (n_p n) fc' fe' /\ n_p n = n_p (st_net s) /\ balance s s' fc fe fc' fe' [AUpdate e] o /\
    forall a, a <> address (n_p (st_net s)) -> benign a (on_wire o).
Proof.
  intros KP CU AL AC s'. subst s'. destruct (settle s p0 fc fe KP CU) as [SD PH].
  destruct (run_step (AUpdate e) (st_net s) fc fe SD PH AL) as (t2 & o2 & fc2 & fe2 & [AC2 _] & S2 & P2 & C2 & E2 & A2). rewrite AC in AC2. injection AC2 as <- <-.
  pose proof (act_panel e (st_net s) n o AC) as NP. exists fc2, fe2. split; [|split; [exact NP|split; [split; [exact C2|split; [exact E2|exact A2]]|]]].
  - constructor; cbn [st_net st_ear].
    + apply undisturbed_refl.
    + apply S2.
    + exact S2.
    + unfold base. cbn [st_net]. destruct n. exact P2.
    + destruct CU as [-> CU]. rewrite NP, CU. apply bn_nil.
    + right. split; [reflexivity|]. destruct CU as [E0 CU]. split; [exact E0|]. cbn [st_net]. rewrite NP. exact CU.
  - intros a NA. cbn [act] in AC. destruct (cp_do (Update e) (n_c (st_net s))) as [[q o1]| |] eqn:D; cbn [bind fst snd] in AC; try discriminate. injection AC as _ <-.
    destruct AL as (_ & TX & AL). assert (ET : env_typed e) by (destruct AL as [[_ H]|[N _]]; [apply H|apply N]).
    destruct (panel_wire e _ q o1 (proj1 (sd_reach _ _ SD)) ET TX D) as [->|(SND & w & -> & L & B & Sh & V & AD)]; [apply bn_nil|].
    assert (LN : line (n_c (st_net s)) (n_p (st_net s))).
    { inversion PH as [H|j H|j H|r H]; subst; [apply H|apply H|..]; destruct H as [H _]; destruct SND as [X|X]; rewrite X in H; discriminate. }
    destruct LN as [[_ _ _ [A1 A3] _] _].
    assert (FA : f_addr w = address (n_p (st_net s))) by (unfold f_addr; rewrite AD; rewrite A1; rewrite !Z.mod_small by (try apply Z.mod_pos_bound; lia); reflexivity).
    apply panel_benign; try assumption; rewrite FA; [intros X; apply NA; symmetry; exact X|lia].
Qed.

(* the panel prepares something, whatever the device is busy with *)
Lemma st_update1 s p0 fc fe e n o : kept s p0 fc fe -> idle s -> allowed (st_net s) (AUpdate e) -> act (AUpdate e) (st_net s) = Ok (n, o) ->
  let s' := mkStation n (st_ear s) in
  exists fc' fe', kept s' p0 fc' fe' /\ n_p n = n_p (st_net s) /\ balance s s' fc fe fc' fe' [AUpdate e] o /\ on_wire o = [].
Proof.
  intros [U R SD PH B K] ID AL AC s'. subst s'. destruct (undisturbed_view _ _ U) as (_ & (v6 & _) & _).
  destruct (run_step (AUpdate e) (base s p0) fc fe SD PH AL) as (t2 & o2 & fc2 & fe2 & [AC2 _] & S2 & P2 & C2 & E2 & A2).
  assert (TN : to_p (st_net s) = [] /\ to_c (st_net s) = []) by (destruct (idle_phase (base s p0) fc fe ID PH) as [H _]; apply H).
  cbn [act base n_p n_c n_at to_p to_c] in AC, AC2. destruct (cp_do (Update e) (n_c (st_net s))) as [[q o1]| |] eqn:D; cbn [bind fst snd] in AC, AC2; try discriminate. injection AC as <- <-. injection AC2 as <- <-. cbn [n_c n_p] in *.
  assert (W : on_wire o1 = []).
  { destruct AL as (_ & TX & AL). assert (ET : env_typed e) by (destruct AL as [[_ H]|[N _]]; [apply H|apply N]).
    destruct (panel_wire e _ q o1 (proj1 (sd_reach _ _ SD)) ET TX D) as [W|(SND & _)]; [exact W|]. unfold idle in ID. destruct SND as [X|X]; rewrite X in ID; discriminate. }
  exists fc2, fe2. split; [|split; [reflexivity|split; [|exact W]]].
  - constructor; cbn [st_net st_ear n_p n_c]; try assumption.
    left. unfold silent. cbn [st_net n_c]. destruct TN as [T1 T2].
    assert (LO : left_over e (to_c (st_net s)) = []) by (rewrite T2; unfold left_over; destruct (heard (e_rx e)); reflexivity).
    inversion P2 as [H|j H|j H|r H]; subst; [left; apply H|right; apply H|exfalso..].
    + destruct H as (_ & _ & _ & H & _). cbn [to_p] in H. rewrite T1, W in H. apply H. reflexivity.
    + destruct H as (_ & _ & _ & _ & H & _). cbn [to_c] in H. apply H. exact LO.
  - split; [exact C2|]. split; [|exact A2]. cbn [st_net n_p]. rewrite v6. exact E2.
Qed.
Lemma st_update s p0 fc fe e n o : kept s p0 fc fe -> caught_up s \/ idle s -> allowed (st_net s) (AUpdate e) -> act (AUpdate e) (st_net s) = Ok (n, o) ->
  let s' := mkStation n (st_ear s) in
  exists p1 fc' fe', kept s' p1 fc' fe' /\ n_p n = n_p (st_net s) /\ balance s s' fc fe fc' fe' [AUpdate e] o /\
    forall a, a <> address (n_p (st_net s)) -> benign a (on_wire o).
Proof.
  intros KP [CU|ID] AL AC.
  - destruct (st_update0 s p0 fc fe e n o KP CU AL AC) as (fc' & fe' & H). exists (n_p n), fc', fe'. exact H.
  - destruct (st_update1 s p0 fc fe e n o KP ID AL AC) as (fc' & fe' & H1 & H2 & H3 & W). exists p0, fc', fe'. split; [exact H1|]. split; [exact H2|]. split; [exact H3|]. intros a _. rewrite W. apply bn_nil.
Qed.

Lemma st_refresh s p0 fc fe e n o : kept s p0 fc fe -> caught_up s -> allowed (st_net s) (ARefresh e) -> act (ARefresh e) (st_net s) = Ok (n, o) ->
  let s' := mkStation n (st_ear s) in
  exists fc' fe', kept s' (n_p n) fc' fe' /\ n_c n = n_c (st_net s) /\ address (n_p n) = address (n_p (st_net s)) /\ balance s s' fc fe fc' fe' [ARefresh e] o /\
    (silent s -> on_wire o = []) /\ (one_start (on_wire o) -> forall a, benign a (on_wire o)).
Proof.
  intros KP CU AL AC s'. subst s'. destruct (settle s p0 fc fe KP CU) as [SD PH].
  destruct (run_step (ARefresh e) (st_net s) fc fe SD PH AL) as (t2 & o2 & fc2 & fe2 & [AC2 _] & S2 & P2 & C2 & E2 & A2). rewrite AC in AC2. injection AC2 as <- <-.
  pose proof (act_device e (st_net s) n o AC) as NC.
  assert (D : pd_refresh e (n_p (st_net s)) = Ok (n_p n, o)).
  { cbn [act] in AC. unfold pd_do in AC. destruct (pd_refresh e (n_p (st_net s))) as [[q o1]| |] eqn:D; cbn [bind fst snd] in AC; try discriminate. injection AC as <- <-. reflexivity. }
  destruct AL as (IS & CB & AL). assert (CT : call_typed (Refresh e)) by (destruct AL as [[_ H]|[H _]]; [apply H|exact H]).
  pose proof (proj2 (sd_reach _ _ SD)) as RP.
  assert (SIL : heard (e_rx e) = [] -> on_wire o = []).
  { intros H. rewrite (dev_none e _ (proj2 (sd_quiet _ _ SD)) IS H) in D. injection D as _ <-. reflexivity. }
  exists fc2, fe2. split; [|split; [exact NC|split; [|split; [split; [exact C2|split; [exact E2|exact A2]]|split]]]].
  - constructor; cbn [st_net st_ear].
    + apply undisturbed_refl.
    + apply S2.
    + exact S2.
    + unfold base. cbn [st_net]. destruct n. exact P2.
    + destruct CU as [-> CU]. rewrite (quiet_pending _ (proj2 (sd_quiet _ _ S2))). apply bn_nil.
    + right. split; [reflexivity|]. split; [apply CU|]. exact (quiet_pending _ (proj2 (sd_quiet _ _ S2))).
  - apply (comset_kept e _ _ o RP CT D). intros a b IN. apply in_calls in IN.
    assert (IF : In (CComset a b) fc).
    { cbn [cmds_of flat_map] in C2. rewrite app_nil_r, NC, app_assoc in C2. apply app_inv_tail in C2. rewrite <- C2. apply in_or_app. left. exact IN. }
    exact (phase_plain _ _ _ SD PH a b IF).
  - intros ID. assert (TP : to_p (st_net s) = []) by (destruct (silent_phase _ _ _ ID PH) as (_ & [(H & _)|(j & H & _)]); apply H). destruct AL as [[X _]|[_ H]]; [contradiction|exact (SIL H)].
  - intros OS a. destruct AL as [[X H]|[_ H]]; [|rewrite (SIL H); apply bn_nil].
    destruct H as (_ & _ & _ & TX & _). destruct (device_wire e _ _ o (PdRun.env_typed e CT) (reach_inv _ RP) TX D) as [->|(mk & w & W & M & B & Sh)]; [apply bn_nil|].
    rewrite W in *. apply device_benign; assumption.
Qed.

Lemma st_notify s p0 fc fe ev n o : kept s p0 fc fe -> allowed (st_net s) (ANotify ev) -> act (ANotify ev) (st_net s) = Ok (n, o) ->
  let s' := mkStation n (st_ear s) in
  exists p1 fc' fe', kept s' p1 fc' fe' /\ n_c n = n_c (st_net s) /\ address (n_p n) = address (n_p (st_net s)) /\ balance s s' fc fe fc' fe' [ANotify ev] o /\ on_wire o = [].
Proof.
  intros [U R SD PH B K] (BA & GE & OK) AC s'. subst s'. cbn [act] in AC. unfold pd_do in AC. cbn [bind fst snd] in AC. injection AC as <- <-.
  unfold pd_notify_event in *. destruct (undisturbed_view _ _ U) as ((v1 & v2 & v3 & v4 & v5) & (v6 & v7 & v8 & v9) & _).
  assert (VP : pool (n_p (st_net s)) = pool p0) by (destruct U as (x1 & x2 & x3 & x4 & x5 & x6 & x7 & ->); reflexivity).
  destruct (zlen (evq (n_p (st_net s))) <? pool (n_p (st_net s))) eqn:FUL; [|discriminate]. cbn [fst snd] in *.
  assert (AL0 : allowed (base s p0) (ANotify ev)).
  { cbn [allowed base n_c n_p]. split; [exact BA|]. split; [|unfold pd_notify_event; rewrite <- v6, <- VP, FUL; reflexivity].
    destruct GE as (G1 & G2 & pay & G3 & G4). split; [exact G1|]. split; [exact G2|]. exists pay. rewrite <- v4. split; [exact G3|]. unfold tx_buf_size in *. rewrite <- v5. exact G4. }
  destruct (run_step (ANotify ev) (base s p0) fc fe SD PH AL0) as (t2 & o2 & fc2 & fe2 & [AC2 _] & S2 & P2 & C2 & E2 & A2).
  cbn [act base n_p n_c n_at to_p to_c] in AC2. unfold pd_do, pd_notify_event in AC2. rewrite <- v6, <- VP, FUL in AC2. cbn [bind fst snd] in AC2. injection AC2 as <- <-. cbn [n_c n_p] in *.
  exists (set_evq (evq (n_p (st_net s)) ++ [ev]) p0), fc2, fe2.
  split; [|split; [reflexivity|split; [reflexivity|split; [|reflexivity]]]].
  - constructor; cbn [st_net st_ear n_p n_c].
    + destruct U as (x1 & x2 & x3 & x4 & x5 & x6 & x7 & ->). exists x1, x2, x3, x4, x5, x6, x7. destruct p0; reflexivity.
    + apply (pd_reach_by (n_p (st_net s)) (Notify ev) _ [] R BA). unfold pd_do, pd_notify_event. rewrite FUL. reflexivity.
    + exact S2.
    + exact P2.
    + exact B.
    + destruct K as [K|[K1 K2]]; [left; exact K|right]. split; [rewrite K1; reflexivity|exact K2].
  - split; [exact C2|]. split; [|exact A2]. rewrite v6 in *. exact E2.
Qed.

Lemma st_send s p0 fc fe e k n o : kept s p0 fc fe -> allowed (st_net s) (ASend e k) -> act (ASend e k) (st_net s) = Ok (n, o) ->
  let s' := mkStation n (st_ear s) in
  exists fc' fe', kept s' p0 fc' fe' /\ phy_state (n_c n) = phy_state (n_c (st_net s)) /\ n_p n = n_p (st_net s) /\ balance s s' fc fe fc' fe' [ASend e k] o /\ on_wire o = [].
Proof.
  intros [U R SD PH B K] (ET & GC & OK) AC s'. subst s'. cbn [act] in AC.
  assert (D : cp_do (Send e k) (n_c (st_net s)) = Ok (set_cmdq (cmdq (n_c (st_net s)) ++ [k]) (n_c (st_net s)), [])).
  { unfold cp_do. unfold cp_send_command in *. rewrite (sd_on _ _ SD) in *. cbn [st_eqb negb] in *. destruct GC as (PC & _).
    destruct k; cbn [plain_cmd] in PC; try contradiction; destruct (zlen (cmdq (n_c (st_net s))) <? pool (n_c (st_net s))); try discriminate; reflexivity. }
  rewrite D in AC. cbn [bind fst snd] in AC. injection AC as <- <-.
  destruct (undisturbed_view _ _ U) as ((v1 & v2 & v3 & v4 & v5) & (v6 & v7 & v8 & v9) & _).
  assert (AL0 : allowed (base s p0) (ASend e k)).
  { cbn [allowed base n_c n_p]. split; [exact ET|]. split; [|exact OK]. destruct GC as (G1 & G2 & G3). split; [exact G1|]. split; [exact G2|]. rewrite <- v4. exact G3. }
  destruct (run_step (ASend e k) (base s p0) fc fe SD PH AL0) as (t2 & o2 & fc2 & fe2 & [AC2 _] & S2 & P2 & C2 & E2 & A2).
  cbn [act base n_p n_c n_at to_p to_c] in AC2. rewrite D in AC2. cbn [bind fst snd] in AC2. injection AC2 as <- <-. cbn [n_c n_p] in *.
  exists fc2, fe2. split; [|split; [reflexivity|split; [reflexivity|split; [|reflexivity]]]].
  - constructor; cbn [st_net st_ear n_p n_c]; assumption.
  - split; [exact C2|]. split; [|exact A2]. cbn [st_net n_p]. rewrite v6. exact E2.
Qed.

Lemma st_listen s p0 fc fe e rest q o : kept s p0 fc fe -> silent s -> in_time e (n_p (st_net s)) -> st_ear s = heard (e_rx e) ++ rest -> pd_do (Refresh e) (n_p (st_net s)) = Ok (q, o) ->
  let n := st_net s in let s' := mkStation (mkNet (n_c n) q (n_at n) (to_p n) (to_c n ++ on_wire o)) rest in
  kept s' p0 fc fe /\ address q = address (n_p n) /\ balance s s' fc fe fc fe [] o /\ o = [].
Proof.
  intros [U R SD PH B K] ID IT EAR D n s'. subst s' n. destruct (undisturbed_view _ _ U) as ((v1 & v2 & v3 & v4 & v5) & (v6 & v7 & v8 & v9) & _).
  rewrite EAR, <- v1 in B. destruct (bus_step e _ rest R IT B) as (q' & D' & U' & B' & _). rewrite D in D'. injection D' as -> ->.
  destruct (undisturbed_view _ _ U') as ((v1' & _) & (v6' & _) & _).
  split; [|split; [exact v1'|split; [|reflexivity]]].
  - constructor; cbn [st_net st_ear n_p n_c].
    + exact (undisturbed_trans _ _ _ U U').
    + exact (reach_step _ e _ _ R (it_env _ _ IT) D).
    + exact SD.
    + unfold base in *. cbn [st_net n_c n_at to_p to_c on_wire flat_map]. rewrite app_nil_r. exact PH.
    + rewrite <- v1. exact B'.
    + left. exact ID.
  - split; [|split; [|reflexivity]]; cbn [st_net n_c n_p app_calls told_events flat_map app cmds_of events_of]; rewrite app_nil_r; [reflexivity|]. rewrite v6'. reflexivity.
Qed.
