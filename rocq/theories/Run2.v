(** Panel and device at work: the invariant and the steps. *)
From Verif Require Import Base ListLemmas Crc SpecCrc CrcProofs CrcBurst Aes AesProofs Rb RbProofs
  Types Sc ScProofs Phy PhyCheck File Pd Cp PdRun SpecRx SpecFrame SpecSec SpecSession SpecCmd SpecApp SpecPd SpecLink RxProofs RxFwd PdRx PdCore PhyTx PdTx PdReply
  PdStep PdWire PdFwd PdSec PdApp PdTrace PdHist2 MacProofs WireSec CpCtx SpecCp SpecCpRun CpTx CpRx CpStep CpInv CpEdge CpFacts CpSum CpFwd Chunk Trip ChunkRun LinkProofs LinkStep CpSend SpecTalk Hand Line Talk Talk2 Talk3 Talk4 Talk5 PdPlain PdRefuse SpecLost Lost Lost2 SpecHand SpecRun Run1.
From Coq Require Import ZifyBool ZifyNat.
Ltac Zify.zify_post_hook ::= Z.div_mod_to_equations.
Local Opaque aes_ecb_encrypt aes_cbc_encrypt aes_cbc_decrypt mac_of RB_SIZE osdp_mac enc1 osdp_encrypt encrypt_data cap_entries.

Record steady (c p : pd) : Prop := {
  sd_reach : cp_reach c /\ pd_reach p;
  sd_on : state c = SOnline;
  sd_off : rq_offline c = false;
  sd_rev : rq_event c = false;
  sd_file : no_transfer c;
  sd_sec : sc_active (fl c) = true \/ sc_is_capable c = false;
  sd_adm : enforce (fl p) = false \/ sc_active (fl c) = true;
  sd_size : 95 <= tx_buf_size c /\ 69 <= tx_buf_size p;
  sd_app : has_cb p = true;
  sd_quiet : quiet c /\ quiet p;
  sd_cmds : Forall (good_cmd p) (cmdq c);
  sd_evs : Forall (good_event (sc_active (fl c)) c p) (evq p)
}.
Record same_c (c q : pd) : Prop := {
  sm_state : state q = state c;
  sm_off : rq_offline q = rq_offline c;
  sm_ev : rq_event q = rq_event c;
  sm_file : file q = file c;
  sm_act : sc_active (fl q) = sc_active (fl c);
  sm_cap : sc_is_capable q = sc_is_capable c;
  sm_peer : peer_rx q = peer_rx c;
  sm_caps : caps q = caps c
}.
Record same_p (p q : pd) : Prop := {
  sp_enf : enforce (fl q) = enforce (fl p);
  sp_peer : peer_rx q = peer_rx p;
  sp_caps : caps q = caps p;
  sp_cb : has_cb q = has_cb p
}.
Lemma same_c_refl c : same_c c c.
Proof. split; reflexivity. Qed.
Lemma same_c_trans a b c : same_c a b -> same_c b c -> same_c a c.
Proof. intros [] []. split; congruence. Qed.
Lemma req_same_c c q : reqcore q = reqcore c -> sc_active (fl q) = sc_active (fl c) -> same_c c q.
Proof.
  intros R A.
  assert (X : sc_capable (fl q) = sc_capable (fl c)) by exact (f_equal (fun x => sc_capable (fl x)) R).
  assert (Y : sc_disabled (fl q) = sc_disabled (fl c)) by exact (f_equal (fun x => sc_disabled (fl x)) R).
  split.
  - exact (f_equal (fun x => state x) R).
  - exact (f_equal (fun x => rq_offline x) R).
  - exact (f_equal (fun x => rq_event x) R).
  - exact (f_equal (fun x => file x) R).
  - exact A.
  - unfold sc_is_capable. rewrite X, Y. reflexivity.
  - exact (f_equal (fun x => peer_rx x) R).
  - exact (f_equal (fun x => caps x) R).
Qed.
Lemma link_same_c c q : linkcore q = linkcore c -> sc_active (fl q) = sc_active (fl c) -> same_c c q.
Proof. intros R. apply req_same_c, link_req, R. Qed.
Lemma tx_same_c c q : peer_rx q = peer_rx c -> tx_buf_size q = tx_buf_size c.
Proof. intros H. unfold tx_buf_size. rewrite H. reflexivity. Qed.
Lemma steady_c c p q : steady c p -> cp_reach q -> same_c c q -> quiet q -> Forall (good_cmd p) (cmdq q) -> steady q p.
Proof.
  intros [] R [] Q C. split; try assumption; try congruence.
  - split; [exact R|apply sd_reach0].
  - unfold no_transfer in *. rewrite sm_file0. assumption.
  - rewrite (tx_same_c c q sm_peer0). assumption.
  - split; [exact Q|apply sd_quiet0].
  - rewrite sm_act0. revert sd_evs0. apply Forall_impl. intros ev. unfold good_event. rewrite sm_caps0. auto.
Qed.
Lemma steady_p c p q : steady c p -> pd_reach q -> same_p p q -> quiet q -> Forall (good_event (sc_active (fl c)) c p) (evq q) -> steady c q.
Proof.
  intros [] R [] Q C. split; try assumption.
  - split; [apply sd_reach0|exact R].
  - rewrite sp_enf0. assumption.
  - rewrite (tx_same_c p q sp_peer0). assumption.
  - congruence.
  - split; [apply sd_quiet0|exact Q].
  - revert sd_cmds0. apply Forall_impl. intros k. unfold good_cmd. rewrite sp_caps0. auto.
  - revert C. apply Forall_impl. intros ev. unfold good_event. rewrite sp_caps0, (tx_same_c p q sp_peer0). auto.
Qed.
Lemma cp_reach_by c k q o : cp_reach c -> cp_call_typed k -> cp_do k c = Ok (q, o) -> cp_reach q.
Proof. intros (a & n & i & h & R) T D. exists a, n, i, (mkCe c k o :: h). econstructor; eassumption. Qed.
Lemma pd_reach_by p k q o : pd_reach p -> call_typed k -> pd_do k p = Ok (q, o) -> pd_reach q.
Proof. intros (i & n & h & R) T D. exists i, n, (mkEntry p k o :: h). econstructor; eassumption. Qed.

(* --- phases of an exchange --- *)
Definition job_wire (j : option cmd) : list Z := match j with None => [96] | Some k => cmd_wire k end.
Definition job_code (j : option cmd) : Z := match j with None => 96 | Some k => cmd_code k end.
Definition job_ok (p : pd) (j : option cmd) : Prop := match j with Some k => good_cmd p k | None => True end.
Definition job_eph (c : pd) (j : option cmd) : Prop := match j with Some k => eph c = EphCmd k | None => True end.
Definition job_list (j : option cmd) : list cmd := match j with Some k => [upto k] | None => [] end.
Definition rep_list (r : option event) : list event := match r with Some ev => [upto_ev ev] | None => [] end.
Definition rep_pay (r : option event) (cs caps0 : list capent) (pay : list Z) : Prop :=
  match r with None => pay = [64] | Some ev => event_payload caps0 ev = Some pay /\ ev_in_range ev /\ items_known cs ev end.

Definition ph0 (s : net) : Prop := phy_state (n_c s) = PIdle /\ line (n_c s) (n_p s) /\ to_p s = [] /\ to_c s = [].
Definition ph1 (j : option cmd) (s : net) : Prop :=
  phy_state (n_c s) = PSend /\ line (n_c s) (n_p s) /\ cmd_id (n_c s) = job_code j /\ job_eph (n_c s) j /\ job_ok (n_p s) j /\ to_p s = [] /\ to_c s = [].
Definition asks (c p : pd) (d w : list Z) : Prop :=
  forall p', same_link p p' -> quiet p' -> forall h, hears h w ->
  exists p1, takes p' [] h d p1 /\ line_reply c p1 /\ linkcore p1 = linkcore p' /\ rx_base p1 /\ rb_contents (rb p1) = [] /\ sc_active (fl p1) = sc_active (fl p').
Definition answers (c p : pd) (pay w : list Z) : Prop :=
  forall c', same_link c c' -> quiet c' -> forall h, hears h w ->
  exists c1, takes c' [] h pay c1 /\ linkcore c1 = linkcore c' /\ rx_base c1 /\ rb_contents (rb c1) = [] /\ line (state_reset false c1) p /\ sc_active (fl c1) = sc_active (fl c').
Definition ph2 (j : option cmd) (s : net) : Prop :=
  phy_state (n_c s) = PReplyWait /\ cmd_id (n_c s) = job_code j /\ job_ok (n_p s) j /\ to_p s <> [] /\ to_c s = [] /\ phy_tstamp (n_c s) = n_at s /\ asks (n_c s) (n_p s) (job_wire j) (to_p s).
Definition ph3 (r : option event) (s : net) : Prop :=
  phy_state (n_c s) = PReplyWait /\ cmd_id (n_c s) <> 117 /\ (r <> None -> cmd_id (n_c s) = 96) /\ to_p s = [] /\ to_c s <> [] /\ phy_tstamp (n_c s) = n_at s /\
  exists pay caps0, rep_pay r (caps (n_c s)) caps0 pay /\ answers (n_c s) (n_p s) pay (to_c s).
Inductive phase (s : net) : list cmd -> list event -> Prop :=
| ph_0 : ph0 s -> phase s [] []
| ph_1 j : ph1 j s -> phase s (job_list j) []
| ph_2 j : ph2 j s -> phase s (job_list j) []
| ph_3 r : ph3 r s -> phase s [] (rep_list r).

(* the panel executes no commands, the device reports no events *)
Definition own (a : action) (o : list out) : Prop := match a with AUpdate _ => app_calls o = [] | ARefresh _ => told_events o = [] | _ => True end.
Definition stepped_to (PH : net -> list cmd -> list event -> Prop) (s : net) (fc : list cmd) (fe : list event) (a : action) : Prop :=
  exists s' o fc' fe', (act a s = Ok (s', o) /\ own a o) /\ steady (n_c s') (n_p s') /\ PH s' fc' fe' /\
    app_calls o ++ fc' ++ map upto (cmdq (n_c s')) = fc ++ map upto (cmdq (n_c s) ++ cmds_of [a]) /\
    told_events o ++ fe' ++ map upto_ev (evq (n_p s')) = fe ++ map upto_ev (evq (n_p s) ++ events_of [a]) /\
    sc_active (fl (n_c s')) = sc_active (fl (n_c s)).
Definition stepped := stepped_to phase.
Lemma stepped_weak (P Q : net -> list cmd -> list event -> Prop) s fc fe a : (forall s' fc' fe', P s' fc' fe' -> Q s' fc' fe') -> stepped_to P s fc fe a -> stepped_to Q s fc fe a.
Proof. intros H (s' & o & fc' & fe' & x1 & x2 & x3 & x4). exists s', o, fc', fe'. exact (conj x1 (conj x2 (conj (H _ _ _ x3) x4))). Qed.

(* where the steps of an exchange lead *)
Definition to1 (s : net) (s' : net) (fc : list cmd) (fe : list event) : Prop := exists j, ph1 j s' /\ fc = job_list j /\ fe = [] /\ (cmdq (n_c s) = [] <-> j = None).
Definition to2 (j : option cmd) (s' : net) (fc : list cmd) (fe : list event) : Prop := ph2 j s' /\ fc = job_list j /\ fe = [].
Definition to3 (s : net) (j : option cmd) (s' : net) (fc : list cmd) (fe : list event) : Prop :=
  exists r, ph3 r s' /\ fc = [] /\ fe = rep_list r /\ r = match j with Some _ => None | None => hd_error (evq (n_p s)) end.
Definition to0 (s' : net) (fc : list cmd) (fe : list event) : Prop := ph0 s' /\ fc = [] /\ fe = [].
Lemma to1_phase s s' fc fe : to1 s s' fc fe -> phase s' fc fe.
Proof. intros (j & H & -> & -> & _). apply ph_1, H. Qed.
Lemma to2_phase j s' fc fe : to2 j s' fc fe -> phase s' fc fe.
Proof. intros (H & -> & ->). apply ph_2, H. Qed.
Lemma to3_phase s j s' fc fe : to3 s j s' fc fe -> phase s' fc fe.
Proof. intros (r & H & -> & -> & _). apply ph_3, H. Qed.
Lemma to0_phase s' fc fe : to0 s' fc fe -> phase s' fc fe.
Proof. intros (H & -> & ->). apply ph_0, H. Qed.

Lemma plain_code k : plain_cmd k -> cmd_code k <> 117.
Proof. destruct k; simpl; try tauto; lia. Qed.
Lemma plain_hs k : plain_cmd k -> in_sc_handshake false (cmd_code k) = false.
Proof. destruct k; simpl; try tauto; reflexivity. Qed.
Lemma job_hs p j : job_ok p j -> in_sc_handshake false (job_code j) = false /\ job_code j <> 117.
Proof. destruct j as [k|]; simpl; [|split; [reflexivity|lia]]. intros (P & _ & _). split; [apply plain_hs, P|apply plain_code, P]. Qed.
Lemma job_fits p j n a : job_ok p j -> 95 <= n <= 256 -> fits n a (job_wire j).
Proof.
  destruct j as [k|]; simpl; intros H N.
  - apply cmd_fits; [apply H|exact N].
  - apply fits_small; [constructor; [unfold byte; lia|constructor]|change (zlen [96]) with 1; lia|lia|intros _; change (zlen [96]) with 1; lia].
Qed.
Lemma job_built e x smb m p j : job_ok p j -> cmd_id x = job_code j -> job_eph x j -> zlen (job_wire j) + 2 <= m -> 60 <= m -> build_cmd_switch e x smb m = Ok (x, Some (job_wire j), None, []).
Proof.
  destruct j as [k|]; simpl; intros H C E M1 M2.
  - apply cmd_built; try assumption; [apply H|]. intros X. destruct H as (P & _). destruct (plain_code k P X).
  - unfold build_cmd_switch. rewrite C. unfold assert_len. simpl. replace (1 <? m) with true by lia; reflexivity.
Qed.

(* the panel, idle *)
Definition due (e : env) (c : pd) : Prop := cmdq c <> [] \/ e_now e - tstamp c > 50.
Lemma step_idle2 e s : steady (n_c s) (n_p s) -> ph0 s -> allowed s (AUpdate e) -> (due e (n_c s) -> stepped_to (to1 s) s [] [] (AUpdate e)) /\ (~ due e (n_c s) -> stepped_to to0 s [] [] (AUpdate e)).
Proof.
  destruct s as [c p t tp tc]. cbn [n_c n_p]. intros SD (PH & L & Ep & Ec) AL. cbn [n_c n_p to_p to_c n_at] in *. subst tp tc. destruct AL as (CB & TX & [(X & _)|((ET & HN) & TM)]); cbn [n_c n_p to_p to_c n_at] in *; [contradiction|].
  pose proof (cp_reach_inv c (proj1 (sd_reach _ _ SD))) as I.
  assert (GO : forall c0 j, state_get_cmd e c = Ok (c0, job_code j, []) -> 0 < job_code j -> phy_state c0 = PIdle -> keeps_link c c0 -> same_c c c0 -> job_eph c0 j -> job_ok p j ->
    Forall (good_cmd p) (cmdq c0) -> job_list j ++ map upto (cmdq c0) = map upto (cmdq c) -> (cmdq c = [] <-> j = None) -> stepped_to (to1 (mkNet c p t [] [])) (mkNet c p t [] []) [] [] (AUpdate e)).
  { intros c0 j G C0 P0 K SC JE JO GC EQ JN. pose proof (pan_start e c c0 _ PH P0 G C0) as U. pose proof (keeps_send (job_code j) c c0 K) as K1.
    set (c1 := set_phy_state PSend (set_cmd_id (job_code j) c0)) in *.
    assert (D1 : cp_do (Update e) c = Ok (c1, [])) by (unfold cp_do; rewrite U; reflexivity).
    exists (mkNet c1 p t [] []), [], (job_list j), []. split; [split; [cbn [act n_c]; rewrite D1, bind_Ok; cbn [fst snd on_wire flat_map app n_p n_at to_p to_c]; rewrite (none_left e [] HN); reflexivity|first [reflexivity|exact Logic.I]]|].
    cbn [n_c n_p]. split; [apply (steady_c c p c1 SD)|].
    - apply (cp_reach_by c (Update e) c1 []); [apply SD|exact ET|exact D1].
    - destruct SC. split; assumption.
    - apply (keeps_quiet c c1 K1), SD.
    - exact GC.
    - split; [exists j; split; [split; [reflexivity|split; [exact (line_c c p c1 (keeps_same _ _ K1) L)|split; [reflexivity|split; [exact JE|split; [exact JO|split; reflexivity]]]]]|split; [reflexivity|split; [reflexivity|exact JN]]]|].
      cbn [app_calls told_events flat_map app cmds_of events_of]. rewrite app_nil_r. split; [exact EQ|]. rewrite app_nil_r. split; [reflexivity|]. exact (sm_act _ _ SC). }
  destruct (cmdq c) as [|k q] eqn:CQ.
  - destruct (e_now e - tstamp c >? 50) eqn:T.
    + split; [intros _|intros X; exfalso; apply X; right; lia]. apply (GO (set_tstamp (e_now e) c) None); try reflexivity.
      * apply poll_pending; [apply SD|exact CQ|apply SD|lia].
      * exact PH.
      * repeat split; reflexivity.
      * split; reflexivity.
      * change (cmdq (set_tstamp (e_now e) c)) with (cmdq c). rewrite CQ. constructor.
      * change (cmdq (set_tstamp (e_now e) c)) with (cmdq c). rewrite CQ. reflexivity.
      * split; reflexivity.
    + split; [intros [X|X]; [rewrite CQ in X; contradiction|lia]|intros _]. clear GO. assert (U : cp_do (Update e) c = Ok (set_cmd_id (-1) c, [])).
      { unfold cp_do. rewrite pan_rests; try apply SD; try exact PH; try exact CQ; [reflexivity|lia|apply (ci_rq c I)]. }
      set (c1 := set_cmd_id (-1) c) in *.
      exists (mkNet c1 p t [] []), [], [], []. split; [split; [cbn [act n_c]; rewrite U, bind_Ok; cbn [fst snd on_wire flat_map app n_p n_at to_p to_c]; rewrite (none_left e [] HN); reflexivity|first [reflexivity|exact Logic.I]]|].
      cbn [n_c n_p]. split; [apply (steady_c c p c1 SD)|].
      * apply (cp_reach_by c (Update e) c1 []); [apply SD|exact ET|exact U].
      * split; reflexivity.
      * apply SD.
      * change (cmdq c1) with (cmdq c). rewrite CQ. constructor.
      * split; [split; [split; [exact PH|split; [exact (line_c c p c1 (conj eq_refl (conj eq_refl (conj eq_refl eq_refl))) L)|split; reflexivity]]|split; reflexivity]|].
        cbn [app_calls told_events flat_map app cmds_of events_of]. change (cmdq c1) with (cmdq c). rewrite CQ, !app_nil_r. repeat split; reflexivity.
  - split; [intros _|intros X; exfalso; apply X; left; cbn [n_c]; rewrite CQ; discriminate]. pose proof (sd_cmds _ _ SD) as GC. rewrite CQ in GC. inversion GC as [|? ? Gk Gq]; subst. clear GC. destruct Gk as (PC & RK & CC).
    destruct (cmd_pending e c k q (sd_on _ _ SD) CQ RK ltac:(intros X; destruct (plain_code k PC X))) as (G & C0 & HS).
    apply (GO (set_eph (EphCmd k) (set_cmdq q c)) (Some k)); try reflexivity; try assumption.
    + repeat split; reflexivity.
    + split; reflexivity.
    + exact (conj PC (conj RK CC)).
    + split; discriminate.
Qed.
Lemma step_idle e s : steady (n_c s) (n_p s) -> ph0 s -> allowed s (AUpdate e) -> stepped s [] [] (AUpdate e).
Proof.
  intros SD P AL. destruct (step_idle2 e s SD P AL) as [A B].
  assert (X : due e (n_c s) \/ ~ due e (n_c s)) by (unfold due; destruct (cmdq (n_c s)); [|left; left; discriminate]; destruct (Z.ltb_spec 50 (e_now e - tstamp (n_c s))); [left; right; lia|right; intros [Y|Y]; [contradiction|lia]]).
  destruct X as [X|X]; [apply (stepped_weak _ phase _ _ _ _ (to1_phase s)), A, X|apply (stepped_weak _ phase _ _ _ _ to0_phase), B, X].
Qed.

(* the panel, about to send *)
Lemma step_send e j s : steady (n_c s) (n_p s) -> ph1 j s -> allowed s (AUpdate e) -> stepped_to (to2 j) s (job_list j) [] (AUpdate e).
Proof.
  destruct s as [c p t tp tc]. cbn [n_c n_p]. intros SD (PH & L & CI & JE & JO & Ep & Ec) AL. cbn [n_c n_p to_p to_c n_at] in *. subst tp tc. destruct AL as (CB & TX & [(X & _)|((ET & HN) & TM)]); cbn [n_c n_p to_p to_c n_at] in *; [contradiction|].
  pose proof (cp_reach_inv c (proj1 (sd_reach _ _ SD))) as I. destruct (job_hs p j JO) as [HS N117]. pose proof (tx_size c) as TS. destruct (sd_quiet _ _ SD) as [Qc Qp].
  assert (HS' : in_sc_handshake false (cmd_id c) = false) by (rewrite CI; exact HS).
  assert (F : fits (tx_buf_size c) (sc_active (fl c)) (job_wire j)) by (apply (job_fits p j); [exact JO|split; [apply SD|exact TS]]).
  assert (SEND : forall p', same_link p p' -> quiet p' -> exists c1 w, state_update e c = Ok (c1, CInprog, [OTx w]) /\ quiet c1 /\ phy_state c1 = PReplyWait /\ reqcore c1 = reqcore c /\ sc_active (fl c1) = sc_active (fl c) /\
    forall h, hears h w -> exists p1, takes p' [] h (job_wire j) p1 /\ line_reply c1 p1 /\ linkcore p1 = linkcore p' /\ rx_base p1 /\ rb_contents (rb p1) = [] /\ sc_active (fl p1) = sc_active (fl p')).
  { intros p' SL Q'. destruct (pan_sends e c p' None (job_wire j) [] I ET PH HS' TX (line_p c p p' SL L) Qc Q' F) as (c1 & w & U & Q1 & P1 & R1 & A1 & G).
    - cbn [with_file]. apply (job_built e _ _ _ p); try assumption; apply (room_cmd c _ HS' F).
    - exists c1, w. cbn [with_file app] in *. exact (conj U (conj Q1 (conj P1 (conj R1 (conj A1 G))))). }
  destruct (SEND p (conj eq_refl (conj eq_refl (conj eq_refl eq_refl))) Qp) as (c1 & w & U & Q1 & P1 & R1 & A1 & G).
  assert (D1 : cp_do (Update e) c = Ok (c1, [OTx w])) by (unfold cp_do; rewrite U; reflexivity).
  assert (W : w <> []) by exact (spoken p _ w _ Qp G).
  assert (SC : same_c c c1) by exact (req_same_c c c1 R1 A1).
  assert (CQ : cmdq c1 = cmdq c) by exact (f_equal (fun x => cmdq x) R1).
  assert (CI1 : cmd_id c1 = cmd_id c) by exact (f_equal (fun x => cmd_id x) R1).
  exists (mkNet c1 p (e_now e) w []), [OTx w], (job_list j), [].
  split. { split; [|reflexivity]. cbn [act n_c]. rewrite D1, bind_Ok. cbn [fst snd on_wire flat_map app n_p n_at to_p to_c]. rewrite (none_left e [] HN), app_nil_r. destruct w; [contradiction|reflexivity]. }
  cbn [n_c n_p]. split; [apply (steady_c c p c1 SD)|].
  - apply (cp_reach_by c (Update e) c1 [OTx w]); [apply SD|exact ET|exact D1].
  - exact SC.
  - exact Q1.
  - rewrite CQ. apply SD.
  - split.
    + split; [|split; reflexivity]. split; [exact P1|]. split; [exact (eq_trans CI1 CI)|]. split; [exact JO|]. split; [exact W|]. split; [reflexivity|]. split; [exact (send_time e c c1 _ PH U)|].
      intros p' SL Q' h H. destruct (SEND p' SL Q') as (c2 & w2 & U2 & _ & _ & _ & _ & G2). rewrite U in U2. injection U2 as <- <-. exact (G2 h H).
    + cbn [app_calls told_events flat_map app cmds_of events_of]. rewrite CQ, !app_nil_r. repeat split; try reflexivity. exact A1.
Qed.
