(** What a panel entry keeps while the device is silent. *)
From Verif Require Import Base ListLemmas Crc SpecCrc CrcProofs CrcBurst Aes AesProofs Rb RbProofs
  Types Sc ScProofs Phy PhyCheck File Pd Cp SpecRx SpecFrame SpecSec SpecSession SpecReply RxProofs RxFwd PdRx PdCore PhyTx PdTx PdReply
  PdStep PdRun PdWire PdFwd PdSec PdHist2 WireSec SaysProofs CpCtx SpecPd SpecCp SpecCpRun CpTx CpRx CpStep CpInv CpEdge CpFacts CpSum CpWire CpHist CpTime CpFwd CpRetry CpSeq CpQueue CpReply
  SpecTotal PdTotal SpecCpTotal CpTotal SpecLink SpecApp SpecTalk SpecHand SpecRun SpecBoot SpecSilent Silent.
From Coq Require Import ZifyBool ZifyNat.
Ltac Zify.zify_post_hook ::= Z.div_mod_to_equations.
Local Opaque aes_ecb_encrypt aes_cbc_encrypt aes_cbc_decrypt mac_of RB_SIZE osdp_mac enc1 cap_entries osdp_encrypt encrypt_data.

Record kin (p q : pd) : Prop := {
  kn_addr : address q = address p;
  kn_caps : caps q = caps p;
  kn_rx : peer_rx q = peer_rx p;
  kn_has : has_scbk (fl q) = has_scbk (fl p);
  kn_dis : sc_disabled (fl q) = sc_disabled (fl p);
  kn_enf : enforce (fl q) = enforce (fl p);
  kn_scbk : has_scbk (fl p) = true -> scbk (sc q) = scbk (sc p);
  kn_off : rq_offline p = false -> rq_offline q = false;
  kn_q : exists a, cmdq p = a ++ cmdq q
}.
Lemma kin_refl p : kin p p.
Proof. constructor; auto. exists []. reflexivity. Qed.
Lemma kin_trans p q r : kin p q -> kin q r -> kin p r.
Proof.
  intros [a1 a2 a3 a4 a5 a6 a7 a8 (x & a9)] [b1 b2 b3 b4 b5 b6 b7 b8 (y & b9)]. constructor; try congruence; auto.
  - intros H. rewrite b7 by congruence. auto.
  - exists (x ++ y). rewrite <- app_assoc. congruence.
Qed.
Definition empty (p : pd) : Prop := pblen p = 0 /\ plen p = 0.

Lemma chg_empty e p n : empty p -> empty (chg e p n).
Proof. intros (a & b). destruct n; split; auto. Qed.
Lemma done_empty p : empty p -> empty (rq_done p).
Proof. intros (a & b). unfold rq_done. destruct (rq_restart p); split; auto. Qed.
Lemma moved_empty e cur p n : empty p -> empty (moved e cur p n).
Proof.
  intros E. rewrite moved_eq. destruct (do_requests_eq e p n) as (o & ->).
  destruct (st_eqb (state p) SOnline || st_eqb n SOnline).
  - match goal with |- context [st_eqb cur ?x] => destruct (st_eqb cur x) end; [apply done_empty; auto|apply chg_empty, done_empty; auto].
  - destruct (st_eqb cur n); [auto|apply chg_empty; auto].
Qed.
Lemma finish_empty e p ok o0 q rc o : finish_update e (state p) p ok o0 = Ok (q, rc, o) -> empty p -> empty q.
Proof.
  intros F E. destruct (finish_split _ _ _ _ _ _ _ F) as (p1 & n1 & o1 & N & ->). apply moved_empty. destruct E as (a & b).
  destruct ok; [unfold next_ok_state in N|injection N as N; unfold next_err_state in N].
  - destruct (state p); try (injection N as <- _ _; split; assumption).
    + destruct (sc_is_capable p); [|destruct (enforce (fl p))]; injection N as <- _ _; split; assumption.
    + destruct (use_scbkd (fl (set_sc_active true p))); injection N as <- _ _; split; assumption.
    + unfold keyset_complete in N. destruct (negb (use_scbkd (fl p))).
      * destruct (eph p) as [| |c| |]; try discriminate N. destruct c; try discriminate N. destruct (take_arr _ 16); try discriminate N.
        rewrite !bind_Ok in N. cbv zeta in N. injection N as <- _ _. split; simpl; destruct (state p); assumption.
      * rewrite !bind_Ok in N. cbv zeta in N. injection N as <- _ _. split; simpl; destruct (state p); assumption.
  - destruct (state p); try (injection N as <- _ _; split; assumption).
    destruct (enforce (fl p)); [injection N as <- _ _; split; assumption|]. destruct (use_scbkd (fl p)); injection N as <- _ _; split; assumption.
Qed.

Lemma fin_kin e p q ok : fin_rel e p q ok -> kin p q.
Proof.
  intros F. pose proof (fr_core _ _ _ _ F) as C. constructor.
  - exact (f_equal (fun x => address x) C).
  - exact (f_equal (fun x => caps x) C).
  - exact (f_equal (fun x => peer_rx x) C).
  - exact (f_equal (fun x => has_scbk (fl x)) C).
  - exact (f_equal (fun x => sc_disabled (fl x)) C).
  - exact (f_equal (fun x => enforce (fl x)) C).
  - intros H. pose proof (fr_sc _ _ _ _ F) as S. unfold sc_move in S. destruct (_ && _); rewrite S; [apply sc_setup_key; auto|reflexivity].
  - intros H. destruct (rq_offline q) eqn:E; [|reflexivity]. destruct (fr_rqoff _ _ _ _ F E). congruence.
  - exists []. symmetry. exact (f_equal (fun x => cmdq x) C).
Qed.
Lemma t_kin x p q : tcore q = tcore (set_phy_state x p) -> kin p q.
Proof.
  intros C. constructor.
  - exact (f_equal (fun x => address x) C).
  - exact (f_equal (fun x => caps x) C).
  - exact (f_equal (fun x => peer_rx x) C).
  - exact (f_equal (fun x => has_scbk (fl x)) C).
  - exact (f_equal (fun x => sc_disabled (fl x)) C).
  - exact (f_equal (fun x => enforce (fl x)) C).
  - intros _. exact (f_equal (fun x => scbk (sc x)) C).
  - intros H. rewrite <- H. exact (f_equal (fun x => rq_offline x) C).
  - exists []. symmetry. exact (f_equal (fun x => cmdq x) C).
Qed.
Lemma rx_kin p q : rxcore q = rxcore p -> kin p q.
Proof.
  intros C. constructor.
  - exact (f_equal (fun x => address x) C).
  - exact (f_equal (fun x => caps x) C).
  - exact (f_equal (fun x => peer_rx x) C).
  - exact (f_equal (fun x => has_scbk (fl x)) C).
  - exact (f_equal (fun x => sc_disabled (fl x)) C).
  - exact (f_equal (fun x => enforce (fl x)) C).
  - intros _. exact (f_equal (fun x => scbk (sc x)) C).
  - intros H. rewrite <- H. exact (f_equal (fun x => rq_offline x) C).
  - exists []. symmetry. exact (f_equal (fun x => cmdq x) C).
Qed.
Lemma phy_kin x p : kin p (set_phy_state x p).
Proof. constructor; auto. exists []. reflexivity. Qed.
Lemma reset_kin p : kin p (state_reset false p).
Proof. constructor; auto. exists []. reflexivity. Qed.
Lemma wait_kin t x r p : kin p (set_phy_tstamp t (set_phy_state x (set_reply_id r (state_reset false p)))).
Proof. constructor; auto. exists []. reflexivity. Qed.
Lemma again_kin t r w x p : kin p (set_phy_tstamp t (set_retry r (set_phy_state x (set_wait_ms w p)))).
Proof. constructor; auto. exists []. reflexivity. Qed.

Lemma ended_kin e p1 ok o1 q o : ended e (state p1) ok p1 o1 q o -> cbinv p1 -> 0 <= retry p1 <= 8 ->
  (sc_active (fl p1) = true -> state p1 = SOnline \/ state p1 = SSetScbk) -> (state p1 = SSetScbk -> use_scbkd (fl p1) = true) ->
  rq_restart p1 = false -> bytes (e_rand e) -> ~ keyset_acked p1 -> kin p1 q /\ empty q.
Proof.
  intros (p2 & st & o2 & C & F) I R A HS RQ B NK.
  destruct (check_reply_fx e p1 p2 st o2 C I RQ) as (c1 & c2 & c3 & c4 & c5 & c6 & c7 & c8).
  assert (E2 : p2 = p1). { destruct c8 as [X|X]; [exact X|]. destruct (c7 X) as (x1 & _ & x2 & x3 & _). exfalso. apply NK. split; auto. }
  subst p2. change (state p1) with (state (state_reset false p1)) in F.
  assert (FP : fin_pre (state_reset false p1)).
  { constructor; simpl; auto. - apply cbinv_reset; auto. - congruence. }
  pose proof (finish_rel _ _ _ _ _ _ _ F FP HS) as FR. split.
  - apply (kin_trans _ _ _ (reset_kin p1)). exact (fin_kin _ _ _ _ FR).
  - apply (finish_empty _ _ _ _ _ _ _ F). split; reflexivity.
Qed.

Definition no_keys (p : pd) : Prop := Forall (fun k => match k with CKeyset _ _ _ => False | _ => True end) (cmdq p).
Lemma kin_no_keys p q : kin p q -> no_keys p -> no_keys q.
Proof. intros K N. destruct (kn_q _ _ K) as (a & E). unfold no_keys in *. rewrite E in N. apply Forall_app in N. apply N. Qed.

Definition calm (p : pd) : Prop := empty p /\ rb_contents (rb p) = [].
Lemma calm_pending p : calm p -> pending p = [].
Proof. intros ((a & _) & b). unfold pending. rewrite a, b. reflexivity. Qed.
Lemma calm_unread p : calm p -> unread p = 0.
Proof. intros C. pose proof (unread_le p). pose proof (unread_pos p). rewrite (calm_pending _ C) in H. unfold zlen in H. cbn [length] in H. lia. Qed.
Lemma nothing_calm e p q o : cpi p -> phy_state p = PReplyWait -> heard (e_rx e) = [] -> calm p -> reply_case e p q CNoData o -> calm q /\ rxcore q = rxcore p.
Proof.
  intros I P H C R. pose proof (nodata_core _ _ _ _ R I) as R0. pose proof (proj1 (silent_reply _ _ _ _ _ I P H R) eq_refl) as L.
  rewrite (calm_pending _ C) in L. unfold zlen in L. cbn [length] in L. split; [|exact R0].
  destruct (pending q) as [|x l] eqn:PQ; [|cbn [length] in L; lia].
  assert (W : rx_wf q).
  { inversion R as [k N K Y|k N K Y|p1 r o' G Y F]; subst; [apply N|].
    destruct G as (C0 & W & T & E & L0 & _). exfalso. exact (frame_data _ _ _ _ _ (cbinv_rx _ _ (ci_b _ I) C0 (proj1 W)) ltac:(lia) F eq_refl). }
  destruct W as ((_ & _ & LB & _) & W2). unfold pending in PQ. apply app_eq_nil in PQ. destruct PQ as (Q1 & Q2).
  assert (PB : pblen q <= 0). { apply (f_equal (@length Z)) in Q1. rewrite firstn_length, LB in Q1. cbn [length] in Q1. lia. }
  split; [|exact Q2]. unfold rx_fill in W2. split; lia.
Qed.
Lemma no_read e p q r o : cpi p -> phy_state p = PReplyWait -> heard (e_rx e) = [] -> calm p -> reply_case e p q r o -> r = CNoData.
Proof.
  intros I P H C R. assert (X : r = CNoData \/ r <> CNoData) by (destruct r; auto; right; discriminate).
  destruct X as [X|X]; [exact X|]. exfalso. pose proof (proj2 (silent_reply _ _ _ _ _ I P H R) X) as L. rewrite (calm_pending _ C) in L. unfold zlen in L. cbn [length] in L. lia.
Qed.
Lemma pick_key p k a c : translate_cmd p k = Ok (a, c) -> match k with CKeyset _ _ _ => False | _ => True end -> c <> 117.
Proof.
  intros T K. unfold translate_cmd in T. destruct k; try discriminate T; try contradiction; try (injection T as _ <-; discriminate).
  injection T as _ <-. repeat match goal with |- context [if ?b then _ else _] => destruct b end; discriminate.
Qed.
Lemma get_kin e p p1 c o : state_get_cmd e p = Ok (p1, c, o) -> file p = None -> no_keys p ->
  kin p p1 /\ empty p1 = empty p /\ rb p1 = rb p /\ state p1 = state p /\ (state p = SOnline -> c <> 117).
Proof.
  intros G F N. destruct (state p) eqn:S; try (unfold state_get_cmd in G; rewrite S in G; injection G as <- <- <-; split; [first [apply kin_refl|constructor; auto; exists []; reflexivity]|repeat split; auto; discriminate]).
  destruct (online_get _ _ _ _ _ G S F) as [(k & cq & Q & ->)|[(Q & -> & ->)|(Q & -> & -> & _)]].
  - split; [constructor; auto; exists [k]; exact Q|]. repeat split; auto. intros _.
    unfold state_get_cmd in G. rewrite S in G. unfold get_online_command in G. rewrite Q in G.
    destruct (translate_cmd (set_cmdq cq p) k) as [[a b]| |] eqn:TR; try discriminate G. rewrite bind_Ok in G. simpl in G. injection G as _ <- _.
    apply (pick_key _ _ _ _ TR). unfold no_keys in N. rewrite Q in N. apply Forall_cons_iff in N. apply N.
  - split; [constructor; auto; exists []; reflexivity|]. repeat split; auto. discriminate.
  - split; [apply kin_refl|]. repeat split; auto. discriminate.
Qed.
Lemma idle_not_keying p : phy_state p = PIdle -> ~ keying p.
Proof. intros P (_ & R & _). unfold phy_running in R. rewrite P in R. discriminate. Qed.

Lemma calm_step e p q rc o : cpi p -> tinv p -> steady p -> env_typed e -> heard (e_rx e) = [] -> calm p -> no_keys p -> ~ keying p ->
  state_update e p = Ok (q, rc, o) -> kin p q /\ calm q /\ ~ keying q.
Proof.
  intros C TI ST ET H CA NKS NK U. pose proof (cpi_case _ _ _ _ _ C ET U) as UC. clear U.
  assert (BR : bytes (e_rand e)) by apply ET. pose proof (ci_b _ C) as I. pose proof (sd_file _ ST) as FN.
  assert (RP : forall p1 r o1, phy_state p = PReplyWait -> reply_case e p p1 r o1 -> reply_fx e p p1 r o1).
  { intros p1 r o1 P R. destruct (ci_rx _ C P) as (W & _ & S0). apply reply_case_fx; auto. }
  assert (KA : forall p1, state p1 = state p -> cmd_id p1 = cmd_id p -> phy_running p = true -> ~ keyset_acked p1).
  { intros p1 a b r (x & y & _). apply NK. split; [congruence|]. split; [auto|congruence]. }
  assert (NO : phy_state p <> PIdle -> state p <> SOffline) by (intros X Y; destruct (offline_idle _ C Y); contradiction).
  destruct UC as [P L ->|p1 c o P G K ->|p1 c o1 o P G K F|p1 o SD CS ->|p1 o1 o SD CS E|P RC L|p1 P RC L RT ->
                |p1 o P RC L RT E|p1 o P RC ->|p1 r o1 o P RC K E|p1 r o1 o P RC K E].
  - split; [apply kin_refl|auto].
  - destruct (get_kin _ _ _ _ _ G FN NKS) as (g1 & g2 & g3 & g4 & g5). split; [|split].
    + apply (kin_trans _ _ _ g1). constructor; auto. exists []; reflexivity.
    + destruct CA as (c1 & c2). split; [change (empty p1); rewrite g2; exact c1|simpl; rewrite g3; exact c2].
    + intros (x & _ & y). simpl in x, y. apply g5; congruence.
  - destruct (get_kin _ _ _ _ _ G FN NKS) as (g1 & g2 & g3 & g4 & g5).
    destruct (get_cmd_fx _ _ _ _ _ G I) as [h1 h2 h3 h4 h5 h6 h7 h8 h9 h10].
    assert (I1 : cbinv (set_cmd_id c p1)) by (cbgi h1).
    assert (FP : fin_pre (set_cmd_id c p1)).
    { constructor; auto; simpl; rewrite ?h2, ?h3, ?h4, ?h5, ?h6; auto; try apply C. rewrite (ci_rq _ C). discriminate. }
    rewrite <- h4 in F. change (state p1) with (state (set_cmd_id c p1)) in F.
    assert (FS : state (set_cmd_id c p1) = SSetScbk -> use_scbkd (fl (set_cmd_id c p1)) = true).
    { simpl. rewrite h4, ?h2, ?h3, ?h6. intros X. apply (ci_set _ C X). }
    pose proof (finish_rel _ _ _ _ _ _ _ F FP FS) as FR. pose proof (fin_fields _ _ _ _ FR) as (f1 & f2 & f3 & f4).
    pose proof (finish_idle _ _ _ _ _ _ _ F FP BR) as PH. destruct CA as (c1 & c2). split; [|split].
    + apply (kin_trans _ _ _ g1). apply (kin_trans _ (set_cmd_id c p1)); [constructor; auto; exists []; reflexivity|exact (fin_kin _ _ _ _ FR)].
    + split; [|rewrite f1; simpl; rewrite g3; exact c2]. apply (finish_empty _ _ _ _ _ _ _ F). change (empty p1). rewrite g2. exact c1.
    + apply idle_not_keying, PH.
  - assert (I1 : cbinv (set_phy_state PSend p)) by (apply cbinv_phy; auto).
    destruct (cmd_sent_fx _ _ _ _ _ I1 CS) as [s1 s2 s3 s4 s5].
    pose proof (t_kin _ _ _ s1) as T1.
    assert (R1 : rb p1 = rb p) by exact (f_equal (fun x => rb x) s1). assert (R2 : state p1 = state p) by exact (f_equal (fun x => state x) s1).
    assert (R3 : cmd_id p1 = cmd_id p) by exact (f_equal (fun x => cmd_id x) s1).
    split; [exact (kin_trans _ _ _ T1 (wait_kin _ _ _ _))|]. destruct CA as (c1 & c2). split; [split; [split; reflexivity|simpl; rewrite R1; exact c2]|].
    intros (x & _ & y). simpl in x, y. apply NK. split; [congruence|]. split; [|congruence].
    unfold phy_running. destruct SD as [-> |(-> & _)]; reflexivity.
  - assert (I1 : cbinv (set_phy_state PSend p)) by (apply cbinv_phy; auto).
    destruct (cmd_sent_fx _ _ _ _ _ I1 CS) as [s1 s2 s3 s4 s5].
    pose proof (tcore_fields _ _ s1) as (t1 & t2 & t3 & t4 & t5 & t6 & t7 & t8 & t9 & t10 & t11 & t12 & t13 & t14 & t15 & t16 & t17 & t18 & t19 & t20 & t21 & t22 & t23 & t24 & t25 & t26 & t27 & t28).
    pose proof (t_kin _ _ _ s1) as T1. assert (R3 : cmd_id p1 = cmd_id p) by exact (f_equal (fun x => cmd_id x) s1).
    simpl in t2, t4, t6, t7, t8, t9, t12, t14, t19, t20, t21.
    assert (NO1 : state p <> SOffline) by (apply NO; destruct SD as [-> |(-> & _)]; discriminate).
    rewrite <- t2 in E. change (state p1) with (state (set_phy_state PErr p1)) in E. pose proof E as E0.
    apply ended_move in E; simpl; rewrite ?t2, ?t4, ?t9, ?t20, ?t21; auto; try apply C; [|apply cbinv_phy; auto].
    apply ended_kin in E0; simpl; rewrite ?t2, ?t4, ?t9, ?t20, ?t21; auto; try apply C; [|apply cbinv_phy; auto|].
    2:{ apply KA; auto. unfold phy_running. destruct SD as [-> |(-> & _)]; reflexivity. }
    destruct E as [e1 e2 e3 e4 e5 e6]. simpl in e2. destruct E0 as (k1 & k2). split; [|split].
    + exact (kin_trans _ _ _ T1 (kin_trans _ _ _ (phy_kin _ _) k1)).
    + split; [exact k2|]. rewrite e2, t19. apply CA.
    + apply idle_not_keying, e1.
  - destruct (nothing_calm _ _ _ _ C P H CA RC) as (n1 & n2). split; [apply rx_kin, n2|]. split; [exact n1|].
    destruct (rx_alike _ _ n2) as ([r0 r0' r0''] & r2 & r3 & r4 & r5 & r6). intros (x & y & z). apply NK. split; [congruence|]. split; [|congruence].
    unfold phy_running in *. rewrite P. reflexivity.
  - destruct (nothing_calm _ _ _ _ C P H CA RC) as (n1 & n2). split; [apply (kin_trans _ _ _ (rx_kin _ _ n2)), again_kin|]. split; [exact n1|].
    destruct (rx_alike _ _ n2) as ([r0 r0' r0''] & r2 & r3 & r4 & r5 & r6). intros (x & y & z). simpl in x, z. apply NK. split; [congruence|]. split; [|congruence].
    unfold phy_running in *. rewrite P. reflexivity.
  - destruct (nothing_calm _ _ _ _ C P H CA RC) as (n1 & n2). destruct (rx_alike _ _ n2) as ([r0 r0' r0''] & r2 & r3 & r4 & r5 & r6).
    destruct (RP _ _ _ P RC) as [c1 c2 c3 c4 c5 c6 c7 c8 c9 c10].
    destruct (wcore_fields _ _ c1) as (w1 & w2 & w3 & w4 & w5 & w6 & w7 & w8 & _).
    assert (NO1 : state p <> SOffline) by (apply NO; rewrite P; discriminate).
    rewrite <- r0 in E. change (state p1) with (state (set_phy_state PErr p1)) in E. pose proof E as E0.
    apply ended_move in E; simpl; rewrite ?r0, ?r3, ?r0', ?w8; auto; try apply C; [|apply cbinv_phy; auto|intros X; apply (ci_act _ C); auto].
    apply ended_kin in E0; simpl; rewrite ?r0, ?r3, ?r0', ?w8; auto; try apply C; [|apply cbinv_phy; auto|intros X; apply (ci_act _ C); auto|].
    2:{ apply KA; auto. unfold phy_running. rewrite P. reflexivity. }
    destruct E as [e1 e2 e3 e4 e5 e6]. simpl in e2. destruct E0 as (k1 & k2). split; [|split].
    + exact (kin_trans _ _ _ (rx_kin _ _ n2) (kin_trans _ _ _ (phy_kin _ _) k1)).
    + split; [exact k2|]. rewrite e2. apply n1.
    + apply idle_not_keying, e1.
  - pose proof (no_read _ _ _ _ _ C P H CA RC). discriminate.
  - pose proof (no_read _ _ _ _ _ C P H CA RC) as ->. destruct K as [K|(K & _)]; discriminate.
  - pose proof (no_read _ _ _ _ _ C P H CA RC) as ->. destruct K as [K|(K & _)]; discriminate.
Qed.

Lemma calm_seg p l q : cp_seg p l q -> forall es, refreshes l es -> Forall (fun e => heard (e_rx e) = []) es -> cp_reach p -> steady p -> calm p -> no_keys p -> ~ keying p ->
  kin p q /\ calm q /\ cp_reach q /\ steady q.
Proof.
  induction 1 as [p|p c q o l r T D S IH]; intros es RF H R ST CA N K.
  - split; [apply kin_refl|auto].
  - destruct es as [|e es]; [discriminate RF|]. unfold refreshes in RF. cbn [map ce_call] in RF. injection RF as -> RF.
    apply Forall_cons_iff in H. destruct H as (H1 & H2). cbn [cp_call_typed] in T. destruct (cp_do_update _ _ _ _ D) as (rc & U).
    destruct (calm_step _ _ _ _ _ (cp_reach_inv _ R) (cp_reach_tinv _ R) ST T H1 CA N K U) as (k1 & k2 & k3).
    destruct (IH es RF H2 (reach_step _ _ _ _ R T D) (update_steady _ _ _ _ R ST T D) k2 (kin_no_keys _ _ k1 N) k3) as (i1 & i2).
    split; [exact (kin_trans _ _ _ k1 i1)|exact i2].
Qed.
Theorem pair_kept b k n i h c p es l q : cp_runs k n i h c -> Forall (fun x => careful_cp (ce_call x)) h -> pair b c p -> ~ keying c ->
  Forall (fun e => heard (e_rx e) = []) es -> cp_seg c l q -> refreshes l es ->
  pair b q p /\ (same_key c p -> same_key q p) /\ (no_key c p -> no_key q p).
Proof.
  intros R F PR K H S RF. assert (Rp : cp_reach c) by (exists k, n, i, h; exact R). destruct PR as [m1 m2 m3 m4 m5 m6 m7 m8 m9 m10].
  assert (CA : calm c) by (destruct m4 as ((a & b0 & c0 & _) & _); split; [split; auto|auto]).
  assert (N : no_keys c).
  { unfold no_keys. apply (Forall_impl _ (P := good_cmd p)); [|exact m9]. intros x (X & _). destruct x; try exact X; exact Logic.I. }
  destruct (calm_seg _ _ _ S _ RF H Rp (runs_steady _ _ _ _ _ R F) CA N K) as (KN & ((q1 & q2) & q3) & Rq & ST).
  destruct KN as [k1 k2 k3 k4 k5 k6 k7 k8 (a & k9)].
  split; [|split].
  - constructor; auto.
    + split; [exact Rq|apply m1].
    + split; [apply k8, m2|]. unfold no_transfer. rewrite (sd_file _ ST). exact Logic.I.
    + rewrite k1. exact m3.
    + split; [|apply m4]. destruct (cv_rxb _ (ci_b _ (cp_reach_inv _ Rq))) as (r1 & r2 & r3 & r4). unfold quiet. auto 10.
    + rewrite k2. exact m5.
    + unfold tx_buf_size in *. rewrite k3. exact m6.
    + rewrite k9 in m9. apply Forall_app in m9. apply m9.
  - intros (s1 & s2 & s3 & s4). unfold same_key. rewrite k4, k5, k7 by exact s1. auto.
  - intros (s1 & s2 & s3). unfold no_key. rewrite k5, k6. auto.
Qed.
