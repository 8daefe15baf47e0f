(** A device that does not answer is given up after a bounded time. *)
From Verif Require Import Base ListLemmas Crc SpecCrc CrcProofs CrcBurst Aes AesProofs Rb RbProofs
  Types Sc ScProofs Phy PhyCheck File Pd Cp SpecRx SpecFrame SpecSec SpecSession SpecReply RxProofs RxFwd PdRx PdCore PhyTx PdTx PdReply
  PdStep PdRun PdWire PdFwd PdSec PdHist2 WireSec SaysProofs CpCtx SpecPd SpecCp SpecCpRun CpTx CpRx CpStep CpInv CpEdge CpFacts CpSum CpWire CpHist CpTime CpFwd CpRetry CpSeq CpQueue CpReply
  SpecTotal PdTotal SpecCpTotal CpTotal SpecSilent.
From Coq Require Import ZifyBool ZifyNat.
Ltac Zify.zify_post_hook ::= Z.div_mod_to_equations.
Local Opaque aes_ecb_encrypt aes_cbc_encrypt aes_cbc_decrypt mac_of RB_SIZE osdp_mac enc1 cap_entries osdp_encrypt encrypt_data.

(* bytes that were received and may still be read *)
Definition unread (p : pd) : Z :=
  match phy_state p with PReplyWait => zlen (pending p) | _ => zlen (rb_contents (rb p)) end.
Lemma unread_pos p : 0 <= unread p.
Proof. unfold unread. destruct (phy_state p); apply Zle_0_nat. Qed.
Lemma unread_le p : unread p <= zlen (pending p).
Proof. unfold unread, pending, zlen. destruct (phy_state p); rewrite ?app_length; lia. Qed.
Lemma unread_ring p : zlen (rb_contents (rb p)) <= unread p.
Proof. unfold unread, pending, zlen. destruct (phy_state p); rewrite ?app_length; lia. Qed.

(** * Fields over the end of an exchange *)
Lemma chg_sct e p n : sc_tstamp (chg e p n) = sc_tstamp p.
Proof. destruct n; reflexivity. Qed.
Lemma done_sct p : sc_tstamp (rq_done p) = sc_tstamp p.
Proof. unfold rq_done. destruct (rq_restart p); reflexivity. Qed.
Lemma moved_sct e cur p n : sc_tstamp (moved e cur p n) = sc_tstamp p.
Proof.
  rewrite moved_eq. destruct (do_requests_eq e p n) as (o & ->).
  destruct (st_eqb (state p) SOnline || st_eqb n SOnline).
  - match goal with |- context [st_eqb cur ?x] => destruct (st_eqb cur x) end; rewrite ?chg_sct; apply done_sct.
  - destruct (st_eqb cur n); rewrite ?chg_sct; reflexivity.
Qed.
Lemma finish_sct e p ok o0 q rc o : finish_update e (state p) p ok o0 = Ok (q, rc, o) ->
  sc_tstamp q = (if ok then sc_tstamp p else match state p with SChlng => if enforce (fl p) then sc_tstamp p else if use_scbkd (fl p) then e_now e else sc_tstamp p | _ => sc_tstamp p end).
Proof.
  intros F. destruct (finish_split _ _ _ _ _ _ _ F) as (p1 & n1 & o1 & N & ->). rewrite moved_sct.
  destruct ok; [unfold next_ok_state in N|injection N as N; unfold next_err_state in N].
  - destruct (state p); try (injection N as <- _ _; reflexivity).
    + destruct (sc_is_capable p); [|destruct (enforce (fl p))]; injection N as <- _ _; reflexivity.
    + destruct (use_scbkd (fl (set_sc_active true p))); injection N as <- _ _; reflexivity.
    + unfold keyset_complete in N. destruct (negb (use_scbkd (fl p))).
      * destruct (eph p) as [| |c| |]; try discriminate N. destruct c; try discriminate N. destruct (take_arr _ 16); try discriminate N.
        rewrite !bind_Ok in N. cbv zeta in N. injection N as <- _ _. simpl. destruct (state p); reflexivity.
      * rewrite !bind_Ok in N. cbv zeta in N. injection N as <- _ _. simpl. destruct (state p); reflexivity.
  - destruct (state p); try (injection N as <- _ _; reflexivity).
    destruct (enforce (fl p)); [injection N as <- _ _; reflexivity|]. destruct (use_scbkd (fl p)); injection N as <- _ _; reflexivity.
Qed.

(* where an exchange that failed leaves the entry *)
Definition fail_move (t : Z) (p q : pd) : Prop :=
  state q = SOffline \/
  (state p = SChlng /\ use_scbkd (fl p) = false /\ state q = SChlng /\ use_scbkd (fl q) = true) \/
  (state p = SChlng /\ state q = SOnline /\ sc_tstamp q = t) \/
  (state p = SScrypt /\ state q = SOnline) \/
  (state p = SOnline /\ cmd_id p = 117 /\ state q = SChlng).

Record closed (e : env) (p q : pd) (ok : bool) : Prop := {
  cl_phy : phy_state q = PIdle;
  cl_rb : rb q = rb p;
  cl_q : cmdq q = cmdq p;
  cl_pt : phy_tstamp q = phy_tstamp p;
  cl_t : tstamp q = tstamp p \/ tstamp q = e_now e;
  cl_to : ok = false -> fail_move (e_now e) p q
}.
Lemma fin_fields e p q ok : fin_rel e p q ok -> rb q = rb p /\ cmdq q = cmdq p /\ phy_tstamp q = phy_tstamp p /\ (tstamp q = tstamp p \/ tstamp q = e_now e).
Proof.
  intros F. pose proof (fr_core _ _ _ _ F) as C. split; [exact (f_equal (fun x => rb x) C)|]. split; [exact (f_equal (fun x => cmdq x) C)|].
  split; [exact (f_equal (fun x => phy_tstamp x) C)|]. pose proof (fr_time _ _ _ _ F) as T. unfold time_move in T.
  destruct (_ && _); destruct T; auto.
Qed.
Lemma reset_fields p : rb (state_reset false p) = rb p /\ cmdq (state_reset false p) = cmdq p /\ phy_tstamp (state_reset false p) = phy_tstamp p /\
  tstamp (state_reset false p) = tstamp p /\ state (state_reset false p) = state p /\ fl (state_reset false p) = fl p /\ cmd_id (state_reset false p) = cmd_id p /\
  rq_restart (state_reset false p) = rq_restart p.
Proof. repeat split. Qed.
Lemma checked_fields p1 p3 st : checked p1 p3 st -> rb p3 = rb p1 /\ cmdq p3 = cmdq p1 /\ phy_tstamp p3 = phy_tstamp p1 /\ tstamp p3 = tstamp p1 /\ state p3 = state p1.
Proof.
  intros [K ->|p2 K T ->]; [repeat split|]. destruct T as [U ->|ty n k d U E D ->]; repeat split.
Qed.
Lemma ended_move e ok p1 o1 q o : ended e (state p1) ok p1 o1 q o -> cbinv p1 -> 0 <= retry p1 <= 8 ->
  (sc_active (fl p1) = true -> state p1 = SOnline \/ state p1 = SSetScbk) -> (state p1 = SSetScbk -> use_scbkd (fl p1) = true) ->
  rq_restart p1 = false -> bytes (e_rand e) -> state p1 <> SOffline -> closed e p1 q ok.
Proof.
  intros E I R A HS RQ B NO. pose proof (ended_idle _ _ _ _ _ _ _ E eq_refl I R A RQ B) as PH.
  destruct E as (p2 & st & o2 & C & F).
  destruct (check_reply_fx e p1 p2 st o2 C I RQ) as (c1 & c2 & c3 & c4 & c5 & c6 & c7 & c8).
  destruct (check_checked _ _ _ _ _ C) as [K _]. pose proof (checked_fields _ _ _ K) as (k1 & k2 & k3 & k4 & k5).
  rewrite <- c4 in F. change (state p2) with (state (state_reset false p2)) in F.
  assert (FP : fin_pre (state_reset false p2)).
  { constructor; simpl; auto.
    - apply cbinv_reset; auto.
    - lia.
    - rewrite c4. auto.
    - intros X. destruct (c7 X) as (x1 & x2 & _). split; [congruence|auto]. }
  assert (FS : state (state_reset false p2) = SSetScbk -> use_scbkd (fl (state_reset false p2)) = true).
  { intros X. rewrite k5 in X. specialize (HS X). destruct c8 as [->|X2]; [exact HS|]. destruct (c7 X2) as (Y & _). congruence. }
  pose proof (finish_rel _ _ _ _ _ _ _ F FP FS) as FR. pose proof (fin_fields _ _ _ _ FR) as (f1 & f2 & f3 & f4).
  pose proof (finish_sct _ _ _ _ _ _ _ F) as SCT.
  constructor; [exact PH|rewrite f1; exact k1|rewrite f2; exact k2|rewrite f3; exact k3| |].
  { rewrite <- k4. exact f4. }
  intros ->. cbn [andb] in *. pose proof (fr_edge _ _ _ _ FR) as EG. pose proof (fr_scbkd _ _ _ _ FR) as SB. unfold fail_move.
  destruct K as [NK E3|p2' KA KT E3].
  - rewrite E3 in *. pose proof (reset_fields p1) as (_ & _ & _ & _ & r5 & r6 & r7 & r8).
    unfold edge_ok in EG. unfold scbkd_ok in SB. rewrite r5, r6, ?r8, ?RQ in *. clear - EG SB SCT NO.
    destruct (state p1) eqn:S1, (state q) eqn:S2; try tauto; try discriminate; try (destruct EG; discriminate).
    + right; right; left. destruct EG as (_ & x1 & x2). rewrite x1, x2 in SCT. auto.
    + destruct EG as (_ & [X|(X & _)]); [congruence|discriminate].
  - destruct KA as (K1 & K2 & K3). unfold edge_ok in EG. rewrite k5, K1 in EG.
    destruct (state q) eqn:S2; try tauto. + destruct EG; discriminate.
Qed.

(** * Receiving in silence *)
Lemma arrived_none e p : heard (e_rx e) = [] -> arrived e p = pending p.
Proof. intros H. unfold arrived. rewrite H, firstn_nil, app_nil_r. reflexivity. Qed.
Lemma ring_pending p : zlen (rb_contents (rb p)) <= zlen (pending p).
Proof. unfold pending, zlen. rewrite app_length. lia. Qed.
Lemma frame_rb e p1 q r o : cbinv p1 -> pblen p1 <= 256 -> frame_case e p1 q r o -> rb q = rb p1.
Proof.
  intros I L F. destruct F as [_ ->|_ _ _ ->|_ _ _ _ ->|k _ _ _ _ D|p2 l r o _ _ _ _ D R]; try reflexivity.
  - destruct (cp_decode_packet _ _ _ I L D) as (_ & C & _). exact (f_equal (fun x => rb x) C).
  - destruct (cp_decode_packet _ _ _ I L D) as (_ & C & _ & _ & _ & (_ & NE & _)).
    assert (L1 : 1 <= zlen l) by (unfold zlen; destruct l; [contradiction|cbn [length]; lia]).
    pose proof (rr_core _ _ _ _ _ _ (decode_response_rel _ _ _ _ _ _ R L1)) as C2.
    transitivity (rb p2); [exact (f_equal (fun x => rb x) C2)|exact (f_equal (fun x => rb x) C)].
Qed.
Lemma frame_data e p1 q r o : cbinv p1 -> pblen p1 <= 256 -> frame_case e p1 q r o -> r <> CNoData.
Proof.
  intros I L F. destruct F as [_ ->|_ _ _ ->|_ _ _ _ ->|k _ _ _ _ D|p2 l r o _ _ _ _ D R]; try discriminate.
  destruct (cp_decode_packet _ _ _ I L D) as (_ & C & _ & _ & _ & (_ & NE & _)).
  assert (L1 : 1 <= zlen l) by (unfold zlen; destruct l; [contradiction|cbn [length]; lia]).
  destruct (rr_kind _ _ _ _ _ _ (decode_response_rel _ _ _ _ _ _ R L1)) as [ -> | [ -> | [ (-> & _) | -> ]]]; discriminate.
Qed.
Lemma silent_reply e p q r o : cpi p -> phy_state p = PReplyWait -> heard (e_rx e) = [] -> reply_case e p q r o ->
  (r = CNoData -> zlen (pending q) <= zlen (pending p)) /\ (r <> CNoData -> zlen (rb_contents (rb q)) < zlen (pending p)).
Proof.
  intros I P H R. destruct R as [k N K Y|k N K Y|p1 r o G Y F].
  - split; [|congruence]. intros _. destruct N as (_ & _ & _ & (noise & A & _) & _). rewrite (arrived_none _ _ H) in A. rewrite A. unfold zlen. rewrite app_length. lia.
  - split; [congruence|]. intros _. destruct N as (_ & W & _ & (noise & A & _) & K2). rewrite (arrived_none _ _ H) in A. rewrite A.
    assert (PB : pblen q = 5) by (destruct K as [-> | ->]; apply K2). destruct W as ((_ & _ & LB & _) & _).
    unfold pending, zlen. rewrite PB, !app_length, firstn_length, LB. lia.
  - destruct G as (C & W & _ & E & L & (noise & mk & A & Z & _) & _ & ZF).
    pose proof (frame_data _ _ _ _ _ (cbinv_rx _ _ (ci_b _ I) C (proj1 W)) ltac:(lia) F) as ND. split; [contradiction|]. intros _.
    rewrite (arrived_none _ _ H) in A. rewrite (frame_rb _ _ _ _ _ (cbinv_rx _ _ (ci_b _ I) C (proj1 W)) ltac:(lia) F).
    rewrite A. unfold zlen in *. rewrite !app_length. destruct (mark_len_cases p1); lia.
Qed.

(** * One refresh in silence *)
Record alike (p q : pd) : Prop := {
  al_state : state q = state p;
  al_scbkd : use_scbkd (fl q) = use_scbkd (fl p);
  al_sct : sc_tstamp q = sc_tstamp p
}.
Definition due (e : env) (p : pd) : Prop :=
  phy_state p = PSend \/ phy_state p = PWait /\ 800 <= e_now e - phy_tstamp p.
Definition one_less (p q : pd) : Prop := zlen (cmdq q) + 1 = zlen (cmdq p).
Inductive sil (e : env) (p q : pd) : Prop :=
| SL_hold : phy_state p = PWait -> e_now e - phy_tstamp p < 800 -> q = p -> sil e p q
| SL_pick : phy_state p = PIdle -> phy_state q = PSend -> alike p q -> retry q = retry p -> rb q = rb p -> phy_tstamp q = phy_tstamp p ->
    tstamp q = tstamp p \/ tstamp q = e_now e -> (cmdq q = cmdq p /\ (state p = SOnline -> cmd_id q = 96) \/ one_less p q) -> sil e p q
| SL_idle : phy_state p = PIdle -> phy_state q = PIdle -> state p = SOnline -> rb q = rb p -> tstamp q = tstamp p -> phy_tstamp q = phy_tstamp p ->
    sc_tstamp q = sc_tstamp p -> state q = SOnline \/ state q = SChlng /\ SC_RETRY < e_now e - sc_tstamp p ->
    (cmdq q = cmdq p /\ e_now e - tstamp p <= 50 \/ one_less p q) -> sil e p q
| SL_sent : due e p -> phy_state q = PReplyWait -> alike p q -> cmd_id q = cmd_id p -> retry q = retry p -> phy_tstamp q = e_now e -> tstamp q = tstamp p ->
    cmdq q = cmdq p -> zlen (pending q) = zlen (rb_contents (rb p)) -> sil e p q
| SL_wait : phy_state p = PReplyWait -> phy_state q = PReplyWait -> e_now e - phy_tstamp p <= 200 -> alike p q -> cmd_id q = cmd_id p -> retry q = retry p ->
    phy_tstamp q = phy_tstamp p -> tstamp q = tstamp p \/ tstamp q = e_now e -> cmdq q = cmdq p -> zlen (pending q) <= zlen (pending p) -> sil e p q
| SL_retry : phy_state p = PReplyWait -> phy_state q = PWait -> 200 < e_now e - phy_tstamp p -> retry p < 8 -> alike p q -> cmd_id q = cmd_id p -> retry q = retry p + 1 ->
    phy_tstamp q = e_now e -> tstamp q = tstamp p \/ tstamp q = e_now e -> cmdq q = cmdq p -> zlen (pending q) <= zlen (pending p) -> sil e p q
| SL_fail : due e p \/ phy_state p = PReplyWait /\ 200 < e_now e - phy_tstamp p -> phy_state q = PIdle -> zlen (rb_contents (rb q)) <= unread p ->
    cmdq q = cmdq p -> phy_tstamp q = phy_tstamp p -> tstamp q = tstamp p \/ tstamp q = e_now e -> fail_move (e_now e) p q -> sil e p q
| SL_read : phy_state p = PReplyWait -> phy_state q = PIdle \/ phy_state q = PWait /\ phy_tstamp q = e_now e -> zlen (rb_contents (rb q)) < unread p ->
    cmdq q = cmdq p -> phy_tstamp q = phy_tstamp p \/ phy_tstamp q = e_now e -> tstamp q = tstamp p \/ tstamp q = e_now e -> sil e p q.

Lemma sending_due e p : tinv p -> sending e p -> due e p.
Proof. intros T [S|[S W]]; [left; auto|right]. rewrite (ti_retry _ T S) in W. auto. Qed.
Lemma online_get e p p1 c o : state_get_cmd e p = Ok (p1, c, o) -> state p = SOnline -> file p = None ->
  (exists k cq, cmdq p = k :: cq /\ p1 = set_eph (EphCmd k) (set_cmdq cq p)) \/
  (cmdq p = [] /\ p1 = set_tstamp (e_now e) p /\ c = 96) \/
  (cmdq p = [] /\ p1 = p /\ c = -1 /\ e_now e - tstamp p <= 50).
Proof.
  intros G S F. unfold state_get_cmd in G. rewrite S in G. unfold get_online_command in G. destruct (cmdq p) as [|k cq] eqn:Q.
  - unfold file_tx_get_command in G. rewrite F in G. change (negb (0 =? 0)) with false in G. cbv iota in G. change POLL_TIMEOUT with 50 in G.
    destruct (e_now e - tstamp p >? 50) eqn:T.
    + injection G as <- <- _. right; left. auto.
    + injection G as <- <- _. right; right. repeat split; auto. lia.
  - left. exists k, cq. split; [auto|]. destruct (translate_cmd (set_cmdq cq p) k) as [[a b]| |] eqn:TR; try discriminate G.
    rewrite bind_Ok in G. simpl in G. injection G as <- _ _.
    unfold translate_cmd in TR. destruct k; try discriminate TR; try (injection TR as <- _; reflexivity);
    repeat match type of TR with context [if ?b then _ else _] => destruct b end; try discriminate TR; injection TR as <- _; reflexivity.
Qed.
Lemma other_get e p p1 c o : state_get_cmd e p = Ok (p1, c, o) -> state p <> SOnline -> state p <> SOffline -> p1 = p /\ 0 < c.
Proof. intros G S1 S2. unfold state_get_cmd in G. destruct (state p); try contradiction; injection G as <- <- _; split; auto; reflexivity. Qed.
Lemma frame_t e p1 q r o : cbinv p1 -> pblen p1 <= 256 -> frame_case e p1 q r o -> tstamp q = tstamp p1.
Proof.
  intros I L F. destruct F as [_ ->|_ _ _ ->|_ _ _ _ ->|k _ _ _ _ D|p2 l r o _ _ _ _ D R]; try reflexivity.
  - destruct (cp_decode_packet _ _ _ I L D) as (_ & C & _). exact (f_equal (fun x => tstamp x) C).
  - destruct (cp_decode_packet _ _ _ I L D) as (_ & C & _ & _ & _ & (_ & NE & _)).
    assert (L1 : 1 <= zlen l) by (unfold zlen; destruct l; [contradiction|cbn [length]; lia]).
    pose proof (rr_core _ _ _ _ _ _ (decode_response_rel _ _ _ _ _ _ R L1)) as C2.
    transitivity (tstamp p2); [exact (f_equal (fun x => tstamp x) C2)|exact (f_equal (fun x => tstamp x) C)].
Qed.
Lemma reply_t e p q r o : cpi p -> reply_case e p q r o -> tstamp q = tstamp p \/ tstamp q = e_now e.
Proof.
  intros I R. destruct R as [k N K Y|k N K Y|p1 r o G Y F]; [apply N|apply N|].
  destruct G as (C & W & T & E & L & _). rewrite (frame_t _ _ _ _ _ (cbinv_rx _ _ (ci_b _ I) C (proj1 W)) ltac:(lia) F). exact T.
Qed.
Lemma nodata_core e p q o : reply_case e p q CNoData o -> cpi p -> rxcore q = rxcore p.
Proof.
  intros R I. inversion R as [k N K Y|k N K Y|p1 r o' G Y F]; subst; [apply N|].
  destruct G as (C & W & T & E & L & _). exfalso. exact (frame_data _ _ _ _ _ (cbinv_rx _ _ (ci_b _ I) C (proj1 W)) ltac:(lia) F eq_refl).
Qed.
Lemma rx_alike p q : rxcore q = rxcore p -> alike p q /\ cmd_id q = cmd_id p /\ retry q = retry p /\ phy_state q = phy_state p /\ phy_tstamp q = phy_tstamp p /\ cmdq q = cmdq p.
Proof.
  intros R. split; [|split; [exact (f_equal (fun x => cmd_id x) R)|split; [exact (f_equal (fun x => retry x) R)|split; [exact (f_equal (fun x => phy_state x) R)|split;
    [exact (f_equal (fun x => phy_tstamp x) R)|exact (f_equal (fun x => cmdq x) R)]]]]].
  constructor; [exact (f_equal (fun x => state x) R)|exact (f_equal (fun x => use_scbkd (fl x)) R)|exact (f_equal (fun x => sc_tstamp x) R)].
Qed.
Lemma zlen_cons1 {A} (x : A) l : zlen (x :: l) = zlen l + 1.
Proof. unfold zlen. cbn [length]. lia. Qed.

Lemma upd_sil e p q rc o : cpi p -> tinv p -> steady p -> env_typed e -> heard (e_rx e) = [] -> state p <> SOffline ->
  state_update e p = Ok (q, rc, o) -> sil e p q.
Proof.
  intros C TI ST ET H NO U. pose proof (cpi_case _ _ _ _ _ C ET U) as UC. clear U.
  assert (BR : bytes (e_rand e)) by apply ET. pose proof (ci_b _ C) as I. pose proof (sd_file _ ST) as FN.
  assert (RP : forall p1 r o1, phy_state p = PReplyWait -> reply_case e p p1 r o1 -> reply_fx e p p1 r o1).
  { intros p1 r o1 P R. destruct (ci_rx _ C P) as (W & _ & S0). apply reply_case_fx; auto. }
  destruct UC as [P L ->|p1 c o P G K ->|p1 c o1 o P G K F|p1 o SD CS ->|p1 o1 o SD CS E|P RC L|p1 P RC L RT ->
                |p1 o P RC L RT E|p1 o P RC ->|p1 r o1 o P RC K E|p1 r o1 o P RC K E].
  - apply SL_hold; auto. rewrite (ti_retry _ TI P) in L. auto.
  - destruct (st_eqb (state p) SOnline) eqn:SO.
    + apply st_eqb_eq in SO. destruct (online_get _ _ _ _ _ G SO FN) as [(k & cq & Q & ->)|[(Q & -> & ->)|(Q & -> & -> & _)]].
      * apply SL_pick; auto; [constructor; reflexivity|]. right. unfold one_less. rewrite Q. simpl. rewrite zlen_cons1. reflexivity.
      * apply SL_pick; auto. constructor; reflexivity.
      * lia.
    + assert (S1 : state p <> SOnline) by (intros X; apply st_eqb_eq in X; congruence).
      destruct (other_get _ _ _ _ _ G S1 NO) as (-> & _). apply SL_pick; auto; [constructor; reflexivity|]. left. split; [reflexivity|]. congruence.
  - destruct (st_eqb (state p) SOnline) eqn:SO.
    2:{ assert (S1 : state p <> SOnline) by (intros X; apply st_eqb_eq in X; congruence). destruct (other_get _ _ _ _ _ G S1 NO) as (_ & X). lia. }
    apply st_eqb_eq in SO. destruct (get_cmd_fx _ _ _ _ _ G I) as [h1 h2 h3 h4 h5 h6 h7 h8 h9 h10].
    assert (I1 : cbinv (set_cmd_id c p1)) by (cbgi h1).
    assert (FP : fin_pre (set_cmd_id c p1)).
    { constructor; auto; simpl; rewrite ?h2, ?h3, ?h4, ?h5, ?h6; auto; try apply C. rewrite (ci_rq _ C). discriminate. }
    rewrite <- h4 in F. change (state p1) with (state (set_cmd_id c p1)) in F.
    assert (FS : state (set_cmd_id c p1) = SSetScbk -> use_scbkd (fl (set_cmd_id c p1)) = true) by (simpl; rewrite h4, SO; discriminate).
    pose proof (finish_rel _ _ _ _ _ _ _ F FP FS) as FR. pose proof (fin_fields _ _ _ _ FR) as (f1 & f2 & f3 & f4). pose proof (finish_sct _ _ _ _ _ _ _ F) as SCT.
    pose proof (finish_idle _ _ _ _ _ _ _ F FP BR) as PH. pose proof (fr_edge _ _ _ _ FR) as EG. pose proof (fr_time _ _ _ _ FR) as TM.
    destruct (ti_ev _ TI SO) as (_ & RO).
    assert (GG : rb p1 = rb p /\ tstamp p1 = tstamp p /\ phy_tstamp p1 = phy_tstamp p /\ sc_tstamp p1 = sc_tstamp p /\ rq_offline p1 = rq_offline p /\
      (cmdq p1 = cmdq p /\ e_now e - tstamp p <= 50 \/ one_less p p1)).
    { destruct (online_get _ _ _ _ _ G SO FN) as [(k & cq & Q & ->)|[(Q & -> & ->)|(Q & -> & -> & X)]].
      - repeat (split; [reflexivity|]). right. unfold one_less. rewrite Q. simpl. rewrite zlen_cons1. reflexivity.
      - lia.
      - repeat (split; [reflexivity|]). left. auto. }
    destruct GG as (g1 & g2 & g3 & g4 & g5 & g6).
    unfold edge_ok in EG. simpl in EG, TM, f1, f2, f3, SCT. rewrite h4, SO, h5, g5, RO, (ci_rq _ C) in EG.
    unfold time_move in TM. simpl in TM. rewrite h4, SO in TM.
    assert (ED : state q = SOnline \/ state q = SChlng /\ SC_RETRY < e_now e - sc_tstamp p).
    { destruct (state q); try tauto; try (destruct EG as [X|(_ & X)]; discriminate).
      right. split; [reflexivity|]. destruct EG as (_ & [X|(_ & X)]); [discriminate|]. unfold sc_should_retry in X. apply andb_prop in X. destruct X as (_ & X). simpl in X. rewrite g4 in X. lia. }
    assert (TQ : tstamp q = tstamp p1) by (destruct ED as [X|(X & _)]; rewrite X in TM; apply TM).
    apply SL_idle; auto; try congruence. unfold one_less in *. rewrite f2. exact g6.
  - assert (I1 : cbinv (set_phy_state PSend p)) by (apply cbinv_phy; auto).
    destruct (cmd_sent_fx _ _ _ _ _ I1 CS) as [s1 s2 s3 s4 s5].
    pose proof (tcore_fields _ _ s1) as (t1 & t2 & t3 & t4 & t5 & t6 & t7 & t8 & t9 & t10 & t11 & t12 & t13 & t14 & t15 & t16 & t17 & t18 & t19 & t20 & t21 & t22 & t23 & t24 & t25 & t26 & t27 & t28).
    apply SL_sent; auto. { apply sending_due; auto. } { constructor; simpl; auto. }
    change (zlen (rb_contents (rb p1)) = zlen (rb_contents (rb p))). rewrite t19. reflexivity.
  - assert (I1 : cbinv (set_phy_state PSend p)) by (apply cbinv_phy; auto).
    destruct (cmd_sent_fx _ _ _ _ _ I1 CS) as [s1 s2 s3 s4 s5].
    pose proof (tcore_fields _ _ s1) as (t1 & t2 & t3 & t4 & t5 & t6 & t7 & t8 & t9 & t10 & t11 & t12 & t13 & t14 & t15 & t16 & t17 & t18 & t19 & t20 & t21 & t22 & t23 & t24 & t25 & t26 & t27 & t28).
    simpl in t2, t4, t6, t7, t8, t9, t12, t14, t19, t20, t21.
    rewrite <- t2 in E. change (state p1) with (state (set_phy_state PErr p1)) in E.
    apply ended_move in E; simpl; rewrite ?t2, ?t4, ?t9, ?t20, ?t21; auto; try apply C; [|apply cbinv_phy; auto].
    destruct E as [e1 e2 e3 e4 e5 e6]. simpl in e2, e3, e4, e5.
    apply SL_fail; try congruence.
    + left. apply sending_due; auto.
    + rewrite e2, t19. apply unread_ring.
    + specialize (e6 eq_refl). unfold fail_move in *. simpl in e6. rewrite t2, t12, t20 in e6. exact e6.
  - pose proof (nodata_core _ _ _ _ RC C) as R0. destruct (rx_alike _ _ R0) as (r1 & r2 & r3 & r4 & r5 & r6).
    apply SL_wait; auto; try congruence; try (change RESP_TOUT with 200 in L; lia).
    + exact (reply_t _ _ _ _ _ C RC).
    + apply (proj1 (silent_reply _ _ _ _ _ C P H RC) eq_refl).
  - pose proof (nodata_core _ _ _ _ RC C) as R0. destruct (rx_alike _ _ R0) as ([r0 r0' r0''] & r2 & r3 & r4 & r5 & r6).
    change RESP_TOUT with 200 in L.
    apply SL_retry; simpl; auto; try congruence; try lia.
    + constructor; simpl; auto.
    + exact (reply_t _ _ _ _ _ C RC).
    + apply (proj1 (silent_reply _ _ _ _ _ C P H RC) eq_refl).
  - pose proof (nodata_core _ _ _ _ RC C) as R0. destruct (rx_alike _ _ R0) as ([r0 r0' r0''] & r2 & r3 & r4 & r5 & r6).
    change RESP_TOUT with 200 in L. destruct (RP _ _ _ P RC) as [c1 c2 c3 c4 c5 c6 c7 c8 c9 c10].
    destruct (wcore_fields _ _ c1) as (w1 & w2 & w3 & w4 & w5 & w6 & w7 & w8 & _).
    rewrite <- r0 in E. change (state p1) with (state (set_phy_state PErr p1)) in E.
    apply ended_move in E; simpl; rewrite ?r0, ?r3, ?r0', ?w8; auto; try apply C; [|apply cbinv_phy; auto|intros X; apply (ci_act _ C); auto].
    destruct E as [e1 e2 e3 e4 e5 e6]. simpl in e2, e3, e4, e5.
    apply SL_fail; try congruence.
    + right. split; [auto|lia].
    + rewrite e2. pose proof (proj1 (silent_reply _ _ _ _ _ C P H RC) eq_refl). pose proof (ring_pending p1). unfold unread. rewrite P. lia.
    + destruct (reply_t _ _ _ _ _ C RC) as [X|X]; destruct e5 as [Y|Y]; rewrite Y; auto.
    + specialize (e6 eq_refl). unfold fail_move in *. simpl in e6. rewrite r0, r0', r2 in e6. exact e6.
  - destruct (RP _ _ _ P RC) as [c1 c2 c3 c4 c5 c6 c7 c8 c9 c10].
    destruct (wcore_fields _ _ c1) as (w1 & w2 & w3 & w4 & w5 & w6 & w7 & w8 & w9 & w10 & _).
    apply SL_read; simpl; auto.
    + unfold unread. rewrite P. apply (silent_reply _ _ _ _ _ C P H RC). discriminate.
    + exact (reply_t _ _ _ _ _ C RC).
  - destruct (RP _ _ _ P RC) as [c1 c2 c3 c4 c5 c6 c7 c8 c9 c10].
    destruct (wcore_fields _ _ c1) as (w1 & w2 & w3 & w4 & w5 & w6 & w7 & w8 & w9 & w10 & _).
    assert (SF : exists a b, stamped e r p1 = set_tstamp a (set_sc_tstamp b p1) /\ (a = tstamp p1 \/ a = e_now e)).
    { clear. unfold stamped. destruct r; [exists (e_now e)|exists (tstamp p1)..]; destruct (sc_active _); [exists (e_now e)|exists (sc_tstamp p1)|..];
        try (split; [destruct p1; reflexivity|auto]). all: first [exists (e_now e); split; [destruct p1; reflexivity|auto]|exists (sc_tstamp p1); split; [destruct p1; reflexivity|auto]]. }
    destruct SF as (a & b & ES & AA). rewrite ES in E.
    rewrite <- w2 in E. change (state p1) with (state (set_phy_state PDone (set_tstamp a (set_sc_tstamp b p1)))) in E.
    apply ended_move in E; simpl; rewrite ?w2, ?w4, ?w8; auto; try apply C; [|cbgi c2|intros X; apply (ci_act _ C); auto|intros X; apply c6; apply (ci_set _ C X)].
    destruct E as [e1 e2 e3 e4 e5 _]. simpl in e2, e3, e4, e5.
    apply SL_read; [exact P|left; exact e1| |congruence|left; congruence|].
    + unfold unread. rewrite P, e2. apply (silent_reply _ _ _ _ _ C P H RC). destruct K as [->|(-> & _)]; discriminate.
    + destruct (reply_t _ _ _ _ _ C RC) as [X|X]; destruct e5 as [Y|Y]; rewrite Y; auto; destruct AA as [-> | ->]; auto.
  - destruct (RP _ _ _ P RC) as [c1 c2 c3 c4 c5 c6 c7 c8 c9 c10].
    destruct (wcore_fields _ _ c1) as (w1 & w2 & w3 & w4 & w5 & w6 & w7 & w8 & w9 & w10 & _).
    rewrite <- w2 in E. change (state p1) with (state (set_phy_state PErr p1)) in E.
    apply ended_move in E; simpl; rewrite ?w2, ?w4, ?w8; auto; try apply C; [|cbgi c2|intros X; apply (ci_act _ C); auto|intros X; apply c6; apply (ci_set _ C X)].
    destruct E as [e1 e2 e3 e4 e5 _]. simpl in e2, e3, e4, e5.
    apply SL_read; [exact P|left; exact e1| |congruence|left; congruence|].
    + unfold unread. rewrite P, e2. apply (silent_reply _ _ _ _ _ C P H RC). destruct K as [->|(-> & _)]; discriminate.
    + destruct (reply_t _ _ _ _ _ C RC) as [X|X]; destruct e5 as [Y|Y]; rewrite Y; auto.
Qed.

(** * How long it can go on *)
Definition base (g t : Z) (p : pd) : Z :=
  match phy_state p with
  | PSend => t + g + (8 - retry p) * (1000 + 2 * g) + 200 + g
  | PReplyWait => Z.max t (phy_tstamp p + 200) + g + (8 - retry p) * (1000 + 2 * g)
  | PWait => Z.max t (phy_tstamp p + 800) + g + (200 + g) + (8 - retry p) * (1000 + 2 * g)
  | _ => match state p with SOnline => Z.max t (tstamp p + 50) | _ => t end + 2 * g + 8 * (1000 + 2 * g) + 200 + g
  end.
Definition rank (p : pd) : Z :=
  match state p with
  | SInit | SCapdet | SOffline => 0
  | SChlng => if use_scbkd (fl p) then 1 else 2
  | SScrypt | SSetScbk => 4
  | SOnline => match phy_state p with
               | PIdle => if sc_tstamp p + SC_RETRY <? tstamp p + 50 then 3 else 0
               | _ => if cmd_id p =? 117 then 3 else 0
               end
  end.
Definition burden (p : pd) : Z := unread p + zlen (cmdq p).
Definition limit (g t : Z) (p : pd) : Z := base g t p + one_exchange g * rank p + 5 * one_exchange g * burden p.
Definition clk (t : Z) (p : pd) : Prop := tstamp p <= t /\ phy_tstamp p <= t.

Lemma rank_range p : 0 <= rank p <= 4.
Proof. unfold rank. destruct (state p), (phy_state p); try lia; repeat match goal with |- context [if ?b then _ else _] => destruct b end; lia. Qed.
Lemma base_high g t p : 0 <= g -> 0 <= retry p <= 8 -> clk t p -> base g t p <= t + one_exchange g.
Proof. intros G R (A & B). unfold base, one_exchange. assert ((8 - retry p) * (1000 + 2 * g) <= 8 * (1000 + 2 * g)) by nia. destruct (phy_state p), (state p); lia. Qed.
Lemma base_low g t p : 0 <= g -> 0 <= retry p <= 8 -> t + g <= base g t p.
Proof. intros G R. unfold base. assert (0 <= (8 - retry p) * (1000 + 2 * g)) by nia. destruct (phy_state p), (state p); lia. Qed.
Lemma exchange_pos g : 0 <= g -> 0 < one_exchange g.
Proof. unfold one_exchange. lia. Qed.
Lemma burden_pos p : 0 <= burden p.
Proof. unfold burden. pose proof (unread_pos p). pose proof (Zle_0_nat (length (cmdq p))). unfold zlen. lia. Qed.
(* one unit of burden pays for everything else *)
Lemma limit_less g t t' p q : 0 <= g -> 0 <= retry p <= 8 -> 0 <= retry q <= 8 -> clk t' q -> t' <= t + g -> burden q < burden p -> limit g t' q <= limit g t p.
Proof.
  intros G R1 R2 C T B. unfold limit. pose proof (base_high g t' q G R2 C). pose proof (base_low g t p G R1). pose proof (rank_range p). pose proof (rank_range q). pose proof (exchange_pos g G).
  assert (one_exchange g * rank q <= one_exchange g * 4) by nia. assert (0 <= one_exchange g * rank p) by nia.
  assert (5 * one_exchange g * burden q + 5 * one_exchange g <= 5 * one_exchange g * burden p) by nia. lia.
Qed.
(* one rank pays for one exchange *)
Lemma limit_rank g t t' p q : 0 <= g -> 0 <= retry p <= 8 -> 0 <= retry q <= 8 -> clk t' q -> t' <= t + g -> burden q <= burden p -> rank q < rank p -> limit g t' q <= limit g t p.
Proof.
  intros G R1 R2 C T B RK. unfold limit. pose proof (base_high g t' q G R2 C). pose proof (base_low g t p G R1). pose proof (exchange_pos g G).
  assert (one_exchange g * rank q + one_exchange g <= one_exchange g * rank p) by nia.
  assert (5 * one_exchange g * burden q <= 5 * one_exchange g * burden p) by nia. lia.
Qed.
Lemma limit_base g t t' p q : 0 <= g -> burden q <= burden p -> rank q <= rank p -> base g t' q <= base g t p -> limit g t' q <= limit g t p.
Proof.
  intros G B RK L. unfold limit. pose proof (exchange_pos g G).
  assert (one_exchange g * rank q <= one_exchange g * rank p) by nia.
  assert (5 * one_exchange g * burden q <= 5 * one_exchange g * burden p) by nia. lia.
Qed.

Lemma sil_clk e t p q : sil e p q -> clk t p -> t <= e_now e -> clk (e_now e) q.
Proof.
  intros S (A & B) T. unfold clk. destruct S; subst; repeat match goal with H : _ \/ _ |- _ => destruct H end; try lia; try (destruct H; lia); lia.
Qed.
Lemma sil_limit e g t p q : sil e p q -> 0 <= g -> 0 <= retry p <= 8 -> 0 <= retry q <= 8 -> clk t p -> t <= e_now e <= t + g -> state q <> SOffline ->
  limit g (e_now e) q <= limit g t p.
Proof.
  intros S G R1 R2 C T NO. pose proof (sil_clk _ _ _ _ S C ltac:(lia)) as C'.
  destruct S as [P L ->|P Pq [A1 A2 A3] Re Rb Pt Ts Q|P Pq So Rb Ts Pt Sc Sq Q|D Pq [A1 A2 A3] Ci Re Pt Ts Q Pn|P Pq L [A1 A2 A3] Ci Re Pt Ts Q Pn|P Pq L Rt [A1 A2 A3] Ci Re Pt Ts Q Pn
                |D Pq U Q Pt Ts F|P Pq U Q Pt Ts].
  - apply limit_base; auto; try lia. unfold base. rewrite P. lia.
  - assert (U : unread q = unread p) by (unfold unread; rewrite P, Pq, Rb; reflexivity).
    destruct Q as [(Q & Ci)|Q].
    + apply limit_base; auto; [unfold burden; rewrite Q; lia| |].
      * unfold rank. rewrite A1, A2, Pq, P. destruct (state p); try lia. rewrite (Ci eq_refl). change (96 =? 117) with false. cbv iota. destruct (_ <? _); lia.
      * unfold base. rewrite P, Pq, Re. assert ((8 - retry p) * (1000 + 2 * g) <= 8 * (1000 + 2 * g)) by nia. destruct (state p); lia.
    + apply limit_less; auto; try lia. unfold burden, one_less in *. lia.
  - assert (U : unread q = unread p) by (unfold unread; rewrite P, Pq, Rb; reflexivity).
    destruct Q as [(Q & Du)|Q].
    + destruct Sq as [Sq|(Sq & Sr)].
      * apply limit_base; auto; [unfold burden; rewrite Q; lia| |].
        -- unfold rank. rewrite So, Sq, P, Pq, Sc, Ts. lia.
        -- unfold base. rewrite So, Sq, P, Pq, Ts. lia.
      * apply limit_rank; auto; try lia; [unfold burden; rewrite Q; lia|]. unfold rank. rewrite So, Sq, P.
        replace (sc_tstamp p + SC_RETRY <? tstamp p + 50) with true by lia. destruct (use_scbkd (fl q)); lia.
    + apply limit_less; auto; try lia. unfold burden, one_less in *. lia.
  - assert (U : unread q <= unread p). { unfold unread at 1. rewrite Pq, Pn. apply unread_ring. }
    apply limit_base; auto; [unfold burden; rewrite Q; lia| |].
    + unfold rank. rewrite A1, A2, Ci, Pq. destruct D as [P|(P & _)]; rewrite P; lia.
    + unfold base. rewrite Pq, Re, Pt. destruct D as [P|(P & X)]; rewrite P; lia.
  - assert (U : unread q <= unread p). { unfold unread. rewrite Pq, P. exact Pn. }
    apply limit_base; auto; [unfold burden; rewrite Q; lia| |].
    + unfold rank. rewrite A1, A2, Ci, Pq, P. lia.
    + unfold base. rewrite Pq, Re, Pt, P. lia.
  - assert (U : unread q <= unread p). { unfold unread. rewrite Pq, P. pose proof (ring_pending q). lia. }
    apply limit_base; auto; [unfold burden; rewrite Q; lia| |].
    + unfold rank. rewrite A1, A2, Ci, Pq, P. lia.
    + unfold base. rewrite Pq, Re, Pt, P. lia.
  - assert (U2 : unread q <= unread p). { unfold unread at 1. rewrite Pq. exact U. }
    apply limit_rank; auto; try lia; [unfold burden; rewrite Q; lia|].
    assert (NI : phy_state p <> PIdle) by (intros X; unfold due in D; rewrite X in D; destruct D as [[D|(D & _)]|(D & _)]; discriminate).
    unfold rank. rewrite Pq.
    destruct F as [F|[(F1 & F2 & F3 & F4)|[(F1 & F2 & F3)|[(F1 & F2)|(F1 & F2 & F3)]]]].
    + contradiction.
    + rewrite F1, F2, F3, F4. lia.
    + rewrite F1, F2, F3. replace (e_now e + SC_RETRY <? tstamp q + 50) with false. { destruct (use_scbkd (fl p)); lia. }
      destruct C' as (C1 & _). change SC_RETRY with 600000. lia.
    + rewrite F1, F2. destruct (_ <? _); lia.
    + rewrite F1, F2, F3. change (117 =? 117) with true. destruct (phy_state p); try contradiction; destruct (use_scbkd (fl q)); lia.
  - apply limit_less; auto; try lia. unfold burden. rewrite Q. assert (unread q < unread p); [|lia].
    unfold unread at 1. destruct Pq as [-> |(-> & _)]; exact U.
Qed.

(** * Clock readings that an entry keeps *)
Lemma ended_clk e p p1 ok x o1 q o : cpi p -> phy_running p = true -> ended e (state p) ok (set_phy_state x p1) o1 q o -> cbinv p1 -> bytes (e_rand e) ->
  state p1 = state p -> retry p1 = retry p -> rq_restart p1 = rq_restart p -> (sc_active (fl p1) = true -> sc_active (fl p) = true) ->
  (use_scbkd (fl p) = true -> use_scbkd (fl p1) = true) -> phy_tstamp q = phy_tstamp p1 /\ (tstamp q = tstamp p1 \/ tstamp q = e_now e).
Proof.
  intros C PR E I B S R RQ A U. rewrite <- S in E. change (state p1) with (state (set_phy_state x p1)) in E.
  apply ended_move in E; simpl; rewrite ?S, ?R, ?RQ; auto; try apply C.
  - destruct E as [e1 e2 e3 e4 e5 e6]. auto.
  - apply cbinv_phy; auto.
  - intros X. apply (ci_act _ C); auto.
  - intros X. apply U. apply (ci_set _ C X).
  - intros X. pose proof (ci_cmd _ C PR) as Y. unfold cmd_of_state in Y. rewrite X in Y. exact Y.
Qed.
Lemma upd_clk e p q rc o : cpi p -> env_typed e -> state_update e p = Ok (q, rc, o) ->
  (phy_tstamp q = phy_tstamp p \/ phy_tstamp q = e_now e) /\ (tstamp q = tstamp p \/ tstamp q = e_now e).
Proof.
  intros C ET U. pose proof (cpi_case _ _ _ _ _ C ET U) as UC. clear U.
  assert (BR : bytes (e_rand e)) by apply ET. pose proof (ci_b _ C) as I.
  assert (RP : forall p1 r o1, phy_state p = PReplyWait -> reply_case e p p1 r o1 -> reply_fx e p p1 r o1).
  { intros p1 r o1 P R. destruct (ci_rx _ C P) as (W & _ & S0). apply reply_case_fx; auto. }
  assert (PR : phy_state p = PReplyWait -> phy_running p = true) by (intros P; unfold phy_running; rewrite P; reflexivity).
  destruct UC as [P L ->|p1 c o P G K ->|p1 c o1 o P G K F|p1 o SD CS ->|p1 o1 o SD CS E|P RC L|p1 P RC L RT ->
                |p1 o P RC L RT E|p1 o P RC ->|p1 r o1 o P RC K E|p1 r o1 o P RC K E].
  - auto.
  - simpl. pose proof (get_cmd_picked _ _ _ _ _ G) as X. destruct X as [k cq _ _ -> _ _|f _ _ -> _|f _ _ -> _ _|f _ _ -> _ _|_ -> _]; simpl; auto.
  - destruct (get_cmd_fx _ _ _ _ _ G I) as [h1 h2 h3 h4 h5 h6 h7 h8 h9 h10].
    assert (I1 : cbinv (set_cmd_id c p1)) by (cbgi h1).
    assert (FP : fin_pre (set_cmd_id c p1)).
    { constructor; auto; simpl; rewrite ?h2, ?h3, ?h4, ?h5, ?h6; auto; try apply C. rewrite (ci_rq _ C). discriminate. }
    rewrite <- h4 in F. change (state p1) with (state (set_cmd_id c p1)) in F.
    assert (FS : state (set_cmd_id c p1) = SSetScbk -> use_scbkd (fl (set_cmd_id c p1)) = true) by (simpl; rewrite h4, h6; intros X; apply (ci_set _ C X)).
    pose proof (finish_rel _ _ _ _ _ _ _ F FP FS) as FR. pose proof (fin_fields _ _ _ _ FR) as (f1 & f2 & f3 & f4). simpl in f3, f4.
    pose proof (get_cmd_picked _ _ _ _ _ G) as X. rewrite f3. destruct X as [k cq _ _ -> _ _|f _ _ -> _|f _ _ -> _ _|f _ _ -> _ _|_ -> _]; simpl in *; auto. split; auto. destruct f4; auto.
  - assert (I1 : cbinv (set_phy_state PSend p)) by (apply cbinv_phy; auto). destruct (cmd_sent_fx _ _ _ _ _ I1 CS) as [s1 s2 s3 s4 s5].
    split; [right; reflexivity|]. left. exact (f_equal (fun x => tstamp x) s1).
  - assert (I1 : cbinv (set_phy_state PSend p)) by (apply cbinv_phy; auto). destruct (cmd_sent_fx _ _ _ _ _ I1 CS) as [s1 s2 s3 s4 s5].
    pose proof (tcore_fields _ _ s1) as (t1 & t2 & t3 & t4 & t5 & t6 & t7 & t8 & t9 & t10 & t11 & t12 & t13 & t14 & t15 & t16 & t17 & t18 & t19 & t20 & t21 & _).
    simpl in t2, t4, t6, t8, t9, t20, t21.
    destruct (ended_clk _ _ _ _ _ _ _ _ C (sending_phy _ _ SD) E s2 BR t2 t4 t9) as (a & b); try congruence. rewrite a, t8. rewrite t6 in b. auto.
  - destruct (RP _ _ _ P RC) as [c1 c2 c3 c4 c5 c6 c7 c8 c9 c10]. destruct (wcore_fields _ _ c1) as (w1 & w2 & w3 & w4 & w5 & w6 & w7 & w8 & _).
    split; [left; exact w7|exact (reply_t _ _ _ _ _ C RC)].
  - split; [right; reflexivity|exact (reply_t _ _ _ _ _ C RC)].
  - destruct (RP _ _ _ P RC) as [c1 c2 c3 c4 c5 c6 c7 c8 c9 c10]. destruct (wcore_fields _ _ c1) as (w1 & w2 & w3 & w4 & w5 & w6 & w7 & w8 & _).
    destruct (ended_clk _ _ _ _ _ _ _ _ C (PR P) E c2 BR w2 w4 w8 c7 c6) as (a & b). rewrite a, w7. split; [auto|]. destruct (reply_t _ _ _ _ _ C RC), b; first [left; congruence|right; congruence].
  - split; [right; reflexivity|exact (reply_t _ _ _ _ _ C RC)].
  - destruct (RP _ _ _ P RC) as [c1 c2 c3 c4 c5 c6 c7 c8 c9 c10]. destruct (wcore_fields _ _ c1) as (w1 & w2 & w3 & w4 & w5 & w6 & w7 & w8 & _).
    assert (SF : exists a b, stamped e r p1 = set_tstamp a (set_sc_tstamp b p1) /\ (a = tstamp p1 \/ a = e_now e)).
    { clear. unfold stamped. destruct r; [exists (e_now e)|exists (tstamp p1)..]; destruct (sc_active _); [exists (e_now e)|exists (sc_tstamp p1)|..];
        try (split; [destruct p1; reflexivity|auto]). all: first [exists (e_now e); split; [destruct p1; reflexivity|auto]|exists (sc_tstamp p1); split; [destruct p1; reflexivity|auto]]. }
    destruct SF as (a & b & ES & AA). rewrite ES in E.
    assert (I3 : cbinv (set_tstamp a (set_sc_tstamp b p1))) by (cbgi c2).
    destruct (ended_clk _ _ _ _ _ _ _ _ C (PR P) E I3 BR w2 w4 w8 c7 c6) as (x & y). simpl in x, y. rewrite x, w7. split; [auto|].
    destruct (reply_t _ _ _ _ _ C RC), y, AA; first [left; congruence|right; congruence].
  - destruct (RP _ _ _ P RC) as [c1 c2 c3 c4 c5 c6 c7 c8 c9 c10]. destruct (wcore_fields _ _ c1) as (w1 & w2 & w3 & w4 & w5 & w6 & w7 & w8 & _).
    destruct (ended_clk _ _ _ _ _ _ _ _ C (PR P) E c2 BR w2 w4 w8 c7 c6) as (a & b). rewrite a, w7. split; [auto|]. destruct (reply_t _ _ _ _ _ C RC), b; first [left; congruence|right; congruence].
Qed.

Lemma other_clk c p q o : cp_call_typed c -> cp_do c p = Ok (q, o) -> (forall e, c <> Update e) -> tstamp q = tstamp p /\ phy_tstamp q = phy_tstamp p.
Proof.
  intros T H N. destruct c as [e|e c| |enf inst ign other do_set| |]; cbn [cp_do] in H.
  - exfalso. exact (N e eq_refl).
  - destruct (cp_send_command e p c) as [[p1 ok] o1] eqn:E. destruct (send_fx _ _ _ _ _ _ E) as ((cq & f & -> & _) & _). injection H as <- _. split; reflexivity.
  - injection H as <- _. split; reflexivity.
  - injection H as <- _. unfold cp_modify_flag. destruct other; [split; reflexivity|]. destruct enf, inst, ign; split; reflexivity.
  - injection H as <- _. unfold file_register_ops. split; destruct (file p); reflexivity.
  - injection H as <- _. split; reflexivity.
Qed.
Lemma new_clk k n i p : new_pd k n i = Some p -> tstamp p = 0 /\ phy_tstamp p = 0.
Proof.
  intros H. unfold new_pd in H. cbv zeta in H. destruct (i_scbk i).
  - injection H as <-. split; reflexivity.
  - destruct (enforce _); [discriminate|]. injection H as <-. split; reflexivity.
Qed.
Lemma runs_clk k n i h p t : cp_runs k n i h p -> Forall (by_then t) h -> 0 <= t -> clk t p.
Proof.
  intros R F T0. induction R as [p T N|h p c q o R IH T H].
  - destruct (new_clk _ _ _ _ N) as (a & b). split; lia.
  - inversion F as [|? ? F1 F2]; subst. specialize (IH F2). destruct IH as (i1 & i2). destruct c as [e|e c| |enf inst ign other do_set| |].
    { cbn [cp_do] in H. destruct (state_update e p) as [[[p1 rc] o1]| |] eqn:U; cbn [bind] in H; try discriminate. injection H as <- _.
      destruct (upd_clk _ _ _ _ _ (cp_runs_inv _ _ _ _ _ R) T U) as (a & b). cbn in F1. simpl. split; [destruct b|destruct a]; lia. }
    all: destruct (other_clk _ _ _ _ T H ltac:(discriminate)) as (a & b); split; lia.
Qed.

(** * The whole stretch *)
Lemma reach_step p e q o : cp_reach p -> env_typed e -> cp_do (Update e) p = Ok (q, o) -> cp_reach q.
Proof. intros (k & n & i & h & R) T D. exists k, n, i, (mkCe p (Update e) o :: h). econstructor; eauto. Qed.
Lemma update_steady p e q o : cp_reach p -> steady p -> env_typed e -> cp_do (Update e) p = Ok (q, o) -> steady q.
Proof. intros R S T D. destruct (cp_do_update _ _ _ _ D) as (rc & U). pose proof (cp_reach_inv _ R) as I. eapply upd_steady; eauto. eapply cpi_case; eauto. Qed.
Lemma seg_limit g : 0 <= g -> forall p l q, cp_seg p l q -> forall t es, refreshes l es -> cp_reach p -> steady p -> clk t p -> paced g t es ->
  was_offline l q \/ last_time t es <= limit g t p.
Proof.
  intros G p l q S. induction S as [p|p c q o l r T D S IH]; intros t es E R ST C P.
  - destruct es; [|discriminate E]. right. cbn [last_time]. pose proof (base_low g t p G (ci_retry _ (cp_reach_inv _ R))). unfold limit. pose proof (rank_range p). pose proof (burden_pos p). pose proof (exchange_pos g G).
    assert (0 <= one_exchange g * rank p) by nia. assert (0 <= 5 * one_exchange g * burden p) by nia. lia.
  - destruct es as [|e es]; [discriminate E|]. unfold refreshes in E. cbn [map ce_call] in E. injection E as -> E. destruct P as (P1 & P2 & P3). cbn [last_time].
    destruct (st_eqb (state p) SOffline) eqn:SO.
    { apply st_eqb_eq in SO. left. right. constructor 1. exact SO. }
    assert (NO : state p <> SOffline) by (intros X; apply st_eqb_eq in X; congruence).
    destruct (st_eqb (state q) SOffline) eqn:SQ.
    { apply st_eqb_eq in SQ. left. destruct S as [q|q c2 q2 o2 l2 r2 T2 D2 S2]; [left; exact SQ|]. right. constructor 2. constructor 1. exact SQ. }
    assert (NQ : state q <> SOffline) by (intros X; apply st_eqb_eq in X; congruence).
    destruct (cp_do_update _ _ _ _ D) as (rc & U). pose proof (cp_reach_inv _ R) as I.
    pose proof (upd_sil _ _ _ _ _ I (cp_reach_tinv _ R) ST T P2 NO U) as SL. pose proof (reach_step _ _ _ _ R T D) as Rq.
    destruct (IH (e_now e) es E Rq (update_steady _ _ _ _ R ST T D) (sil_clk _ _ _ _ SL C ltac:(lia)) P3) as [W|W].
    + left. destruct W as [W|W]; [left; auto|right; constructor 2; auto].
    + right. pose proof (sil_limit _ g t _ _ SL G (ci_retry _ I) (ci_retry _ (cp_reach_inv _ Rq)) C P1 NQ). lia.
Qed.
Lemma limit_high g t p : 0 <= g -> 0 <= retry p <= 8 -> clk t p -> limit g t p <= t + 5 * one_exchange g * (1 + zlen (pending p) + zlen (cmdq p)).
Proof.
  intros G R C. unfold limit. pose proof (base_high g t p G R C). pose proof (rank_range p). pose proof (exchange_pos g G). pose proof (unread_le p). unfold burden.
  assert (one_exchange g * rank p <= one_exchange g * 4) by nia.
  assert (5 * one_exchange g * (unread p + zlen (cmdq p)) <= 5 * one_exchange g * (zlen (pending p) + zlen (cmdq p))) by nia. lia.
Qed.
Theorem gives_up_in_time k n i h p g t es l q : cp_runs k n i h p -> Forall (fun x => careful_cp (ce_call x)) h -> Forall (by_then t) h -> 0 <= t -> 0 <= g ->
  cp_seg p l q -> refreshes l es -> paced g t es -> t + 5 * one_exchange g * (1 + zlen (pending p) + zlen (cmdq p)) < last_time t es -> was_offline l q.
Proof.
  intros R F B T G S E P L. pose proof (runs_clk _ _ _ _ _ _ R B T) as C. assert (Rp : cp_reach p) by (exists k, n, i, h; exact R).
  destruct (seg_limit g G p l q S t es E Rp (runs_steady _ _ _ _ _ R F) C P) as [W|W]; [exact W|].
  pose proof (limit_high g t p G (ci_retry _ (cp_reach_inv _ Rp)) C). lia.
Qed.

(* nothing unread and nothing heard: nothing can bring the panel down *)
Lemma sil_unread e p q : sil e p q -> unread q <= unread p.
Proof.
  intros S. destruct S as [P L ->|P Pq A Re Rb Pt Ts Q|P Pq So Rb Ts Pt Sc Sq Q|D Pq A Ci Re Pt Ts Q Pn|P Pq L A Ci Re Pt Ts Q Pn|P Pq L Rt A Ci Re Pt Ts Q Pn|D Pq U Q Pt Ts F|P Pq U Q Pt Ts].
  - lia.
  - unfold unread. rewrite P, Pq, Rb. lia.
  - unfold unread. rewrite P, Pq, Rb. lia.
  - unfold unread at 1. rewrite Pq, Pn. apply unread_ring.
  - unfold unread. rewrite Pq, P. exact Pn.
  - unfold unread. rewrite Pq, P. pose proof (ring_pending q). lia.
  - unfold unread at 1. rewrite Pq. exact U.
  - unfold unread at 1. destruct Pq as [-> |(-> & _)]; lia.
Qed.
Lemma offline_unread e p q o : cp_reach p -> env_typed e -> state p = SOffline -> cp_do (Update e) p = Ok (q, o) -> rb q = rb p /\ phy_state q = PIdle.
Proof.
  intros R T S D. pose proof (cp_reach_inv _ R) as C. destruct (offline_idle _ C S) as (P & _).
  destruct (cp_do_update _ _ _ _ D) as (rc & U). pose proof (cpi_case _ _ _ _ _ C T U) as UC. pose proof (ci_b _ C) as I.
  assert (G : forall p1 c o1, state_get_cmd e p = Ok (p1, c, o1) -> p1 = p /\ c = -1 /\ o1 = []).
  { intros p1 c o1 G. unfold state_get_cmd in G. rewrite S in G. injection G as <- <- <-. auto. }
  destruct UC as [X L _|p1 c o0 _ X K _|p1 c o1 o0 _ X K F|p1 o0 X CS _|p1 o1 o0 X CS E|X RC L|p1 X RC L RT _
                |p1 o0 X RC L RT E|p1 o0 X RC _|p1 r o1 o0 X RC K E|p1 r o1 o0 X RC K E]; try congruence.
  - destruct (G _ _ _ X) as (_ & -> & _). lia.
  - destruct (G _ _ _ X) as (-> & -> & ->).
    assert (FP : fin_pre (set_cmd_id (-1) p)).
    { constructor; simpl; auto; try apply C; [cbgi I|]. rewrite (ci_rq _ C). discriminate. }
    change (state p) with (state (set_cmd_id (-1) p)) in F.
    assert (FS : state (set_cmd_id (-1) p) = SSetScbk -> use_scbkd (fl (set_cmd_id (-1) p)) = true) by (simpl; rewrite S; discriminate).
    pose proof (finish_rel _ _ _ _ _ _ _ F FP FS) as FR. pose proof (fin_fields _ _ _ _ FR) as (f1 & _). split; [exact f1|].
    exact (finish_idle _ _ _ _ _ _ _ F FP (proj1 (proj2 T))).
  - destruct X as [X|(X & _)]; congruence.
  - destruct X as [X|(X & _)]; congruence.
Qed.
Lemma quiet_goes_on e p : cp_reach p -> steady p -> env_typed e -> heard (e_rx e) = [] -> unread p = 0 ->
  exists q o, cp_do (Update e) p = Ok (q, o) /\ unread q = 0.
Proof.
  intros R S T H U. pose proof (cp_reach_inv _ R) as I.
  assert (X : exists q rc o, state_update e p = Ok (q, rc, o)).
  { destruct (update_total e p I S T) as [X|(P & X)]; [exact X|]. exfalso. unfold unread in U. rewrite P in U.
    assert (A : arrived e p = []) by (rewrite (arrived_none _ _ H); destruct (pending p); [reflexivity|rewrite zlen_cons1 in U; pose proof (Zle_0_nat (length l)); unfold zlen in U; lia]).
    destruct X as [(noise & f & E & _)|(f & HD & _)].
    - rewrite A in E. destruct noise; discriminate E.
    - destruct HD as (Sh & noise & mk & rest & E & _). rewrite A in E. destruct (shape_som _ _ Sh) as (x & ->). destruct noise; [|discriminate E]. destruct mk; discriminate E. }
  destruct X as (q & rc & o & X). exists q, o. assert (D : cp_do (Update e) p = Ok (q, o)) by (cbn [cp_do]; rewrite X; reflexivity).
  split; [exact D|]. pose proof (unread_pos q). enough (unread q <= unread p) by lia.
  destruct (st_eqb (state p) SOffline) eqn:SO.
  - apply st_eqb_eq in SO. destruct (offline_unread _ _ _ _ R T SO D) as (a & b). destruct (offline_idle _ I SO) as (P & _). unfold unread. rewrite a, b, P. lia.
  - apply (sil_unread e). refine (upd_sil _ _ _ _ _ I (cp_reach_tinv _ R) S T H _ X). intros Y; apply st_eqb_eq in Y; congruence.
Qed.
Theorem silence_runs es : forall p, cp_reach p -> steady p -> unread p = 0 -> Forall env_typed es -> Forall (fun e => heard (e_rx e) = []) es ->
  exists l q, cp_seg p l q /\ refreshes l es.
Proof.
  induction es as [|e es IH]; intros p R S U T H.
  - exists [], p. split; constructor.
  - apply Forall_cons_iff in T. apply Forall_cons_iff in H. destruct T as (T1 & T2), H as (H1 & H2). destruct (quiet_goes_on e p R S T1 H1 U) as (q & o & D & U2).
    destruct (IH q (reach_step _ _ _ _ R T1 D) (update_steady _ _ _ _ R S T1 D) U2 T2 H2) as (l & z & SG & RF).
    exists (mkCe p (Update e) o :: l), z. split; [exact (cseg_cons p (Update e) q o l z T1 D SG)|]. unfold refreshes in *. cbn [map ce_call]. rewrite RF. reflexivity.
Qed.
