(** Panel and device at work: an answer, the end of an exchange, commands and events. *)
From Verif Require Import Base ListLemmas Crc SpecCrc CrcProofs CrcBurst Aes AesProofs Rb RbProofs
  Types Sc ScProofs Phy PhyCheck File Pd Cp PdRun SpecRx SpecFrame SpecSec SpecSession SpecCmd SpecApp SpecPd SpecLink RxProofs RxFwd PdRx PdCore PhyTx PdTx PdReply
  PdStep PdWire PdFwd PdSec PdApp PdTrace PdHist2 MacProofs WireSec CpCtx SpecCp SpecCpRun CpTx CpRx CpStep CpInv CpEdge CpFacts CpSum CpFwd Chunk Trip ChunkRun LinkProofs LinkStep CpSend SpecTalk Hand Line Talk Talk2 Talk3 Talk4 Talk5 PdPlain PdRefuse SpecLost Lost Lost2 SpecHand SpecRun Run1 Run2.
From Coq Require Import ZifyBool ZifyNat.
Ltac Zify.zify_post_hook ::= Z.div_mod_to_equations.
Local Opaque aes_ecb_encrypt aes_cbc_encrypt aes_cbc_decrypt mac_of RB_SIZE osdp_mac enc1 osdp_encrypt encrypt_data cap_entries.


Lemma link_refl p : same_link p p.
Proof. repeat split; reflexivity. Qed.
Lemma link_trans p q r : same_link p q -> same_link q r -> same_link p r.
Proof. intros (a & b & c & d) (a' & b' & c' & d'). repeat split; congruence. Qed.

(* waiting *)
Lemma phase_wait e s fc fe : steady (n_c s) (n_p s) -> phase s fc fe -> phy_state (n_c s) = PReplyWait -> nothing e -> (to_p s <> [] \/ to_c s <> [] -> e_now e - n_at s <= 200) -> stepped s fc fe (AUpdate e).
Proof.
  destruct s as [c p t tp tc]. cbn [n_c n_p to_p to_c n_at]. intros SD PS P [ET HN] TM.
  assert (U : cp_do (Update e) c = Ok (c, [])).
  { unfold cp_do. rewrite pan_none; [reflexivity|exact P|apply SD|exact HN|].
    inversion PS as [(H & _)|j (H & _)|j (H1 & H2 & H3 & H4 & H5 & H6 & _)|r (H1 & H2 & H3 & H4 & H5 & H6 & _)]; cbn [n_c n_p to_p to_c n_at] in *; try congruence; rewrite H6; apply TM; auto. }
  exists (mkNet c p t tp tc), [], fc, fe. split; [split; [cbn [act n_c]; rewrite U, bind_Ok; cbn [fst snd on_wire flat_map app n_p n_at to_p to_c]; rewrite (none_left e tc HN), app_nil_r; reflexivity|first [reflexivity|exact Logic.I]]|].
  split; [exact SD|]. split; [exact PS|]. cbn [app_calls told_events flat_map app cmds_of events_of n_c n_p]. rewrite !app_nil_r. repeat split; reflexivity.
Qed.
Lemma phase_rest e s fc fe : steady (n_c s) (n_p s) -> phase s fc fe -> in_session e (n_p s) -> heard (e_rx e) = [] -> stepped s fc fe (ARefresh e).
Proof.
  destruct s as [c p t tp tc]. cbn [n_c n_p to_p to_c n_at]. intros SD PS S HN.
  assert (U : pd_do (Refresh e) p = Ok (p, [])) by (apply dev_none; [apply SD|exact S|exact HN]).
  exists (mkNet c p t tp tc), [], fc, fe. split; [split; [cbn [act n_p]; rewrite U, bind_Ok; cbn [fst snd on_wire flat_map app n_c n_at to_p to_c]; rewrite (none_left e tp HN), app_nil_r; reflexivity|first [reflexivity|exact Logic.I]]|].
  split; [exact SD|]. split; [exact PS|]. cbn [app_calls told_events flat_map app cmds_of events_of n_c n_p]. rewrite !app_nil_r. repeat split; reflexivity.
Qed.

(* the device answers *)
Lemma turn e c p p1 d p3 oc pay w0 : pd_inv p -> hears e w0 -> in_session e p -> takes p [] e d p1 -> line_reply c p1 -> quiet c -> rb_contents (rb p1) = [] -> bytes d ->
  decode_command e p1 d = Ok (p3, RNone, oc) -> same_link p1 p3 -> rb p3 = rb p1 -> in_sc_handshake true (reply_id p3) = false ->
  ~ (cmd_id p3 = CMD_KEYSET /\ reply_id p3 = REPLY_ACK) -> fits (tx_buf_size p3) (sc_active (fl p3)) pay -> nth 0 pay 0 <> 121 ->
  (forall y smb m, reply_id y = reply_id p3 -> eph y = eph p3 -> caps y = caps p3 -> pid y = pid p3 -> zlen pay + 2 <= m -> 60 <= m -> build_switch e y smb m = Ok (y, Some pay, None, [])) ->
  exists q w, pd_do (Refresh e) p = Ok (q, oc ++ [OTx w]) /\ quiet q /\ timeless (reqcore q) = timeless (reqcore p3) /\ w <> [] /\ answers c q pay w.
Proof.
  intros I H S TK L Qc RB BD D SL RR HS NK F N1 BS.
  assert (ALL : forall c', same_link c c' -> quiet c' -> exists q w, pd_refresh e p = Ok (q, oc ++ [OTx w]) /\ quiet q /\ timeless (reqcore q) = timeless (reqcore p3) /\
    forall h, hears h w -> exists c1, takes c' [] h pay c1 /\ linkcore c1 = linkcore c' /\ rx_base c1 /\ rb_contents (rb c1) = [] /\ line (state_reset false c1) q /\ sc_active (fl c1) = sc_active (fl c')).
  { intros c' SC Q'. destruct (dev_turn2 e c' p p1 d p3 RNone oc pay w0 I H S TK (line_reply_c c p1 c' SC L) Q' RB BD D (or_introl eq_refl) SL RR HS NK F N1 BS) as (q & w & RF & Qq & TR & _ & _ & G).
    exists q, w. exact (conj RF (conj Qq (conj TR G))). }
  destruct (ALL c (link_refl c) Qc) as (q & w & RF & Qq & TR & G). exists q, w. split; [exact RF|]. split; [exact Qq|]. split; [exact TR|].
  split; [exact (spoken c pay w _ Qc G)|].
  intros c' SC Q' h Hh. destruct (ALL c' SC Q') as (q2 & w2 & RF2 & _ & _ & G2). rewrite RF in RF2. injection RF2 as <- E. apply app_inj_tail in E. destruct E as [_ E]. injection E as <-. exact (G2 h Hh).
Qed.
Lemma one_byte x : 0 <= x < 256 -> bytes [x].
Proof. intros H. constructor; [exact H|constructor]. Qed.
Lemma ack_fits n a : 69 <= n <= 256 -> fits n a [64].
Proof. intros N. apply fits_small; [apply one_byte; lia|change (zlen [64]) with 1; lia|exact N|intros _; change (zlen [64]) with 1; lia]. Qed.
Lemma ack_built e y smb m : reply_id y = 64 -> zlen [64] + 2 <= m -> build_switch e y smb m = Ok (y, Some [64], None, []).
Proof.
  intros R M. unfold build_switch. rewrite R. change (zlen [64]) with 1 in M. change (64 =? REPLY_ACK) with true. cbv zeta iota. unfold assert_len. replace (1 <? m) with true by lia. reflexivity.
Qed.
Lemma reply_act c p : line_reply c p -> sc_active (fl p) = sc_active (fl c).
Proof. intros [_ [(A & B & _)|[Y _]]]; [congruence|]. destruct Y as [Y _]. destruct (is_act c p Y). congruence. Qed.

Lemma step_answer e j s : steady (n_c s) (n_p s) -> ph2 j s -> in_session e (n_p s) -> (forall k, fst (e_cb e 0 k) = 0) -> hears e (to_p s) -> stepped_to (to3 s j) s (job_list j) [] (ARefresh e).
Proof.
  destruct s as [c p t tp tc]. cbn [n_c n_p to_p to_c n_at]. intros SD (PH & CI & JO & W0 & EC & AT & G) SS CB H. cbn [n_c n_p to_p to_c n_at] in *. subst tc.
  destruct (sd_quiet _ _ SD) as [Qc Qp]. pose proof (reach_inv p (proj2 (sd_reach _ _ SD))) as Ip. pose proof (tx_size p) as TS.
  destruct (G p (link_refl p) Qp e H) as (p1 & TK & L & LC & RX & RB & A1).
  pose proof (reply_act c p1 L) as A2.
  assert (V1 : caps p1 = caps p) by exact (f_equal (fun x => caps x) LC). assert (V2 : has_cb p1 = has_cb p) by exact (f_equal (fun x => has_cb x) LC).
  assert (V3 : enforce (fl p1) = enforce (fl p)) by exact (f_equal (fun x => enforce (fl x)) LC). assert (V4 : peer_rx p1 = peer_rx p) by exact (f_equal (fun x => peer_rx x) LC).
  assert (V5 : evq p1 = evq p) by exact (f_equal (fun x => evq x) LC).
  assert (EN : enforce (fl p1) = false \/ sc_active (fl p1) = true) by (rewrite V3, A2; apply SD).
  assert (TB : tx_buf_size p1 = tx_buf_size p) by exact (tx_same_c p p1 V4).
  assert (CT : call_typed (Refresh e)) by apply H.
  (* all that follows from the answer *)
  assert (FIN : forall q w r oc pay, pd_do (Refresh e) p = Ok (q, oc ++ [OTx w]) -> quiet q -> same_p p q -> Forall (good_event (sc_active (fl c)) c p) (evq q) -> w <> [] -> answers c q pay w ->
      r = match j with Some _ => None | None => hd_error (evq p) end -> rep_pay r (caps c) (caps p) pay -> on_wire oc = [] -> told_events oc = [] -> app_calls oc = job_list j -> rep_list r ++ map upto_ev (evq q) = map upto_ev (evq p) ->
      stepped_to (to3 (mkNet c p t tp []) j) (mkNet c p t tp []) (job_list j) [] (ARefresh e)).
  { intros q w r oc pay D Qq SP GE W AN RJ RP O1 O2 O3 EQ.
    assert (O4 : on_wire (oc ++ [OTx w]) = w) by (unfold on_wire in *; rewrite flat_map_app, O1; cbn [flat_map app]; apply app_nil_r).
    exists (mkNet c q t [] w), (oc ++ [OTx w]), [], (rep_list r).
    split. { split; [|cbn [own]; unfold told_events in *; rewrite flat_map_app, O2; reflexivity]. cbn [act n_p]. rewrite D, bind_Ok. cbn [fst snd n_c n_at to_p to_c]. rewrite O4, (hears_left e tp W0 H). reflexivity. }
    cbn [n_c n_p]. split; [apply (steady_p c p q SD)|].
    - apply (pd_reach_by p (Refresh e) q (oc ++ [OTx w])); [apply SD|exact CT|exact D].
    - exact SP.
    - exact Qq.
    - exact GE.
    - split.
      + exists r. split; [|split; [reflexivity|split; [reflexivity|exact RJ]]]. unfold ph3. cbn [n_c n_p to_p to_c n_at]. split; [exact PH|]. split; [rewrite CI; apply (job_hs p j JO)|].
        split; [intros X; destruct j; [rewrite RJ in X; contradiction|exact CI]|]. split; [reflexivity|]. split; [exact W|]. split; [exact AT|].
        exists pay, (caps p). split; [exact RP|exact AN].
      + cbn [cmds_of events_of flat_map app]. rewrite !app_nil_r. split; [|split].
        * unfold app_calls in *. rewrite flat_map_app, O3. cbn [flat_map app]. rewrite app_nil_r. reflexivity.
        * unfold told_events in *. rewrite flat_map_app, O2. cbn [flat_map app]. exact EQ.
        * reflexivity. }
  assert (SAME : forall q p3, timeless (reqcore q) = timeless (reqcore p3) -> enforce (fl p3) = enforce (fl p1) -> peer_rx p3 = peer_rx p1 -> caps p3 = caps p1 -> has_cb p3 = has_cb p1 -> same_p p q /\ evq q = evq p3).
  { intros q p3 TR a b cc d.
    assert (x1 : enforce (fl q) = enforce (fl p3)) by exact (f_equal (fun x => enforce (fl x)) TR). assert (x2 : peer_rx q = peer_rx p3) by exact (f_equal (fun x => peer_rx x) TR).
    assert (x3 : caps q = caps p3) by exact (f_equal (fun x => caps x) TR). assert (x4 : has_cb q = has_cb p3) by exact (f_equal (fun x => has_cb x) TR).
    split; [split; congruence|exact (f_equal (fun x => evq x) TR)]. }
  destruct j as [k|].
  - destruct JO as (PC & RK & CC). cbn [job_wire job_list] in *.
    pose proof (ack_hear e p1 k PC RK ltac:(rewrite V2; apply SD) ltac:(rewrite V1; exact CC) EN (CB _)) as D.
    destruct (turn e c p p1 (cmd_wire k) (acked (cmd_code k) p1) _ [64] tp Ip H SS TK L Qc RB (cmd_wire_bytes k RK) D) as (q & w & RF & Qq & TR & W & AN).
    + repeat split; reflexivity.
    + reflexivity.
    + reflexivity.
    + intros [X _]. exact (plain_code k PC X).
    + apply ack_fits. change (tx_buf_size (acked (cmd_code k) p1)) with (tx_buf_size p1). rewrite TB. split; [apply SD|exact TS].
    + discriminate.
    + intros y smb m Ry _ _ _ M _. apply ack_built; [exact Ry|exact M].
    + destruct (SAME q _ TR eq_refl eq_refl eq_refl eq_refl) as [SP EV]. change (evq (acked (cmd_code k) p1)) with (evq p1) in EV.
      apply (FIN q w None [OCmd (upto k)] [64] RF Qq SP); try assumption; try reflexivity.
      * rewrite EV, V5. apply SD.
      * cbn [rep_list app]. rewrite EV, V5. reflexivity.
  - cbn [job_wire job_list] in *. destruct (evq p) as [|ev te] eqn:EQ.
    + pose proof (poll_hear_none e p1 V5 EN) as D. fold (acked 96 p1) in D.
      destruct (turn e c p p1 [96] (acked 96 p1) [] [64] tp Ip H SS TK L Qc RB (one_byte 96 ltac:(lia)) D) as (q & w & RF & Qq & TR & W & AN).
      * repeat split; reflexivity.
      * reflexivity.
      * reflexivity.
      * intros [X _]. discriminate.
      * apply ack_fits. change (tx_buf_size (acked 96 p1)) with (tx_buf_size p1). rewrite TB. split; [apply SD|exact TS].
      * discriminate.
      * intros y smb m Ry _ _ _ M _. apply ack_built; [exact Ry|exact M].
      * destruct (SAME q _ TR eq_refl eq_refl eq_refl eq_refl) as [SP EV]. change (evq (acked 96 p1)) with (evq p1) in EV.
        apply (FIN q w None [] [64] RF Qq SP); try assumption; try reflexivity.
        -- rewrite EV, V5. constructor.
        -- cbn [rep_list app]. rewrite EV, V5. reflexivity.
    + pose proof (sd_evs _ _ SD) as GE. rewrite EQ in GE. inversion GE as [|? ? Ge Gt]; subst. clear GE. destruct Ge as (RG & IK & pay & PP & FF).
      pose proof (poll_hear e p1 ev te (caps p) pay V5 PP EN) as D. destruct (ev_reply _ _ _ PP) as (N0 & IN & N1).
      set (p3 := set_reply_id (event_reply ev) (set_eph (EphEv ev) (set_evq te (set_cmd_id 96 (set_reply_id 0 p1))))) in *.
      destruct (turn e c p p1 [96] p3 [] pay tp Ip H SS TK L Qc RB (one_byte 96 ltac:(lia)) D) as (q & w & RF & Qq & TR & W & AN).
      * repeat split; reflexivity.
      * reflexivity.
      * change (reply_id p3) with (event_reply ev). clear - IN. destruct IN as [<-|[<-|[<-|[<-|[<-|[<-|[<-|[]]]]]]]]; reflexivity.
      * intros [X _]. discriminate.
      * change (sc_active (fl p3)) with (sc_active (fl p1)). change (tx_buf_size p3) with (tx_buf_size p1). rewrite TB, A2. exact FF.
      * rewrite N1. clear - IN. intros X. rewrite X in IN. simpl in IN. lia.
      * intros y smb m Ry Ey Cy _ M _. apply (ev_built e y smb m ev pay (caps p)); [exact Ry|exact Ey|rewrite Cy; exact V1|exact PP|exact RG|exact M].
      * destruct (SAME q p3 TR eq_refl eq_refl eq_refl eq_refl) as [SP EV]. change (evq p3) with te in EV.
        apply (FIN q w (Some ev) [] pay RF Qq SP); try assumption; try reflexivity.
        -- rewrite EV. exact Gt.
        -- exact (conj PP (conj RG IK)).
        -- cbn [rep_list app map]. rewrite EV. reflexivity.
Qed.

(* the panel gets the answer *)
Lemma told_one i ev : ev_in_range ev -> told_events [OEv i (upto_ev ev)] = [upto_ev ev].
Proof. destruct ev; simpl; intros H; try reflexivity; contradiction. Qed.
Lemma rev_fields x : let q := set_rq_event false x in fl q = fl x /\ state q = state x /\ rq_offline q = rq_offline x /\ rq_event q = false /\ file q = file x /\ peer_rx q = peer_rx x /\ caps q = caps x /\ cmdq q = cmdq x.
Proof. repeat split; reflexivity. Qed.
Lemma got_fields ev r x : let z := got_event ev (set_reply_id r x) in fl z = fl x /\ state z = state x /\ rq_offline z = rq_offline x /\ rq_event z = true /\ file z = file x /\ peer_rx z = peer_rx x /\ caps z = caps x /\ cmdq z = cmdq x.
Proof. repeat split; reflexivity. Qed.
Lemma same_by c q : fl q = fl c -> state q = state c -> rq_offline q = rq_offline c -> rq_event q = rq_event c -> file q = file c -> peer_rx q = peer_rx c -> caps q = caps c -> same_c c q.
Proof. intros a b d f g h i. split; try assumption; [rewrite a; reflexivity|unfold sc_is_capable; rewrite a; reflexivity]. Qed.
Lemma step_end e r s : steady (n_c s) (n_p s) -> ph3 r s -> e_evcb e = true -> hears e (to_c s) -> stepped_to to0 s [] (rep_list r) (AUpdate e).
Proof.
  destruct s as [c p t tp tc]. cbn [n_c n_p to_p to_c n_at]. intros SD (PH & CN & CP & EP & W0 & AT & pay & cs & RP & G) CB H. cbn [n_c n_p to_p to_c n_at] in *. subst tp.
  destruct (sd_quiet _ _ SD) as [Qc Qp]. pose proof (cp_reach_inv c (proj1 (sd_reach _ _ SD))) as I.
  destruct (G c (link_refl c) Qc e H) as (c1 & TK & LC & RX & RB & L & A1).
  assert (ET : env_typed e) by apply H.
  pose proof (link_same_c c c1 LC A1) as SC.
  assert (V1 : cmdq c1 = cmdq c) by exact (f_equal (fun x => cmdq x) LC). assert (V2 : cmd_id c1 = cmd_id c) by exact (f_equal (fun x => cmd_id x) LC).
  assert (V3 : rq_restart c1 = rq_restart c) by exact (f_equal (fun x => rq_restart x) LC). assert (V4 : idx c1 = idx c) by exact (f_equal (fun x => idx x) LC).
  pose proof (ci_rq c I) as RR.
  assert (S1 : state c1 = SOnline) by (rewrite (sm_state _ _ SC); apply SD). assert (O1 : rq_offline c1 = false) by (rewrite (sm_off _ _ SC); apply SD).
  assert (E1 : rq_event c1 = false) by (rewrite (sm_ev _ _ SC); apply SD).
  assert (C1 : sc_active (fl c1) = true \/ sc_is_capable c1 = false) by (rewrite (sm_act _ _ SC), (sm_cap _ _ SC); apply SD).
  assert (FIN : forall q o, cp_do (Update e) c = Ok (q, o) -> same_c c q -> quiet q -> cmdq q = cmdq c -> line q p -> phy_state q = PIdle -> on_wire o = [] -> app_calls o = [] -> told_events o = rep_list r ->
     stepped_to to0 (mkNet c p t [] tc) [] (rep_list r) (AUpdate e)).
  { intros q o D SQ Qq CQ LQ PQ o1 o2 o3. exists (mkNet q p t [] []), o, [], [].
    split. { split; [|exact o2]. cbn [act n_c]. rewrite D, bind_Ok. cbn [fst snd n_p n_at to_p to_c]. rewrite o1, (hears_left e tc W0 H). reflexivity. }
    cbn [n_c n_p]. split; [apply (steady_c c p q SD)|].
    - apply (cp_reach_by c (Update e) q o); [apply SD|exact ET|exact D].
    - exact SQ.
    - exact Qq.
    - rewrite CQ. apply SD.
    - split; [unfold to0, ph0; cbn [n_c n_p to_p to_c]; auto 8|].
      cbn [cmds_of events_of flat_map app]. rewrite o2, o3, CQ, !app_nil_r. split; [reflexivity|]. split; [reflexivity|]. apply SQ. }
  destruct r as [ev|]; cbn [rep_pay rep_list] in *.
  - destruct RP as (PP & RG & IK). assert (IK1 : items_known (caps c1) ev) by (rewrite (sm_caps _ _ SC); exact IK).
    pose proof (pan_done e c _ c1 _ PH TK (ev_read e c1 cs ev pay PP RG IK1)) as PD. rewrite (sd_on _ _ SD) in PD.
    set (z := got_event (upto_ev ev) (set_reply_id (event_reply ev) c1)) in *.
    rewrite (event_ends e z (upto_ev ev)) in PD; try assumption; try reflexivity.
    + assert (KZ : kept z (set_rq_event false (ended e z))) by (apply kept_ev, done_kept).
      destruct (ended_fields e z) as (g1 & g2 & g3 & g4 & g5 & g6 & g7 & g8 & g9 & _).
      destruct (rev_fields (ended e z)) as (h1 & h2 & h3 & h4 & h5 & h6 & h7 & h8). destruct (got_fields (upto_ev ev) (event_reply ev) c1) as (k1 & k2 & k3 & k4 & k5 & k6 & k7 & k8).
      fold z in k1, k2, k3, k4, k5, k6, k7, k8.
      assert (LZ : line z p) by (apply (line_like (state_reset false c1) z p); try reflexivity; exact L).
      assert (RXZ : rx_base z) by exact RX. assert (RBZ : rb_contents (rb z) = []) by exact RB.
      generalize dependent (set_rq_event false (ended e z)). intros q PD KZ h1 h2 h3 h4 h5 h6 h7 h8.
      apply (FIN q [OEv (idx z) (upto_ev ev)]).
      * unfold cp_do. rewrite PD. reflexivity.
      * apply (same_c_trans c c1); [exact SC|]. apply same_by; congruence.
      * apply (kept_quiet z q KZ RXZ RBZ).
      * congruence.
      * apply (kept_line z q p KZ LZ).
      * apply (kp_phy _ _ KZ).
      * reflexivity.
      * reflexivity.
      * apply told_one. exact RG.
    + change (reply_id z) with (event_reply ev). destruct (ev_reply _ _ _ PP) as (_ & IN & _). clear - IN. destruct IN as [<-|[<-|[<-|[<-|[<-|[<-|[<-|[]]]]]]]]; reflexivity.
    + change (cmd_id c1 = 96). rewrite V2. apply CP. discriminate.
    + change (rq_restart c1 = false). congruence.
  - subst pay. pose proof (pan_done e c [64] c1 (set_reply_id 64 c1) PH TK eq_refl) as PD. rewrite (sd_on _ _ SD) in PD.
    set (z := set_reply_id 64 c1) in *.
    destruct (ack_ends e z) as (o & AE & o1 & o2 & o3); try assumption; try reflexivity.
    + change (cmd_id c1 <> 117). congruence.
    + change (rq_restart c1 = false). congruence.
    + rewrite AE in PD. assert (KZ : kept z (ended e z)) by apply done_kept.
      destruct (ended_fields e z) as (g1 & g2 & g3 & g4 & g5 & g6 & g7 & g8 & g9 & _).
      apply (FIN (ended e z) o).
      * unfold cp_do. rewrite PD. reflexivity.
      * apply (same_c_trans c c1); [exact SC|]. split; try assumption.
        -- rewrite g1. reflexivity.
        -- unfold sc_is_capable. rewrite g1. reflexivity.
      * apply (kept_quiet z _ KZ RX RB).
      * exact (eq_trans g6 V1).
      * apply (kept_line z _ p KZ). apply (line_like (state_reset false c1) z p); try reflexivity. exact L.
      * apply (kp_phy _ _ KZ).
      * exact o1.
      * exact o3.
      * exact o2.
Qed.

(* an event is handed in *)
Lemma phase_device s q fc fe : same_link (n_p s) q -> caps q = caps (n_p s) -> phase s fc fe -> phase (mkNet (n_c s) q (n_at s) (to_p s) (to_c s)) fc fe.
Proof.
  destruct s as [c p t tp tc]. cbn [n_c n_p to_p to_c n_at]. intros SL CA [(a & b & d)|j (a & b & d & f & g & h)|j (a & b & d & f & g & h & i)|r (a & b & d & f & g & h & pay & cs & i & k)]; cbn [n_c n_p to_p to_c n_at] in *.
  - apply ph_0. split; [exact a|]. split; [exact (line_p c p q SL b)|exact d].
  - apply ph_1. split; [exact a|]. split; [exact (line_p c p q SL b)|]. split; [exact d|]. split; [exact f|]. split; [|exact h]. destruct j; [|exact g]. unfold job_ok, good_cmd in *. cbn [n_p]. rewrite CA. exact g.
  - apply ph_2. split; [exact a|]. split; [exact b|]. split; [destruct j; [|exact d]; unfold job_ok, good_cmd in *; cbn [n_p]; rewrite CA; exact d|]. split; [exact f|]. split; [exact g|]. split; [exact h|].
    intros p' SP. apply i. exact (link_trans _ _ _ SL SP).
  - apply ph_3. split; [exact a|]. split; [exact b|]. split; [exact d|]. split; [exact f|]. split; [exact g|]. split; [exact h|]. exists pay, cs. split; [exact i|].
    intros c' SC Qc hh Hh. destruct (k c' SC Qc hh Hh) as (c1 & k1 & k2 & k3 & k4 & k5 & k6). exists c1. cbn [n_p]. exact (conj k1 (conj k2 (conj k3 (conj k4 (conj (line_p _ p q SL k5) k6))))).
Qed.
Lemma step_notify ev s fc fe : steady (n_c s) (n_p s) -> phase s fc fe -> allowed s (ANotify ev) -> stepped s fc fe (ANotify ev).
Proof.
  intros SD PS (BA & GE & OK). unfold pd_notify_event in OK. set (q := set_evq (evq (n_p s) ++ [ev]) (n_p s)).
  assert (D : pd_do (Notify ev) (n_p s) = Ok (q, [])).
  { unfold pd_do, pd_notify_event. destruct (zlen (evq (n_p s)) <? pool (n_p s)); [reflexivity|discriminate]. }
  clear OK. exists (mkNet (n_c s) q (n_at s) (to_p s) (to_c s)), [], fc, fe.
  split; [split; [cbn [act]; rewrite D, bind_Ok; reflexivity|first [reflexivity|exact Logic.I]]|]. cbn [n_c n_p]. split; [apply (steady_p (n_c s) (n_p s) q SD)|].
  - apply (pd_reach_by (n_p s) (Notify ev) q []); [apply SD|exact BA|exact D].
  - split; reflexivity.
  - apply SD.
  - change (evq q) with (evq (n_p s) ++ [ev]). apply Forall_app. split; [apply SD|]. constructor; [exact GE|constructor].
  - split; [apply phase_device; [repeat split; reflexivity|reflexivity|exact PS]|].
    cbn [app_calls told_events flat_map app cmds_of events_of]. rewrite app_nil_r. repeat split; reflexivity.
Qed.

(* a command is handed in *)
Lemma asks_c c c' p d w : same_link c c' -> asks c p d w -> asks c' p d w.
Proof. intros SL A p' SP Q h H. destruct (A p' SP Q h H) as (p1 & a & b & r). exists p1. exact (conj a (conj (line_reply_c c p1 c' SL b) r)). Qed.
Lemma phase_panel s q fc fe : same_link (n_c s) q -> phy_state q = phy_state (n_c s) -> cmd_id q = cmd_id (n_c s) -> eph q = eph (n_c s) -> phy_tstamp q = phy_tstamp (n_c s) -> caps q = caps (n_c s) ->
  phase s fc fe -> phase (mkNet q (n_p s) (n_at s) (to_p s) (to_c s)) fc fe.
Proof.
  destruct s as [c p t tp tc]. cbn [n_c n_p to_p to_c n_at]. intros SL E1 E2 E3 E4 E5 [(a & b & d)|j (a & b & d & f & g)|j (a & b & d & f & g & h & i)|r (a & b & d & f & g & h & pay & cs & i & k)]; cbn [n_c n_p to_p to_c n_at] in *.
  - apply ph_0. unfold ph0. cbn [n_c n_p to_p to_c n_at]. rewrite E1. split; [exact a|]. split; [exact (line_c c p q SL b)|exact d].
  - apply ph_1. unfold ph1, job_eph in *. cbn [n_c n_p to_p to_c n_at] in *. rewrite E1, E2, E3. split; [exact a|]. split; [exact (line_c c p q SL b)|]. split; [exact d|]. split; [exact f|exact g].
  - apply ph_2. unfold ph2. cbn [n_c n_p to_p to_c n_at]. rewrite E1, E2, E4. split; [exact a|]. split; [exact b|]. split; [exact d|]. split; [exact f|]. split; [exact g|]. split; [exact h|]. exact (asks_c c q p _ _ SL i).
  - apply ph_3. unfold ph3. cbn [n_c n_p to_p to_c n_at]. rewrite E1, E2, E4, E5. split; [exact a|]. split; [exact b|]. split; [exact d|]. split; [exact f|]. split; [exact g|]. split; [exact h|]. exists pay, cs. split; [exact i|].
    intros c' SC. apply k. exact (link_trans _ _ _ SL SC).
Qed.
Lemma plain_bytes k : cmd_in_range k -> plain_cmd k -> byte_arrays_c k.
Proof. destruct k; simpl; try tauto. Qed.
Lemma step_cmd_in e k s fc fe : steady (n_c s) (n_p s) -> phase s fc fe -> allowed s (ASend e k) -> stepped s fc fe (ASend e k).
Proof.
  intros SD PS (ET & GC & OK). set (q := set_cmdq (cmdq (n_c s) ++ [k]) (n_c s)).
  assert (D : cp_do (Send e k) (n_c s) = Ok (q, [])).
  { unfold cp_do. unfold cp_send_command in *. rewrite (sd_on _ _ SD) in *. cbn [st_eqb negb] in *. destruct GC as (PC & _).
    destruct k; cbn [plain_cmd] in PC; try contradiction; destruct (zlen (cmdq (n_c s)) <? pool (n_c s)); try discriminate; reflexivity. }
  clear OK. exists (mkNet q (n_p s) (n_at s) (to_p s) (to_c s)), [], fc, fe.
  split; [split; [cbn [act]; rewrite D, bind_Ok; reflexivity|first [reflexivity|exact Logic.I]]|]. cbn [n_c n_p]. split; [apply (steady_c (n_c s) (n_p s) q SD)|].
  - apply (cp_reach_by (n_c s) (Send e k) q []); [apply SD|split; [exact ET|apply plain_bytes; apply GC]|exact D].
  - split; reflexivity.
  - apply SD.
  - change (cmdq q) with (cmdq (n_c s) ++ [k]). apply Forall_app. split; [apply SD|]. constructor; [exact GC|constructor].
  - split; [apply phase_panel; try reflexivity; [repeat split; reflexivity|exact PS]|].
    cbn [app_calls told_events flat_map app cmds_of events_of]. rewrite app_nil_r. repeat split; reflexivity.
Qed.

Theorem run_step a s fc fe : steady (n_c s) (n_p s) -> phase s fc fe -> allowed s a -> stepped s fc fe a.
Proof.
  intros SD PS AL. destruct a as [e|e|ev|e k].
  - inversion PS as [H|j H|j H|r H]; subst.
    + apply step_idle; assumption.
    + apply (stepped_weak _ phase _ _ _ _ (to2_phase j)). apply step_send; assumption.
    + destruct AL as (CB & TX & [[X _]|[N T]]).
      * destruct H as (_ & _ & _ & _ & E & _). rewrite E in X. contradiction.
      * apply phase_wait; try assumption. apply H.
    + destruct AL as (CB & TX & [[X Y]|[N T]]).
      * apply (stepped_weak _ phase _ _ _ _ to0_phase). apply step_end; assumption.
      * apply phase_wait; try assumption. apply H.
  - destruct AL as (SS & CB & [[X Y]|[CT N]]); [|apply phase_rest; assumption].
    inversion PS as [H|j H|j H|r H]; subst.
    + destruct H as (_ & _ & E & _). rewrite E in X. contradiction.
    + destruct H as (_ & _ & _ & _ & _ & E & _). rewrite E in X. contradiction.
    + apply (stepped_weak _ phase _ _ _ _ (to3_phase s j)). apply step_answer; assumption.
    + destruct H as (_ & _ & _ & E & _). rewrite E in X. contradiction.
  - apply step_notify; assumption.
  - apply step_cmd_in; assumption.
Qed.

Lemma begins_steady s : begins s -> steady (n_c s) (n_p s) /\ phase s [] [].
Proof.
  intros ([CN RP (O1 & O2 & O3) FL SE AD SZ AP CM EV] & E1 & E2). destruct CN as [RC ID LN QT [_ S2]].
  assert (SA : sc_active (fl (n_c s)) = sc_active (fl (n_p s))) by (destruct LN as [_ [(A & B & _)|Y]]; [congruence|destruct (is_act _ _ Y); congruence]).
  split; [|apply ph_0; split; [exact ID|split; [exact LN|split; assumption]]].
  split; try assumption; [split; assumption|rewrite SA; exact AD|split; assumption].
Qed.
Lemma map_app_inv {A B} (f : A -> B) x y : map f (x ++ y) = map f x ++ map f y.
Proof. apply map_app. Qed.

Theorem run_all s l t o : begins s -> lossless s l t o -> exists fc fe, steady (n_c t) (n_p t) /\ phase t fc fe /\ sc_active (fl (n_c t)) = sc_active (fl (n_c s)) /\
  app_calls o ++ fc ++ map upto (cmdq (n_c t)) = map upto (cmdq (n_c s) ++ cmds_of l) /\ told_events o ++ fe ++ map upto_ev (evq (n_p t)) = map upto_ev (evq (n_p s) ++ events_of l).
Proof.
  intros B R. induction R as [|l t o a t1 o1 R IH AL AC].
  - destruct (begins_steady s B) as [S P]. exists [], []. split; [exact S|]. split; [exact P|]. cbn [app_calls told_events flat_map app cmds_of events_of]. rewrite !app_nil_r. repeat split; reflexivity.
  - destruct IH as (fc & fe & S & P & A & C & E). destruct (run_step a t fc fe S P AL) as (t2 & o2 & fc2 & fe2 & [AC2 _] & S2 & P2 & C2 & E2 & A2).
    rewrite AC in AC2. injection AC2 as <- <-. exists fc2, fe2. split; [exact S2|]. split; [exact P2|]. split; [congruence|].
    assert (X1 : cmds_of (l ++ [a]) = cmds_of l ++ cmds_of [a]) by apply flat_map_app. assert (X2 : events_of (l ++ [a]) = events_of l ++ events_of [a]) by apply flat_map_app.
    assert (X3 : app_calls (o ++ o1) = app_calls o ++ app_calls o1) by apply flat_map_app. assert (X4 : told_events (o ++ o1) = told_events o ++ told_events o1) by apply flat_map_app.
    rewrite X1, X2, X3, X4. rewrite <- !app_assoc, C2, E2, !app_assoc. rewrite map_app, !app_assoc in C2, E2.
    split; rewrite map_app, ?app_assoc.
    + rewrite <- (app_assoc (app_calls o) fc), C, <- map_app. rewrite <- app_assoc. reflexivity.
    + rewrite <- (app_assoc (told_events o) fe), E, <- map_app. rewrite <- app_assoc. reflexivity.
Qed.

(* --- one exchange --- *)
Lemma act_panel e s t o : act (AUpdate e) s = Ok (t, o) -> n_p t = n_p s.
Proof. cbn [act]. destruct (cp_do (Update e) (n_c s)) as [x| |]; cbn [bind]; intros H; try discriminate. injection H as <- _. reflexivity. Qed.
Lemma act_device e s t o : act (ARefresh e) s = Ok (t, o) -> n_c t = n_c s.
Proof. cbn [act]. destruct (pd_do (Refresh e) (n_p s)) as [x| |]; cbn [bind]; intros H; try discriminate. injection H as <- _. reflexivity. Qed.
Lemma self_app {A} (x y : list A) : x ++ y = y -> x = [].
Proof. intros H. apply (app_inv_tail y). exact H. Qed.
Lemma one_exchange e1 e2 e3 e4 t t1 t2 t3 t4 o1 o2 o3 o4 : steady (n_c t) (n_p t) -> ph0 t ->
  allowed t (AUpdate e1) -> due e1 (n_c t) -> act (AUpdate e1) t = Ok (t1, o1) -> allowed t1 (AUpdate e2) -> act (AUpdate e2) t1 = Ok (t2, o2) ->
  allowed t2 (ARefresh e3) -> hears e3 (to_p t2) -> act (ARefresh e3) t2 = Ok (t3, o3) -> allowed t3 (AUpdate e4) -> hears e4 (to_c t3) -> act (AUpdate e4) t3 = Ok (t4, o4) ->
  let o := o1 ++ o2 ++ o3 ++ o4 in
  steady (n_c t4) (n_p t4) /\ ph0 t4 /\ app_calls o = firstn 1 (map upto (cmdq (n_c t))) /\ map upto (cmdq (n_c t4)) = skipn 1 (map upto (cmdq (n_c t))) /\
  let k := match cmdq (n_c t) with [] => 1%nat | _ => 0%nat end in
  told_events o = firstn k (map upto_ev (evq (n_p t))) /\ map upto_ev (evq (n_p t4)) = skipn k (map upto_ev (evq (n_p t))).
Proof.
  intros SD P0 L1 DU A1 L2 A2 L3 H3 A3 L4 H4 A4. cbv zeta.
  destruct (proj1 (step_idle2 e1 t SD P0 L1) DU) as (t1' & o1' & fc1 & fe1 & [B1 W1] & SD1 & (j & P1 & -> & -> & J) & C1 & E1 & _). rewrite A1 in B1. injection B1 as <- <-.
  destruct (step_send e2 j t1 SD1 P1 L2) as (t2' & o2' & fc2 & fe2 & [B2 W2] & SD2 & (P2 & -> & ->) & C2 & E2 & _). rewrite A2 in B2. injection B2 as <- <-.
  destruct (step_answer e3 j t2 SD2 P2 (proj1 L3) (proj1 (proj2 L3)) H3) as (t3' & o3' & fc3 & fe3 & [B3 W3] & SD3 & (r & P3 & -> & -> & RJ) & C3 & E3 & _). rewrite A3 in B3. injection B3 as <- <-.
  destruct (step_end e4 r t3 SD3 P3 (proj1 L4) H4) as (t4' & o4' & fc4 & fe4 & [B4 W4] & SD4 & (P4 & -> & ->) & C4 & E4 & _). rewrite A4 in B4. injection B4 as <- <-.
  pose proof (act_panel _ _ _ _ A1) as N1. pose proof (act_panel _ _ _ _ A2) as N2. pose proof (act_device _ _ _ _ A3) as N3. pose proof (act_panel _ _ _ _ A4) as N4.
  cbn [own cmds_of events_of flat_map] in *. rewrite !app_nil_r in *. cbn [app] in *.
  rewrite N1 in E1. apply self_app in E1. rewrite W1 in C1. cbn [app] in C1.
  rewrite N2, N1 in E2. apply self_app in E2. rewrite W2 in C2. cbn [app] in C2. apply app_inv_head in C2.
  rewrite N3 in C3. apply app_inv_tail in C3. rewrite W3, N2, N1 in E3. cbn [app] in E3.
  rewrite W4, N3 in C4. cbn [app] in C4. rewrite N4 in E4. apply app_inv_tail in E4.
  split; [exact SD4|]. split; [exact P4|].
  assert (X1 : app_calls (o1 ++ o2 ++ o3 ++ o4) = app_calls o3) by (unfold app_calls in *; rewrite !flat_map_app, W1, W2, W4, app_nil_r; reflexivity).
  assert (X2 : told_events (o1 ++ o2 ++ o3 ++ o4) = told_events o4) by (unfold told_events in *; rewrite !flat_map_app, E1, E2, W3; reflexivity).
  rewrite X1, X2, C3, C4, C2, E4, N4. rewrite N2, N1 in RJ.
  assert (Y : job_list j = firstn 1 (map upto (cmdq (n_c t))) /\ map upto (cmdq (n_c t1)) = skipn 1 (map upto (cmdq (n_c t)))).
  { rewrite <- C1. destruct j as [k|]; [split; reflexivity|]. assert (Z : cmdq (n_c t) = []) by (apply J; reflexivity). rewrite Z in C1. cbn [job_list app map] in C1 |- *. rewrite C1. split; reflexivity. }
  split; [exact (proj1 Y)|]. split; [exact (proj2 Y)|]. rewrite <- E3.
  destruct (cmdq (n_c t)) as [|k q] eqn:CQ.
  - assert (JN : j = None) by (apply J; reflexivity). subst j. rewrite RJ. rewrite RJ in E3. destruct (evq (n_p t)) as [|ev te]; cbn [hd_error rep_list app] in *.
    + cbn [map] in E3. rewrite E3. split; reflexivity.
    + split; reflexivity.
  - destruct j as [k'|]; [|destruct J as [_ J]; specialize (J eq_refl); discriminate]. subst r. split; reflexivity.
Qed.

Lemma skip_skip {A} a b (l : list A) : skipn a (skipn b l) = skipn (b + a) l.
Proof. revert b. induction l as [|x l IH]; intros [|b]; cbn [skipn Nat.add]; try reflexivity; [destruct a; reflexivity|]. apply IH. Qed.
Lemma first_first {A} a b (l : list A) : firstn b l ++ firstn a (skipn b l) = firstn (b + a) l.
Proof. revert b. induction l as [|x l IH]; intros [|b]; cbn [firstn skipn app Nat.add]; try reflexivity; [destruct a; reflexivity|]. f_equal. apply IH. Qed.
Theorem served_all s n t o : begins s -> served s n t o -> steady (n_c t) (n_p t) /\ ph0 t /\
  app_calls o = firstn n (map upto (cmdq (n_c s))) /\ map upto (cmdq (n_c t)) = skipn n (map upto (cmdq (n_c s))) /\
  let k := (n - length (cmdq (n_c s)))%nat in told_events o = firstn k (map upto_ev (evq (n_p s))) /\ map upto_ev (evq (n_p t)) = skipn k (map upto_ev (evq (n_p s))).
Proof.
  intros B R. induction R as [|n t o e1 e2 e3 e4 t1 t2 t3 t4 o1 o2 o3 o4 R IH L1 DU A1 L2 A2 L3 H3 A3 L4 H4 A4].
  - destruct (begins_steady s B) as [S P]. split; [exact S|]. split; [|repeat split; reflexivity]. destruct B as ([CN _ _ _ _ _ _ _ _ _] & E1 & E2). split; [apply CN|]. split; [apply CN|]. split; assumption.
  - destruct IH as (SD & P & C & CT & IH). cbv zeta in IH. destruct IH as (E & ET).
    destruct (one_exchange e1 e2 e3 e4 t t1 t2 t3 t4 o1 o2 o3 o4 SD P L1 DU A1 L2 A2 L3 H3 A3 L4 H4 A4) as (SD4 & P4 & C4 & CT4 & X). cbv zeta in X. destruct X as (E4 & ET4).
    split; [exact SD4|]. split; [exact P4|].
    assert (Z1 : app_calls (o ++ o1 ++ o2 ++ o3 ++ o4) = app_calls o ++ app_calls (o1 ++ o2 ++ o3 ++ o4)) by apply flat_map_app.
    assert (Z2 : told_events (o ++ o1 ++ o2 ++ o3 ++ o4) = told_events o ++ told_events (o1 ++ o2 ++ o3 ++ o4)) by apply flat_map_app.
    rewrite Z1, Z2, C, C4, CT4, CT, E, E4, ET4, ET. rewrite first_first, skip_skip, Nat.add_1_r. split; [reflexivity|]. split; [reflexivity|]. cbv zeta.
    rewrite first_first, skip_skip.
    assert (K : ((n - length (cmdq (n_c s))) + (match cmdq (n_c t) with [] => 1 | _ => 0 end))%nat = (S n - length (cmdq (n_c s)))%nat).
    { assert (LL : length (cmdq (n_c t)) = (length (cmdq (n_c s)) - n)%nat) by (apply (f_equal (@length cmd)) in CT; rewrite skipn_length, !map_length in CT; exact CT).
      destruct (cmdq (n_c t)); cbn [length] in LL; lia. }
    rewrite K. split; reflexivity.
Qed.
