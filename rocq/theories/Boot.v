(** Panel and device: from the first question to normal operation. *)
From Verif Require Import Base ListLemmas Crc SpecCrc CrcProofs CrcBurst Aes AesProofs Rb RbProofs
  Types Sc ScProofs Phy PhyCheck File Pd Cp PdRun SpecRx SpecFrame SpecSec SpecSession SpecCmd SpecApp SpecPd SpecLink RxProofs RxFwd PdRx PdCore PhyTx PdTx PdReply
  PdStep PdWire PdFwd PdSec PdHist2 MacProofs WireSec CpCtx SpecCp SpecCpRun CpTx CpRx CpStep CpInv CpEdge CpFacts CpSum CpFwd Chunk Trip ChunkRun LinkProofs LinkStep CpSend SpecHand SpecTalk SpecRun SpecBoot Hand Line Talk Talk2 Talk3 Talk4.
From Coq Require Import ZifyBool ZifyNat.
Ltac Zify.zify_post_hook ::= Z.div_mod_to_equations.
Local Opaque aes_ecb_encrypt aes_cbc_encrypt aes_cbc_decrypt mac_of RB_SIZE osdp_mac enc1 osdp_encrypt encrypt_data cap_entries.

(* --- a packet with number 0 makes the device forget its session and the last number --- *)
Definition anew (p : pd) : pd := set_seqn (-1) (sc_deactivate p).
Definition rmap {A B} (f : A -> B) (r : res A) : res B := do x <- r ; Ok (f x).

Lemma scan_anew n : forall k p, scan n k (anew p) = rmap (fun x => (anew (fst x), snd x)) (scan n k p).
Proof.
  induction n as [|n IH]; intros k p; [reflexivity|]. cbn [scan]. change (rb (anew p)) with (rb p). destruct (rb_pop (rb p)) as [r1 [b|]]; [|reflexivity].
  cbv zeta. destruct (b =? PKT_SOM); [destruct (k =? PKT_MARK); reflexivity|]. exact (IH b (set_rb r1 p)).
Qed.
Lemma collect_anew n p : collect n (anew p) = rmap anew (collect n p).
Proof.
  unfold collect. change (rb (anew p)) with (rb p). change (pblen (anew p)) with (pblen p). destruct (rb_pop_buf (rb p) (Z.to_nat n)) as [r1 l].
  destruct (_ >? _); reflexivity.
Qed.
Lemma header_anew p : check_header (anew p) = rmap (fun x => (anew (fst x), snd x)) (check_header p).
Proof.
  unfold check_header. change (pblen (anew p)) with (pblen p). rewrite scan_anew.
  assert (X : (if pblen p =? 0 then rmap (fun x => (anew (fst x), snd x)) (scan (S RB_SIZE) 0 p) else Ok (anew p, true)) =
              rmap (fun x => (anew (fst x), snd x)) (if pblen p =? 0 then scan (S RB_SIZE) 0 p else Ok (p, true))) by (destruct (pblen p =? 0); reflexivity).
  rewrite X. destruct (if pblen p =? 0 then scan (S RB_SIZE) 0 p else Ok (p, true)) as [[p1 [|]]| |]; cbn [rmap bind fst snd]; try reflexivity.
  change (pblen (anew p1)) with (pblen p1). rewrite collect_anew. destruct (collect (5 - pblen p1) p1) as [p2| |]; cbn [rmap bind]; try reflexivity.
  change (pblen (anew p2)) with (pblen p2). destruct (pblen p2 <? 5); reflexivity.
Qed.
Lemma bytes_anew p b q : pd_mode (fl p) = true -> skip_seq (fl p) = false -> check_packet_bytes (anew p) b = (q, KNone) -> check_packet_bytes p b = (q, KNone).
Proof.
  intros M S. unfold check_packet_bytes. destruct (check_crc b) as [n|]; [|discriminate].
  cbv zeta. change (address (anew p)) with (address p). change (pd_mode (fl (anew p))) with (pd_mode (fl p)). rewrite M.
  destruct (_ && _); [discriminate|].
  destruct (ctl_seq (getb b 4) =? 0) eqn:E; [intros H; exact H|].
  intros H. exfalso. change (seqn (anew p)) with (-1) in H.
  assert (C : 0 <= ctl_seq (getb b 4)) by (unfold ctl_seq; apply Z.land_nonneg; right; lia).
  replace (ctl_seq (getb b 4) =? -1) with false in H by lia.
  assert (G : forall x, pd_mode (fl x) = true -> skip_seq (fl x) = false -> seqn x = -1 ->
     (let (q1, cur) := get_seq (pd_mode (fl x)) x in if negb (cur =? ctl_seq (getb b 4)) && negb (skip_seq (fl q1)) then (nak 4 q1, KNack) else (q1, KNone)) <> (q, KNone)).
  { intros x M1 S1 N1. rewrite M1. unfold get_seq. rewrite N1. simpl. rewrite S1, Z.eqb_sym, E. discriminate. }
  destruct (Z.land (getb b 1) 127 =? 127); (eapply G; [| | |exact H]; first [exact M|exact S|reflexivity]).
Qed.
Lemma packet_anew e p q : pd_mode (fl p) = true -> skip_seq (fl p) = false -> check_packet e (anew p) = Ok (q, KNone) -> check_packet e p = Ok (q, KNone).
Proof.
  intros M SK. unfold check_packet. change (rb (anew p)) with (rb p). destruct (channel_receive (e_rx e) (rb p) 0) as [r1 got]. cbv zeta.
  set (p2 := if pd_mode (fl (set_rb r1 p)) && (pblen (set_rb r1 p) =? 0) && (got >? 0) then set_tstamp (e_now e) (set_rb r1 p) else set_rb r1 p).
  assert (E : (if pd_mode (fl (set_rb r1 (anew p))) && (pblen (set_rb r1 (anew p)) =? 0) && (got >? 0) then set_tstamp (e_now e) (set_rb r1 (anew p)) else set_rb r1 (anew p)) = anew p2).
  { unfold p2. change (pd_mode (fl (set_rb r1 (anew p)))) with (pd_mode (fl (set_rb r1 p))). change (pblen (set_rb r1 (anew p))) with (pblen (set_rb r1 p)). destruct (_ && _ && _); reflexivity. }
  rewrite E. clear E.
  assert (F2 : pd_mode (fl p2) = true /\ skip_seq (fl p2) = false) by (unfold p2; destruct (_ && _ && _); split; assumption).
  clearbody p2. clear M SK p. destruct F2 as [M SK].
  change (plen (anew p2)) with (plen p2). rewrite header_anew.
  set (h := if plen p2 =? 0 then do r <- check_header p2 ; match r with (p3, inl er) => Ok (p3, Some er) | (p3, inr n) => Ok (set_plen n p3, None) end else Ok (p2, None)).
  assert (E : (if plen p2 =? 0 then do r <- rmap (fun x => (anew (fst x), snd x)) (check_header p2) ; match r with (p3, inl er) => Ok (p3, Some er) | (p3, inr n) => Ok (set_plen n p3, None) end else Ok (anew p2, None)) =
              rmap (fun x => (anew (fst x), snd x)) h).
  { unfold h. destruct (plen p2 =? 0); [|reflexivity]. destruct (check_header p2) as [[p3 [er|n]]| |]; reflexivity. }
  rewrite E. clear E.
  assert (HF : forall p3 o, h = Ok (p3, o) -> o <> Some KNone /\ pd_mode (fl p3) = true /\ skip_seq (fl p3) = false).
  { intros p3 o Hh. unfold h in Hh. destruct (plen p2 =? 0); [|inversion Hh; subst; split; [discriminate|auto]].
    assert (SC : forall n k x y b, scan n k x = Ok (y, b) -> pd_mode (fl y) = pd_mode (fl x) /\ skip_seq (fl y) = skip_seq (fl x)).
    { induction n as [|m IH]; intros k x y b Hs; [discriminate|]. cbn [scan] in Hs. destruct (rb_pop (rb x)) as [r2 [c|]]; [|inversion Hs; subst; auto].
      cbv zeta in Hs. destruct (c =? PKT_SOM); [destruct (k =? PKT_MARK); inversion Hs; subst; split; reflexivity|]. exact (IH _ _ _ _ Hs). }
    assert (CO : forall n x y, collect n x = Ok y -> pd_mode (fl y) = pd_mode (fl x) /\ skip_seq (fl y) = skip_seq (fl x)).
    { intros m x y Hc. unfold collect in Hc. destruct (rb_pop_buf (rb x) (Z.to_nat m)) as [r2 l]. destruct (_ >? _); inversion Hc; subst; split; reflexivity. }
    assert (CHK : forall x er, check_header p2 = Ok (x, er) -> er <> inl KNone /\ pd_mode (fl x) = true /\ skip_seq (fl x) = false).
    { intros x er CH. unfold check_header in CH.
      destruct (if pblen p2 =? 0 then scan (S RB_SIZE) 0 p2 else Ok (p2, true)) as [[p1 b]| |] eqn:SS; cbn [bind] in CH; try discriminate.
      assert (F1 : pd_mode (fl p1) = true /\ skip_seq (fl p1) = false).
      { destruct (pblen p2 =? 0); [destruct (SC _ _ _ _ _ SS); split; congruence|inversion SS; subst; auto]. }
      destruct b; [|inversion CH; subst; split; [discriminate|exact F1]]. destruct (collect (5 - pblen p1) p1) as [p5| |] eqn:CC; cbn [bind] in CH; try discriminate.
      destruct (CO _ _ _ CC) as [C1 C2]. destruct F1 as [F1 F3]. rewrite F1 in C1. rewrite F3 in C2. destruct (pblen p5 <? 5); inversion CH; subst; (split; [|auto]); [discriminate|].
      unfold check_header_bytes. cbv zeta. repeat match goal with |- (if ?b then _ else _) <> _ => destruct b end; discriminate. }
    destruct (check_header p2) as [[p4 [er|n]]| |] eqn:CH; cbn [bind] in Hh; inversion Hh; subst; destruct (CHK _ _ eq_refl) as (C1 & C2 & C3); (split; [congruence|auto]). }
  destruct h as [[p3 [er|]]| |]; cbn [rmap bind fst snd]; try (intros H; discriminate H); destruct (HF _ _ eq_refl) as (N & M3 & S3).
  - intros H. inversion H; subst. exfalso. apply N. reflexivity.
  - change (plen (anew p3)) with (plen p3). change (pblen (anew p3)) with (pblen p3). rewrite collect_anew. clear HF N.
    destruct (collect (plen p3 - pblen p3) p3) as [p4| |] eqn:CC; cbn [rmap bind]; try (intros H; discriminate H).
    change (pblen (anew p4)) with (pblen p4). change (plen (anew p4)) with (plen p4). destruct (negb (pblen p4 =? plen p4)); [intros H; discriminate H|].
    assert (F4 : pd_mode (fl p4) = true /\ skip_seq (fl p4) = false).
    { unfold collect in CC. destruct (rb_pop_buf (rb p3) _) as [r2 l]. destruct (_ >? _); inversion CC; subst; split; assumption. }
    destruct F4 as [M4 S4]. intros H. inversion H as [H1]. rewrite H1.
    change (sub (pbuf (anew p4)) (mark_len (anew p4)) (plen p4 - mark_len (anew p4))) with (sub (pbuf p4) (mark_len p4) (plen p4 - mark_len p4)) in H1.
    pose proof (bytes_anew p4 _ q M4 S4 H1) as H2. change (Ok (check_packet_bytes p4 (sub (pbuf p4) (mark_len p4) (plen p4 - mark_len p4))) = Ok (q, KNone)). f_equal. exact H2.
Qed.

Lemma refresh_anew e p d q : pd_inv p -> takes (anew p) [] e d q -> pd_refresh e p = pd_refresh e (anew p).
Proof.
  intros I T.
  assert (TA : sc_timeout e (anew p) = anew p) by reflexivity.
  assert (TP : anew (sc_timeout e p) = anew p) by (unfold sc_timeout; destruct (_ && _); reflexivity).
  assert (F : pd_mode (fl (sc_timeout e p)) = true /\ skip_seq (fl (sc_timeout e p)) = false).
  { pose proof (iv_b p I) as B. unfold sc_timeout; destruct (_ && _); split; apply B. }
  rewrite (pd_hears e (anew p) d q) by (rewrite TA; exact T).
  apply pd_hears. destruct T as (p1 & p2 & W & C & D). inversion W; subst. exists (sc_timeout e p), p2. split; [constructor|].
  split; [|exact D]. apply packet_anew; [apply F|apply F|]. rewrite TP. exact C.
Qed.
Lemma inv_anew p : pd_inv p -> pd_inv (anew p).
Proof. intros [[a b c d e f g h i] F S]. constructor; [constructor; try assumption|exact F|exact S]. simpl. lia. Qed.

(* --- what is left alone --- *)
Definition mkeep (c : pd) := (enforce (fl c), sc_disabled (fl c), has_scbk (fl c), cmdq c, file c, rq_offline c, scbk (sc c)).
Definition mdev (p : pd) := (dkeep p, caps p, peer_rx p, use_scbkd (fl p), install (fl p), scbk (sc p)).

Lemma done_mkeep e z : mkeep (state_reset false (done e z)) = mkeep z.
Proof. unfold done. cbv zeta. destruct (sc_active _); reflexivity. Qed.

Lemma init_end2 e z : state z = SInit -> reply_id z = 69 -> cmd_id z = 97 ->
  exists q, after_phy e SInit (done e z) [] = Ok (q, CYield, []) /\ kept z q /\ state q = SCapdet /\ mkeep q = mkeep z.
Proof.
  intros S R C. rewrite after_done. pose proof (done_mkeep e z) as MK. destruct (done_fields e z) as (_ & f2 & f3 & f4 & _). pose proof (done_kept e z) as K. generalize dependent (done e z). intros y MK f2 f3 f4 K.
  unfold state_check_reply. rewrite f2, S. cbv iota. rewrite f3, R. cbn [Z.eqb Pos.eqb REPLY_PDID bind].
  unfold notify_command_status, app_cmd_of. rewrite f4, C. cbn [Z.eqb Pos.eqb CMD_OUT CMD_LED CMD_BUZ CMD_TEXT CMD_COMSET CMD_ISTAT CMD_OSTAT CMD_LSTAT CMD_RSTAT CMD_KEYSET CMD_MFG orb andb app].
  unfold finish_update, next_ok_state. change (state (state_reset false y)) with (state y). rewrite f2, S. cbv iota. rewrite bind_Ok.
  unfold do_requests. change (state (state_reset false y)) with (state y). rewrite f2, S. cbn [st_eqb orb state_change app].
  eexists. split; [reflexivity|]. split; [apply kept_state; exact K|]. split; [reflexivity|exact MK].
Qed.

Lemma setup_mkeep rnd c : pd_mode (fl c) = false -> has_scbk (fl c) = true -> mkeep (sc_setup rnd c) = mkeep c.
Proof. intros M H. unfold sc_setup. rewrite M, H. reflexivity. Qed.

(* after PDCAP: on to the handshake, or online *)
Lemma cap_end2 e z : state z = SCapdet -> reply_id z = 70 -> cmd_id z = 98 -> rq_restart z = false -> sc_active (fl z) = false -> rq_offline z = false -> pd_mode (fl z) = false ->
  (sc_is_capable z = true -> has_scbk (fl z) = true) ->
  exists q o, after_phy e SCapdet (done e z) [] = Ok (q, CYield, o) /\ kept z q /\ mkeep q = mkeep z /\ sc_is_capable q = sc_is_capable z /\
    state q = (if sc_is_capable z then SChlng else if enforce (fl z) then SOffline else SOnline) /\ (sc_is_capable z = true -> use_scbkd (fl q) = false).
Proof.
  intros S R C RR A RO PM HK. rewrite after_done. pose proof (done_mkeep e z) as MK. destruct (done_fields e z) as (f1 & f2 & f3 & f4 & f5 & f6 & _). pose proof (done_kept e z) as K. generalize dependent (done e z). intros y MK f1 f2 f3 f4 f5 f6 K.
  unfold state_check_reply. rewrite f2, S. cbv iota. rewrite f3, R. cbn [Z.eqb Pos.eqb REPLY_PDCAP bind].
  unfold notify_command_status, app_cmd_of. rewrite f4, C. cbn [Z.eqb Pos.eqb CMD_OUT CMD_LED CMD_BUZ CMD_TEXT CMD_COMSET CMD_ISTAT CMD_OSTAT CMD_LSTAT CMD_RSTAT CMD_KEYSET CMD_MFG orb andb app].
  assert (Y1 : state (state_reset false y) = SCapdet) by exact (eq_trans f2 S).
  assert (Y2 : rq_restart (state_reset false y) = false) by exact (eq_trans f5 RR).
  assert (Y3 : rq_offline (state_reset false y) = false) by exact (eq_trans f6 RO).
  assert (Y4 : fl (state_reset false y) = fl z) by exact f1.
  generalize dependent (state_reset false y). intros x MK K Y1 Y2 Y3 Y4. clear f1 f2 f3 f4 f5 f6.
  assert (CX : sc_is_capable x = sc_is_capable z) by (unfold sc_is_capable; rewrite Y4; reflexivity).
  unfold finish_update, next_ok_state. rewrite Y1. cbv iota. rewrite CX.
  assert (EX : enforce (fl x) = enforce (fl z)) by (rewrite Y4; reflexivity). rewrite EX.
  destruct (sc_is_capable z) eqn:CZ; [|destruct (enforce (fl z)) eqn:EZ]; rewrite bind_Ok; unfold do_requests.
  - change (state (set_use_scbkd false x)) with (state x). rewrite Y1. cbn [st_eqb orb]. cbn [state_change].
    do 2 eexists. split; [reflexivity|]. split; [apply kept_setup; [apply kept_dflt; exact K|exact A]|].
    assert (G : forall r u, mkeep (set_state SChlng r) = mkeep u <-> mkeep r = mkeep u) by (intros; split; intros H; exact H).
    split; [apply G; rewrite setup_mkeep; [exact MK| |]; simpl; rewrite Y4; auto|].
    destruct (setup_sc (e_rand e) (set_use_scbkd false x)) as [s ->]. split; [exact CX|]. split; [reflexivity|intros _; reflexivity].
  - rewrite Y1. cbn [st_eqb orb state_change]. do 2 eexists. split; [reflexivity|]. split; [apply kept_off; assumption|]. split; [exact MK|]. split; [exact CX|]. split; [reflexivity|discriminate].
  - rewrite Y1. cbn [st_eqb orb]. rewrite Y2, Y3.
    destruct (rq_event x); cbn [st_eqb state_change]; do 2 eexists; (split; [reflexivity|]).
    + split; [apply kept_state, kept_ev; exact K|]. split; [exact MK|]. split; [exact CX|]. split; [reflexivity|discriminate].
    + split; [apply kept_state; exact K|]. split; [exact MK|]. split; [exact CX|]. split; [reflexivity|discriminate].
Qed.

(* --- the first question: any device --- *)
Lemma meet_id e1 e2 c p : cpi c -> pd_inv p -> env_typed e1 -> env_typed e2 -> 256 <= e_tx e2 -> state c = SInit -> phy_state c = PIdle -> line c (anew p) -> quiet c -> quiet p ->
  69 <= tx_buf_size c -> 69 <= tx_buf_size p ->
  moves (cp_do (Update e1) c) (fun c1 => says (cp_do (Update e2) c1) (fun c2 w1 =>
  forall e3, hears e3 w1 -> says (pd_do (Refresh e3) p) (fun p1 w2 =>
  forall e4, hears e4 w2 -> moves (cp_do (Update e4) c2) (fun c3 =>
  knows c p c3 p1 /\ state c3 = SCapdet /\ phy_state c3 = PIdle /\ caps c3 = caps c /\ peer_rx c3 = peer_rx c /\ mkeep c3 = mkeep c /\ mdev p1 = mdev p)))).
Proof.
  intros I Ip T1 T2 X2 St Ph L Qc Qp N1 N2.
  destruct (line_inactive c (anew p) I L) as [Ac Ap]; [rewrite St; discriminate|rewrite St; discriminate|].
  destruct (ask_info e1 e2 c (anew p) 97 I T1 T2 X2 Ph) as (c1 & c2 & w1 & U1 & U2 & I2 & Q2 & P2 & R2 & A2 & G1); [unfold state_get_cmd; rewrite St; reflexivity|left; reflexivity|exact L|exact Qc|exact Qp|exact N1|].
  exists c1. split; [unfold cp_do; rewrite U1; reflexivity|]. exists c2, w1. split; [unfold cp_do; rewrite U2; reflexivity|].
  intros e3 H3. destruct (G1 e3 H3) as (p0 & TK & L2 & LC & RX & RB & A0). rewrite Ap in A0.
  destruct (tell_info e3 c2 (anew p) p0 97 69 (id_payload (pid p)) w1 (inv_anew p Ip) H3) as (p1 & w2 & RF & Qp1 & TR & Ip1 & G2); [intros Y; rewrite Ap in Y; discriminate|exact TK|exact L2|exact Q2|exact RB|exact LC|left; auto|exact N2|exact A0|].
  rewrite <- (refresh_anew e3 p [97; 0] p0 Ip TK) in RF.
  exists p1, w2. split; [exact RF|]. intros e4 H4. destruct (G2 e4 H4) as (c0 & TC & LK & RX0 & RB0 & LN & AC).
  pose proof (pan_done e4 c2 _ c0 _ P2 TC (id_read e4 c0 (pid p))) as PD.
  assert (S2 : state c2 = SInit) by exact (eq_trans (f_equal (fun x => state x) R2) St).
  assert (C2 : cmd_id c2 = 97) by exact (f_equal (fun x => cmd_id x) R2).
  rewrite S2 in PD.
  assert (V1 : caps c0 = caps c2) by exact (f_equal (fun x => caps x) LK). assert (V2 : caps c2 = caps c) by exact (f_equal (fun x => caps x) R2).
  assert (V3 : peer_rx c0 = peer_rx c2) by exact (f_equal (fun x => peer_rx x) LK). assert (V4 : peer_rx c2 = peer_rx c) by exact (f_equal (fun x => peer_rx x) R2).
  assert (V5 : mkeep c0 = mkeep c2) by exact (f_equal mkeep LK). assert (V6 : mkeep c2 = mkeep c) by exact (f_equal mkeep R2).
  assert (V7 : mdev p0 = mdev p) by exact (f_equal mdev LC). assert (V8 : mdev p1 = mdev p0) by exact (f_equal mdev TR).
  set (z := set_pid (id_wire (pid p)) (set_reply_id 69 c0)) in *.
  destruct (init_end2 e4 z) as (c3 & AE & K3 & S3 & M3); [exact (eq_trans (f_equal (fun x => state x) LK) S2)|reflexivity|exact (eq_trans (f_equal (fun x => cmd_id x) LK) C2)|].
  rewrite AE in PD. assert (DO : cp_do (Update e4) c2 = Ok (c3, [])) by (unfold cp_do; rewrite PD; reflexivity).
  exists c3. split; [exact DO|].
  split; [constructor|].
  - split; [|exact Ip1]. eapply (cp_do_inv (Update e4) c2 c3); [apply H4|exact I2|exact DO].
  - apply (kept_line z c3 p1 K3). apply (line_like (state_reset false c0) z p1); try reflexivity. exact LN.
  - split; [|exact Qp1]. apply (kept_quiet z c3 K3); [exact RX0|exact RB0].
  - assert (E1 : pid p0 = pid p) by exact (f_equal (fun x => pid x) LC). assert (E2 : caps p0 = caps p) by exact (f_equal (fun x => caps x) LC). assert (E3 : peer_rx p0 = peer_rx p) by exact (f_equal (fun x => peer_rx x) LC).
    split; [exact (eq_trans (f_equal (fun x => pid x) TR) E1)|]. split; [exact (eq_trans (f_equal (fun x => caps x) TR) E2)|exact (eq_trans (f_equal (fun x => peer_rx x) TR) E3)].
  - split; [exact S3|]. split; [apply (kp_phy _ _ K3)|]. split; [rewrite (kp_caps _ _ K3); exact (eq_trans V1 V2)|]. split; [rewrite (kp_peer _ _ K3); exact (eq_trans V3 V4)|].
    split; [exact (eq_trans M3 (eq_trans V5 V6))|exact (eq_trans V8 V7)].
Qed.


(* --- the second question --- *)
Lemma pdcap_more p cs : length (caps p) = 17%nat -> declared cs 10 ->
  let z := read_pdcap p (entries cs 1 16) in
  peer_rx z = declared_size cs /\ mkeep z = mkeep p /\ sc_disabled (fl z) = sc_disabled (fl p) /\ (declared cs 9 -> sc_capable (fl z) = Z.testbit (c_comp (nth 9 cs (mkCap 0 0 0))) 0).
Proof.
  intros L D z. destruct (caps_read cs 16 1 (length (entries cs 1 16)) (caps p) 10 ltac:(lia) L (le_n _)) as [A _]. specialize (A D ltac:(lia)).
  destruct (caps_read cs 16 1 (length (entries cs 1 16)) (caps p) 9 ltac:(lia) L (le_n _)) as [B _].
  subst z. unfold read_pdcap, cap_at. cbv zeta. change (Z.to_nat CAP_RXBUF) with 10%nat. change (Z.to_nat CAP_COMMSEC) with 9%nat.
  set (l := read_caps (length (entries cs 1 16)) (entries cs 1 16) (caps p)) in *. clearbody l.
  change (caps (set_caps l p)) with l. rewrite A. unfold declared in D. rewrite D. change (Z.of_nat 10 =? CAP_RXBUF) with true. cbv iota.
  repeat split; try reflexivity. intros D9. rewrite <- (B D9 ltac:(lia)). reflexivity.
Qed.
Lemma meet_cap e1 e2 c p : cpi c -> pd_inv p -> env_typed e1 -> env_typed e2 -> 256 <= e_tx e2 -> state c = SCapdet -> phy_state c = PIdle -> line c p -> quiet c -> quiet p ->
  69 <= tx_buf_size c -> 69 <= tx_buf_size p -> rq_offline c = false -> length (caps c) = 17%nat -> declared (caps p) 10 ->
  (has_scbk (fl c) = true /\ declared (caps p) 9 /\ Z.testbit (c_comp (nth 9 (caps p) (mkCap 0 0 0))) 0 = true /\ sc_disabled (fl c) = false) \/ sc_disabled (fl c) = true /\ enforce (fl c) = false ->
  moves (cp_do (Update e1) c) (fun c1 => says (cp_do (Update e2) c1) (fun c2 w1 =>
  forall e3, hears e3 w1 -> says (pd_do (Refresh e3) p) (fun p1 w2 =>
  forall e4, hears e4 w2 -> exists c3 o, cp_do (Update e4) c2 = Ok (c3, o) /\
  knows c p c3 p1 /\ phy_state c3 = PIdle /\ pid c3 = pid c /\ caps c3 = read_caps (length (entries (caps p) 1 16)) (entries (caps p) 1 16) (caps c) /\
  peer_rx c3 = declared_size (caps p) /\ mkeep c3 = mkeep c /\ mdev p1 = mdev p /\ sc_is_capable c3 = negb (sc_disabled (fl c)) /\
  state c3 = (if sc_disabled (fl c) then SOnline else SChlng) /\ (sc_disabled (fl c) = false -> use_scbkd (fl c3) = false) /\ sc_active (fl c3) = false))).
Proof.
  intros I Ip T1 T2 X2 St Ph L Qc Qp N1 N2 RO L17 D10 KY.
  destruct (line_inactive c p I L) as [Ac Ap]; [rewrite St; discriminate|rewrite St; discriminate|].
  destruct (ask_info e1 e2 c p 98 I T1 T2 X2 Ph) as (c1 & c2 & w1 & U1 & U2 & I2 & Q2 & P2 & R2 & A2 & G1); [unfold state_get_cmd; rewrite St; reflexivity|right; reflexivity|exact L|exact Qc|exact Qp|exact N1|].
  exists c1. split; [unfold cp_do; rewrite U1; reflexivity|]. exists c2, w1. split; [unfold cp_do; rewrite U2; reflexivity|].
  intros e3 H3. destruct (G1 e3 H3) as (p0 & TK & L2 & LC & RX & RB & A0). rewrite Ap in A0.
  destruct (tell_info e3 c2 p p0 98 70 (cap_payload (caps p)) w1 Ip H3) as (p1 & w2 & RF & Qp1 & TR & Ip1 & G2); [intros Y; rewrite Ap in Y; discriminate|exact TK|exact L2|exact Q2|exact RB|exact LC|right; auto|exact N2|exact A0|].
  exists p1, w2. split; [exact RF|]. intros e4 H4. destruct (G2 e4 H4) as (c0 & TC & LK & RX0 & RB0 & LN & AC).
  pose proof (pan_done e4 c2 _ c0 _ P2 TC (cap_read e4 c0 (caps p))) as PD.
  assert (S2 : state c2 = SCapdet) by exact (eq_trans (f_equal (fun x => state x) R2) St).
  assert (C2 : cmd_id c2 = 98) by exact (f_equal (fun x => cmd_id x) R2).
  rewrite S2 in PD.
  assert (V1 : caps c0 = caps c2) by exact (f_equal (fun x => caps x) LK). assert (V2 : caps c2 = caps c) by exact (f_equal (fun x => caps x) R2).
  assert (V3 : pid c0 = pid c2) by exact (f_equal (fun x => pid x) LK). assert (V4 : pid c2 = pid c) by exact (f_equal (fun x => pid x) R2).
  assert (V5 : mkeep c0 = mkeep c2) by exact (f_equal mkeep LK). assert (V6 : mkeep c2 = mkeep c) by exact (f_equal mkeep R2).
  assert (V7 : mdev p0 = mdev p) by exact (f_equal mdev LC). assert (V8 : mdev p1 = mdev p0) by exact (f_equal mdev TR).
  assert (PM : pd_mode (fl c0) = false) by exact (eq_trans (f_equal (fun x => pd_mode (fl x)) LK) (cv_mode _ (ci_b _ I2))).
  assert (LC0 : length (caps c0) = 17%nat) by (rewrite V1, V2; exact L17).
  destruct (pdcap_fields (set_reply_id 70 c0) (entries (caps p) 1 16)) as (f1 & f2 & f3 & f4 & f5 & f6 & f7 & f8 & f9 & f10 & f11 & f12 & f13 & f14).
  destruct (pdcap_more (set_reply_id 70 c0) (caps p) LC0 D10) as (g1 & g2 & g3 & g4).
  set (z := read_pdcap (set_reply_id 70 c0) (entries (caps p) 1 16)) in *. clearbody z.
  change (mkeep (set_reply_id 70 c0)) with (mkeep c0) in g2. change (sc_disabled (fl (set_reply_id 70 c0))) with (sc_disabled (fl c0)) in g3.
  assert (MZ : mkeep z = mkeep c) by exact (eq_trans g2 (eq_trans V5 V6)).
  assert (DZ : sc_disabled (fl z) = sc_disabled (fl c)) by (pose proof MZ as Y; unfold mkeep in Y; congruence).
  assert (HZ : has_scbk (fl z) = has_scbk (fl c)) by (pose proof MZ as Y; unfold mkeep in Y; congruence).
  assert (EZ : enforce (fl z) = enforce (fl c)) by (pose proof MZ as Y; unfold mkeep in Y; congruence).
  assert (OZ : rq_offline z = false) by (pose proof MZ as Y; unfold mkeep in Y; congruence).
  assert (CZ : sc_is_capable z = negb (sc_disabled (fl c))).
  { unfold sc_is_capable. rewrite DZ. destruct KY as [(_ & D9 & B9 & DD)|(DD & _)]; rewrite DD; [rewrite (g4 D9), B9; reflexivity|apply andb_false_r]. }
  assert (S0 : state z = SCapdet) by (rewrite f11; exact (eq_trans (f_equal (fun x => state x) LK) S2)).
  assert (C0 : cmd_id z = 98) by (rewrite f13; exact (eq_trans (f_equal (fun x => cmd_id x) LK) C2)).
  assert (Q0 : rq_restart z = false) by (rewrite f14; exact (eq_trans (f_equal (fun x => rq_restart x) LK) (ci_rq c2 I2))).
  assert (AZ : sc_active (fl z) = false) by (rewrite f7; change (sc_active (fl c0) = false); rewrite AC, A2; exact Ac).
  assert (PZ : pd_mode (fl z) = false) by (rewrite f5; exact PM).
  assert (KZ : sc_is_capable z = true -> has_scbk (fl z) = true).
  { intros Y. rewrite CZ in Y. rewrite HZ. destruct KY as [(Y1 & _)|(DD & _)]; [exact Y1|rewrite DD in Y; discriminate]. }
  destruct (cap_end2 e4 z S0 f12 C0 Q0 AZ OZ PZ KZ) as (c3 & o & AE & K3 & M3 & C3 & S3 & D3).
  rewrite AE in PD. assert (DO : cp_do (Update e4) c2 = Ok (c3, o)) by (unfold cp_do; rewrite PD; reflexivity).
  exists c3, o. split; [exact DO|].
  split; [constructor|].
  - split; [|exact Ip1]. eapply (cp_do_inv (Update e4) c2 c3); [apply H4|exact I2|exact DO].
  - apply (kept_line z c3 p1 K3). apply (line_like (state_reset false c0) z p1); try assumption.
  - split; [|exact Qp1]. apply (kept_quiet z c3 K3); [unfold rx_base in *; rewrite f9, f10; exact RX0|rewrite f9; exact RB0].
  - assert (E1 : pid p0 = pid p) by exact (f_equal (fun x => pid x) LC). assert (E2 : caps p0 = caps p) by exact (f_equal (fun x => caps x) LC). assert (E3 : peer_rx p0 = peer_rx p) by exact (f_equal (fun x => peer_rx x) LC).
    split; [exact (eq_trans (f_equal (fun x => pid x) TR) E1)|]. split; [exact (eq_trans (f_equal (fun x => caps x) TR) E2)|exact (eq_trans (f_equal (fun x => peer_rx x) TR) E3)].
  - split; [apply (kp_phy _ _ K3)|]. split; [rewrite (kp_pid _ _ K3), f2; exact (eq_trans V3 V4)|]. split; [rewrite (kp_caps _ _ K3), f1; change (caps (set_reply_id 70 c0)) with (caps c0); rewrite V1, V2; reflexivity|].
    split; [rewrite (kp_peer _ _ K3); exact g1|]. split; [exact (eq_trans M3 MZ)|]. split; [exact (eq_trans V8 V7)|]. split; [rewrite C3; exact CZ|].
    split; [rewrite S3, CZ, EZ; destruct KY as [(_ & _ & _ & DD)|(DD & NE)]; rewrite DD; [reflexivity|rewrite NE; reflexivity]|].
    split; [intros DD; apply D3; rewrite CZ, DD; reflexivity|rewrite (kp_act _ _ K3); exact AZ].
Qed.
