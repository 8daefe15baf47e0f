(** PD: exact answers to commands outside a session. *)
From Verif Require Import Base ListLemmas Crc SpecCrc CrcProofs CrcBurst Aes AesProofs Rb RbProofs
  Types Sc ScProofs Phy PhyCheck File Pd SpecRx SpecFrame SpecSec SpecCmd SpecApp MacProofs RxProofs RxFwd PdRx PdCore PhyTx PdTx PdReply
  PdStep PdWire PdFwd SpecPd PdRun PdSpeak PdPlain PdSec PdRefuse PdFacts PdKinds PdCase PdApp PdTrace PdHist PdHist2.
From Coq Require Import ZifyBool ZifyNat.
Ltac Zify.zify_post_hook ::= Z.div_mod_to_equations.
Local Opaque aes_ecb_encrypt aes_cbc_encrypt aes_cbc_decrypt mac_of RB_SIZE osdp_mac enc1 cap_entries.

(* one answer in clear *)
Lemma reply_clear e p p2 pay ob : env_ok e -> binv p -> sc_active (fl p) = false -> 69 <= tx_buf_size p ->
  256 <= e_tx e -> in_sc_handshake true (reply_id p) = false ->
  ~ (cmd_id p2 = CMD_KEYSET /\ reply_id p2 = REPLY_ACK) ->
  build_switch e (after_init p) false (reply_room p) = Ok (p2, Some pay, None, ob) -> sc_active (fl p2) = false ->
  zlen pay + 8 <= tx_buf_size p ->
  exists q, reply_phase e p = Ok (q, ob ++ [OTx (mk_of p ++ plain_frame (pd_addr p) (seqn p mod 4) pay)]) /\
    devcore q = devcore p2 /\ rb q = rb p2 /\ pblen q = 0 /\ tstamp q = tstamp p2.
Proof.
  intros K I A T69 TX HS NK BS A2 LP. pose proof (tx_buf_le p) as TB.
  assert (SMB : reply_smb p = false) by (unfold reply_smb; rewrite A, HS; reflexivity).
  rewrite <- SMB in BS.
  destruct (send_reply_total e p _ (iv_mode p I) (iv_ty p I) (eo_rand e K) (conj T69 TB) BS) as ([[q1 ok] o] & SR).
  unfold reply_phase. rewrite SR, bind_Ok.
  destruct (send_reply_spec e p q1 ok o (iv_mode p I) (iv_ty p I) (eo_rand e K) TB SR) as
    [(X & _)|(_ & p2' & pay2 & ss & m & smb & ob' & ot & BS2 & Hm & (-> & ->) & BRel & NT & TC & TY & -> & S)]; [lia|].
  rewrite BS in BS2. injection BS2 as <- <- <- <-. cbv zeta in S.
  assert (RB : reply_body p (Some pay) None = [83; pd_addr p; 0; 0; pd_ctl p] ++ pay).
  { unfold reply_body. rewrite HS, A. reflexivity. }
  destruct (build_switch_ok e (after_init p) (reply_smb p) (reply_room p) _ _ _ _ (after_init_typed p (iv_ty p I)) (eo_rand e K) Hm BS)
    as (_ & _ & PO & _). destruct PO as (Bp & _).
  assert (MC : forall b, macced p2 b = false) by (intros b; unfold macced; rewrite A2; reflexivity).
  assert (W : wire_of p2 (reply_body p (Some pay) None) = plain_frame (pd_addr p) (seqn p mod 4) pay).
  { rewrite RB. unfold wire_of. rewrite MC.
    assert (X : wire_of (after_init p) ([83; pd_addr p; 0; 0; pd_ctl p] ++ pay) = plain_frame (pd_addr p) (seqn p mod 4) pay) by (apply wire_plain; auto; lia).
    unfold wire_of in X. replace (macced (after_init p) ([83; pd_addr p; 0; 0; pd_ctl p] ++ pay)) with false in X; auto.
    unfold macced. change (sc_active (fl (after_init p))) with (sc_active (fl p)). rewrite A. reflexivity. }
  rewrite W in S.
  assert (ZF : zlen (mk_of p ++ plain_frame (pd_addr p) (seqn p mod 4) pay) <= tx_buf_size p).
  { unfold plain_frame. rewrite zlen_app, zlen_with_crc. unfold header. pose proof (mk_of_len p). unfold zlen at 1. zl. lia. }
  destruct S as [(_ & _ & S)|(_ & S & SC)]; [lia|].
  destruct S as [(_ & _ & S)|[(k & _ & _ & _ & S)|(-> & ->)]]; [lia|lia|].
  assert (C1 : cmd_id q1 = cmd_id p2) by exact (f_equal (fun x => cmd_id x) TC).
  assert (C2 : reply_id q1 = reply_id p2) by exact (f_equal (fun x => reply_id x) TC).
  rewrite C1, C2. destruct ((cmd_id p2 =? CMD_KEYSET) && (reply_id p2 =? REPLY_ACK)) eqn:EK; [exfalso; apply NK; lia|].
  exists (state_reset false q1). split; auto.
  rewrite MC in SC.
  split. { clear - TC SC. destruct q1, p2. unfold txcore in TC. simpl in TC. unfold devcore, rxcore. simpl in *.
    injection TC. intros. subst. reflexivity. }
  split; [exact (f_equal (fun x => rb x) TC)|]. split; [reflexivity|exact (f_equal (fun x => tstamp x) TC)].
Qed.

(* the next packet on the line is a good one, in clear, for this device, outside a session, with the
   command c and its data d *)
Definition clear_cmd (e : env) (p : pd) (f rest : list Z) (c : Z) (d : list Z) : Prop :=
  next_frame e p f rest /\ f_intact f /\ f_mine (address p) f /\ seq_ok (seqn p) (f_seq f) /\ f_scb f = false /\
  (session_open e p = false \/ f_seq f = 0) /\ f_payload f = c :: d.

(* the answer to f with the payload pay *)
Definition answer_of (p : pd) (f pay : list Z) (x : out) : Prop :=
  exists mk, (mk = [] \/ mk = [255]) /\ x = OTx (mk ++ plain_frame (answer_addr p f) (f_seq f) pay).

Lemma clear_exchange e p f rest c d oc pay (G : pd -> Prop) : env_ok e -> pd_inv p -> clear_cmd e p f rest c d -> 256 <= e_tx e ->
  (forall ps, answering p f ps -> sc_active (fl ps) = false -> app_view ps = app_view p -> enforce (fl ps) = enforce (fl p) -> bytes (c :: d) ->
     exists p3 p4 r, decode_command e ps (c :: d) = Ok (p3, r, oc) /\ (r = RNone \/ r = RReply) /\
       (69 <= tx_buf_size p3 /\ zlen pay + 8 <= tx_buf_size p3) /\ in_sc_handshake true (reply_id p3) = false /\
       build_switch e (after_init p3) false (reply_room p3) = Ok (p4, Some pay, None, []) /\
       sc_active (fl p4) = false /\ ~ (cmd_id p4 = 117 /\ reply_id p4 = 64) /\ rb p4 = rb p3 /\
       (forall q, devcore q = devcore p4 -> G q)) ->
  exists q x, pd_refresh e p = Ok (q, oc ++ [x]) /\ answer_of p f pay x /\ G q /\ pending q = rest.
Proof.
  intros K I (N & V & M & S & SB & SA & PY) TX H. rewrite <- session_open_eq in SA.
  destruct (plain_command e p f rest c d K I N V M S SB SA PY) as (ps & A & F & SA2 & AV & EN & SC & RB & Bp & _ & X).
  destruct (H ps A SA2 AV EN Bp) as (p3 & p4 & r & DC & R & (T1 & T2) & HS & BS & A4 & NK & RB4 & HG).
  destruct (decode_command_inv e ps (c :: d) p3 r oc K Bp (proj1 A) DC) as (I3 & _).
  destruct (decode_command_core e ps _ _ _ _ DC) as (CC & SM & _).
  assert (SA3 : sc_active (fl p3) = false). { destruct (sc_active (fl p3)) eqn:Y; auto. rewrite SM in SA2; auto. }
  pose proof (answering_cmd p f ps p3 A I3 CC) as A3.
  destruct (reply_clear e p3 p4 pay [] K I3 SA3 T1 TX HS NK BS A4 T2) as (q & E & DV & RQ & PQ & _).
  rewrite (answer_addr_eq p f p3 A3), (answer_seq_eq p f p3 (iv_seq p (iv_b p I)) A3), (seq_after_ok _ _ S) in E.
  assert (B3 : bumped e p3 = p3) by (unfold bumped; rewrite SA3; reflexivity).
  exists q. eexists. split.
  - rewrite X, DC, bind_Ok. unfold pd_finish. destruct R as [-> | ->]; rewrite ?B3, E, bind_Ok; reflexivity.
  - split; [exists (mk_of p3); split; auto; unfold mk_of; dif; auto|]. split; auto.
    unfold pending. rewrite PQ, RQ, RB4. simpl. rewrite <- RB. f_equal. exact (f_equal (fun x => rb x) CC).
Qed.

Lemma view_fields p q : app_view q = app_view p ->
  address q = address p /\ baud q = baud p /\ evq q = evq p /\ caps q = caps p /\ pid q = pid p /\ file q = file p /\
  peer_rx q = peer_rx p /\ has_cb q = has_cb p.
Proof. unfold app_view. intros H. inversion H. repeat split; assumption. Qed.

Lemma clear_room p (pay : list Z) : sc_active (fl p) = false -> in_sc_handshake true (reply_id p) = false ->
  zlen pay + 8 <= tx_buf_size p -> zlen pay + 2 <= reply_room p.
Proof.
  intros A H L. unfold reply_room, pd_hdr. rewrite A, H. pose proof (mk_of_len p). unfold zlen in *. rewrite app_length. simpl length. lia.
Qed.

Lemma status_built e p t ty n msk pay m : event_reply (EStatus ty n msk) <> 0 -> reply_id p = event_reply (EStatus ty n msk) ->
  eph p = EphEv (EStatus t n msk) ->
  event_payload (caps p) (EStatus ty n msk) = Some pay -> n <= 32 -> zlen pay + 2 <= m ->
  build_switch e p false m = Ok (p, Some pay, None, []).
Proof.
  intros R0 R E P F L. simpl in R0, R, P.
  assert (BF : forall k, 0 <= k -> zlen (bit_flags msk k) = k) by (intros k Hk; unfold bit_flags, zlen; rewrite map_length, seq_length; lia).
    assert (NB : forall k, bit_flags msk k = map (fun i => if Z.testbit msk (Z.of_nat i) then 1 else 0) (seq 0 (Z.to_nat k))) by reflexivity.
    unfold build_switch. rewrite R. destruct (ty =? 0) eqn:T0; [|destruct (ty =? 1) eqn:T1; [|destruct (ty =? 2) eqn:T2; [|destruct (ty =? 3) eqn:T3; [|discriminate]]]].
    + destruct (n =? cap_items (caps p) 1) eqn:NI; [|discriminate]. injection P as <-. simpl. unfold build_mask, eph_status. rewrite E, bind_Ok. simpl.
      change (c_num (cap_at p CAP_CONTACT)) with (cap_items (caps p) 1). rewrite NI. simpl. rewrite zlen_cons in L.
      assert (n + 1 < m). { destruct (Z_lt_le_dec n 0) as [X|X]; [pose proof (zlen_nonneg (bit_flags msk n)); lia|rewrite BF in L; lia]. }
      assert (cap_items (caps p) 1 = n) as -> by lia. unfold assert_len. replace (n + 1 <? m) with true by lia. unfold mask_bits.
      replace (n >? 32) with false by lia. rewrite R. reflexivity.
    + destruct (n =? cap_items (caps p) 2) eqn:NI; [|discriminate]. injection P as <-. simpl. unfold build_mask, eph_status. rewrite E, bind_Ok. simpl.
      change (c_num (cap_at p CAP_OUTPUT)) with (cap_items (caps p) 2). rewrite NI. simpl. rewrite zlen_cons in L.
      assert (n + 1 < m). { destruct (Z_lt_le_dec n 0) as [X|X]; [pose proof (zlen_nonneg (bit_flags msk n)); lia|rewrite BF in L; lia]. }
      assert (cap_items (caps p) 2 = n) as -> by lia. unfold assert_len. replace (n + 1 <? m) with true by lia. unfold mask_bits.
      replace (n >? 32) with false by lia. rewrite R. reflexivity.
    + injection P as <-. rewrite zlen_cons, BF in L by lia. simpl. unfold eph_status. rewrite E, bind_Ok. unfold assert_len. replace (3 <? m) with true by lia. reflexivity.
    + injection P as <-. rewrite zlen_cons, BF in L by lia. simpl. unfold eph_status. rewrite E, bind_Ok. unfold assert_len. replace (2 <? m) with true by lia. reflexivity.
Qed.

Lemma event_built e p ev pay m : event_reply ev <> 0 -> reply_id p = event_reply ev -> eph p = EphEv ev ->
  event_payload (caps p) ev = Some pay -> event_fits ev -> zlen pay + 2 <= m ->
  build_switch e p false m = Ok (p, Some pay, None, []).
Proof.
  intros R0 R E P F L.
  destruct ev as [rd fmt dir n data|rd n data|v c n data|ty n msk| |]; simpl in R0, R, P, F; try congruence.
  - destruct ((fmt =? 0) || (fmt =? 1)) eqn:FM; [|discriminate]. injection P as <-.
    unfold build_switch. rewrite R, E. simpl.
    assert (Q : Z.quot (n + 7) 8 = bit_bytes n) by (unfold bit_bytes; apply Z.quot_div_nonneg; lia). rewrite Q.
    assert (NN : 0 <= bit_bytes n) by (unfold bit_bytes; lia).
    assert (ZL : zlen (firstn (Z.to_nat (bit_bytes n)) data) = bit_bytes n) by (unfold zlen in *; rewrite firstn_length; lia).
    rewrite !zlen_cons, ZL in L. unfold assert_len. replace (4 + bit_bytes n <? m) with true by lia. unfold take_arr.
    replace (bit_bytes n <? 0) with false by lia. replace (zlen data <? bit_bytes n) with false by lia.
    rewrite bind_Ok. unfold u8, byte0, byte1. replace (fmt mod 256) with fmt by lia. reflexivity.
  - injection P as <-. unfold build_switch. rewrite R, E. simpl.
    assert (ZL : zlen (firstn (Z.to_nat n) data) = n) by (unfold zlen in *; rewrite firstn_length; lia).
    rewrite !zlen_cons, ZL in L. unfold assert_len. replace (2 + n <? m) with true by lia. unfold take_arr.
    replace (n <? 0) with false by lia. replace (zlen data <? n) with false by lia. reflexivity.
  - injection P as <-. unfold build_switch. rewrite R, E. simpl.
    assert (ZL : zlen (firstn (Z.to_nat n) data) = n) by (unfold zlen in *; rewrite firstn_length; lia).
    rewrite !zlen_cons, ZL in L. unfold assert_len. replace (4 + n <? m) with true by lia. unfold take_arr.
    replace (n <? 0) with false by lia. replace (zlen data <? n) with false by lia. reflexivity.
  - apply (status_built e p ty ty n msk pay m); auto.
Qed.

(* a command that is answered with the payload pay after the calls oc *)
Definition exchange (e : env) (p : pd) (f rest : list Z) (calls : list cmd) (pay : list Z) (G : pd -> Prop) : Prop :=
  exists q x, pd_refresh e p = Ok (q, map OCmd calls ++ [x]) /\ answer_of p f pay x /\ G q /\ pending q = rest.

Lemma tx_same p q : peer_rx q = peer_rx p -> tx_buf_size q = tx_buf_size p.
Proof. unfold tx_buf_size. intros ->. reflexivity. Qed.

(* the plain case: decoded to p3, nothing but the answer changes *)
Lemma exchange_by e p f rest c d calls pay (G : pd -> Prop) : env_ok e -> pd_inv p -> clear_cmd e p f rest c d -> 256 <= e_tx e ->
  69 <= tx_buf_size p -> zlen pay + 8 <= tx_buf_size p -> enforce (fl p) = false \/ In c public_codes ->
  (forall ps, answering p f ps -> sc_active (fl ps) = false -> app_view ps = app_view p -> bytes (c :: d) ->
     let p1 := set_cmd_id c (set_reply_id 0 ps) in
     exists p3 r, decode_switch e p1 c d = Some (Ok (p3, r, map OCmd calls)) /\ (r = RNone \/ r = RReply) /\
       (peer_rx p3 = peer_rx ps /\ sc_active (fl p3) = false /\ cmd_id p3 = c /\ rb p3 = rb ps) /\ in_sc_handshake true (reply_id p3) = false /\
       ~ (c = 117 /\ reply_id p3 = 64) /\
       (forall m, zlen pay + 2 <= m -> 60 <= m -> build_switch e (after_init p3) false m = Ok (after_init p3, Some pay, None, [])) /\
       (forall q, devcore q = devcore p3 -> G q)) ->
  exchange e p f rest calls pay G.
Proof.
  intros K I C TX T1 T2 EN H. apply (clear_exchange e p f rest c d); auto.
  intros ps A SA AV EP Bp. destruct (H ps A SA AV Bp) as (p3 & r & D & R & (P1 & P2 & P3 & P4) & HS & NK & BS & HG).
  destruct (view_fields _ _ AV) as (_ & _ & _ & _ & _ & _ & PX & _).
  assert (TB : tx_buf_size p3 = tx_buf_size p) by (apply tx_same; congruence).
  exists p3, (after_init p3), r. split.
  { rewrite decode_gate; auto.
    - cbv zeta in D. rewrite D, bind_Ok. destruct R as [-> | ->]; reflexivity.
    - rewrite EP. destruct EN as [->|X]; [reflexivity|]. apply plain_allowed_eq in X. rewrite X. apply andb_false_r. }
  split; auto. rewrite TB. split; auto. split; auto.
  split. { apply BS. - apply clear_room; auto. rewrite TB. auto.
           - unfold reply_room, pd_hdr. rewrite P2, HS, TB. pose proof (mk_of_len p3). unfold zlen. rewrite app_length. simpl length. lia. }
  split; [exact P2|]. split; [change (cmd_id (after_init p3)) with (cmd_id p3); rewrite P3; exact NK|].
  split; [reflexivity|]. intros q Hq. apply HG. rewrite Hq. reflexivity.
Qed.

Lemma ack_built e p m : reply_id p = 64 -> 60 <= m -> build_switch e p false m = Ok (p, Some [64], None, []).
Proof. intros R L. unfold build_switch. rewrite R. simpl. unfold assert_len. replace (1 <? m) with true by lia. reflexivity. Qed.
Lemma nak_built e p k m : 60 <= m -> build_switch e (after_init (nak k p)) false m = Ok (after_init (nak k p), Some [65; k], None, []).
Proof. intros L. unfold build_switch. simpl. unfold assert_len. replace (2 <? m) with true by lia. reflexivity. Qed.

Lemma dev_view p q : devcore q = devcore p -> app_view q = app_view p.
Proof. intros H. apply (devcore_view _ _ H). Qed.

(** * POLL *)
Lemma poll_idle e p f rest : env_ok e -> pd_inv p -> clear_cmd e p f rest 96 [] -> 256 <= e_tx e -> 69 <= tx_buf_size p ->
  enforce (fl p) = false -> evq p = [] -> exchange e p f rest [] [64] (fun q => app_view q = app_view p).
Proof.
  intros K I C TX T1 EN EQ. apply (exchange_by e p f rest 96 []); auto; [change (zlen [64]) with 1; lia|].
  intros ps A SA AV _. destruct (view_fields _ _ AV) as (_ & _ & Q & _). cbv zeta.
  exists (set_reply_id 64 (set_cmd_id 96 (set_reply_id 0 ps))), RNone.
  split. { unfold decode_switch. simpl. rewrite Q, EQ. reflexivity. }
  split; auto. split; [auto|]. split; auto. split; [intros [X _]; discriminate|].
  split; [intros; apply ack_built; auto|]. intros q Hq. rewrite (dev_view _ _ Hq). exact AV.
Qed.

Lemma poll_event e p f rest ev t pay : env_ok e -> pd_inv p -> clear_cmd e p f rest 96 [] -> 256 <= e_tx e -> 69 <= tx_buf_size p ->
  enforce (fl p) = false -> evq p = ev :: t -> event_payload (caps p) ev = Some pay -> event_fits ev -> zlen pay + 8 <= tx_buf_size p ->
  exchange e p f rest [] pay (fun q => evq q = t).
Proof.
  intros K I C TX T1 EN EQ P F L. apply (exchange_by e p f rest 96 []); auto.
  intros ps A SA AV _. destruct (view_fields _ _ AV) as (_ & _ & Q & CP & _). cbv zeta.
  assert (R : event_reply ev <> 0 /\ In (event_reply ev) [80; 83; 144; 73; 74; 72; 75]).
  { destruct ev; simpl in P |- *; try discriminate; try (split; [discriminate|simpl; auto 10]).
    - destruct ((format =? 0) || (format =? 1)); [|discriminate]. split; [discriminate|simpl; auto 10].
    - destruct (stype =? 0); [split; [discriminate|simpl; auto 10]|]. destruct (stype =? 1); [split; [discriminate|simpl; auto 10]|].
      destruct (stype =? 2); [split; [discriminate|simpl; auto 10]|]. destruct (stype =? 3); [split; [discriminate|simpl; auto 10]|discriminate]. }
  destruct R as [R0 R].
  set (p3 := set_reply_id (event_reply ev) (set_eph (EphEv ev) (set_evq t (set_cmd_id 96 (set_reply_id 0 ps))))).
  exists p3, RNone.
  split. { unfold decode_switch. simpl. rewrite Q, EQ. unfold translate_event. replace (event_reply ev =? 0) with false by lia. reflexivity. }
  split; auto. split; [auto|]. split; [|split; [|split]].
  - change (reply_id p3) with (event_reply ev). clear - R. destruct R as [<-|[<-|[<-|[<-|[<-|[<-|[<-|[]]]]]]]]; reflexivity.
  - intros [X _]; discriminate.
  - intros m Hm _. apply (event_built e (after_init p3) ev pay m); auto. change (caps (after_init p3)) with (caps ps). rewrite CP. auto.
  - intros q Hq. exact (f_equal (fun x => evq x) Hq).
Qed.

(** * ID and CAP *)
Lemma id_answer e p f rest x : env_ok e -> pd_inv p -> clear_cmd e p f rest 97 [x] -> 256 <= e_tx e -> 69 <= tx_buf_size p ->
  exchange e p f rest [] (id_payload (pid p)) (fun q => app_view q = app_view p).
Proof.
  intros K I C TX T1. apply (exchange_by e p f rest 97 [x]); auto; [change (zlen (id_payload (pid p))) with 13; lia|right; simpl; auto|].
  intros ps A SA AV _. destruct (view_fields _ _ AV) as (_ & _ & Q & _ & PI & _). cbv zeta.
  exists (set_reply_id 69 (set_cmd_id 97 (set_reply_id 0 ps))), RNone.
  split; [reflexivity|]. split; auto. split; [auto|]. split; auto. split; [intros [X _]; discriminate|].
  split; [|intros q Hq; rewrite (dev_view _ _ Hq); exact AV].
  intros m Hm H60. unfold build_switch. simpl. unfold assert_len. replace (13 <? m) with true by lia. do 3 f_equal.
  assert (pid (after_init (set_reply_id 69 (set_cmd_id 97 (set_reply_id 0 ps)))) = pid p) as E by exact PI.
  change (pid (set_broadcast _ _)) with (pid ps). rewrite PI. unfold id_bytes, id_payload, byte0, byte1, byte2, byte3. simpl. rewrite !Z.div_1_r. reflexivity.
Qed.

Local Transparent cap_entries.
Lemma cap_entries_spec p : forall fuel i m, 3 * Z.of_nat fuel <= m ->
  cap_entries p fuel (Z.of_nat i) m =
  flat_map (fun c => [c_fc c; c_comp c; c_num c])
    (map snd (filter (fun x => c_fc (snd x) =? fst x) (map (fun i => (Z.of_nat i, nth i (caps p) (mkCap 0 0 0))) (seq i fuel)))).
Proof.
  induction fuel as [|fuel IH]; intros i m L; [reflexivity|]. simpl seq. cbn [map filter]. simpl fst. simpl snd.
  cbn [cap_entries]. unfold cap_at at 1. rewrite Nat2Z.id. replace (Z.of_nat i + 1) with (Z.of_nat (S i)) by lia.
  destruct (c_fc (nth i (caps p) (mkCap 0 0 0)) =? Z.of_nat i) eqn:E.
  - cbn [negb]. replace (m <? 3) with false by lia. rewrite IH by lia. cbn [map flat_map snd app]. unfold cap_at. rewrite Nat2Z.id.
    assert (c_fc (nth i (caps p) (mkCap 0 0 0)) = Z.of_nat i) as -> by lia. reflexivity.
  - cbn [negb]. apply IH. lia.
Qed.
Local Opaque cap_entries.

Lemma filter_len {A} (g : A -> bool) l : (length (filter g l) <= length l)%nat.
Proof. induction l as [|a l IH]; simpl; auto. destruct (g a); simpl; lia. Qed.

Lemma cap_payload_len cs : zlen (cap_payload cs) <= 49.
Proof.
  unfold cap_payload. set (l := map snd _).
  assert (L : (length l <= 16)%nat). { unfold l. rewrite map_length. etransitivity; [apply filter_len|]. rewrite map_length, seq_length. lia. }
  assert (X : (length (flat_map (fun c => [c_fc c; c_comp c; c_num c]) l) = 3 * length l)%nat).
  { clear L. induction l as [|a l IH]; auto. simpl. rewrite IH. lia. }
  unfold zlen. cbn [length]. lia.
Qed.

Lemma cap_answer e p f rest x : env_ok e -> pd_inv p -> clear_cmd e p f rest 98 [x] -> 256 <= e_tx e -> 69 <= tx_buf_size p ->
  exchange e p f rest [] (cap_payload (caps p)) (fun q => app_view q = app_view p).
Proof.
  intros K I C TX T1. pose proof (cap_payload_len (caps p)). apply (exchange_by e p f rest 98 [x]); auto; [lia|right; simpl; auto|].
  intros ps A SA AV _. destruct (view_fields _ _ AV) as (_ & _ & Q & CP & PI & _). cbv zeta.
  exists (set_reply_id 70 (set_cmd_id 98 (set_reply_id 0 ps))), RNone.
  split; [reflexivity|]. split; auto. split; [auto|]. split; auto. split; [intros [X _]; discriminate|].
  split; [|intros q Hq; rewrite (dev_view _ _ Hq); exact AV].
  intros m Hm H60. unfold build_switch. simpl. unfold assert_len. replace (1 <? m) with true by lia. do 3 f_equal.
  unfold cap_payload. f_equal. change 1 with (Z.of_nat 1). rewrite (cap_entries_spec _ 16 1 m) by lia.
  rewrite <- CP. reflexivity.
Qed.

(** * OUT, LED, BUZ *)
Lemma rec_covered_eq p c : rec_ok p c = rec_covered (caps p) c.
Proof.
  destruct c; auto; simpl.
  - unfold cap_item. change (c_comp (cap_at p CAP_OUTPUT)) with (cap_level (caps p) 2). change (c_num (cap_at p CAP_OUTPUT)) with (cap_items (caps p) 2). lia.
  - unfold cap_item. change (c_comp (cap_at p CAP_LED)) with (cap_level (caps p) 4). change (c_num (cap_at p CAP_LED)) with (cap_items (caps p) 4). lia.
  - unfold cap_present. change (c_comp (cap_at p CAP_AUDIBLE)) with (cap_level (caps p) 5). change (c_num (cap_at p CAP_AUDIBLE)) with (cap_items (caps p) 5). lia.
Qed.

Lemma records_spec e l : forall n p, exists q, (q = p \/ exists k, q = nak k p) /\
  do_records e n p l = (q, map OCmd (record_calls (e_cb e) (caps p) n l)).
Proof.
  induction l as [|c l IH]; intros n p; simpl; [eauto|]. rewrite <- rec_covered_eq. destruct (rec_ok p c); simpl; [|eauto].
  unfold do_callback. destruct (e_cb e n c) as [rc c1] eqn:E. simpl. destruct (rc =? 0).
  - destruct (IH (S n) p) as (q & X & ->). exists q. split; auto.
  - exists (nak 9 p). split; eauto.
Qed.

Lemma multi_answer e p f rest c n dec d l : env_ok e -> pd_inv p -> clear_cmd e p f rest c d -> 256 <= e_tx e -> 69 <= tx_buf_size p ->
  enforce (fl p) = false -> has_cb p = true -> multi_cmd c n dec -> zlen d mod n = 0 ->
  (bytes d -> map dec (chunks (Z.to_nat (zlen d / n)) n d) = l) ->
  exchange e p f rest (record_calls (e_cb e) (caps p) 0 l) [64] (fun q => app_view q = app_view p).
Proof.
  intros K I C TX T1 EN HC MC ML L. apply (exchange_by e p f rest c d); auto; [change (zlen [64]) with 1; lia|].
  intros ps A SA AV Bp. destruct (view_fields _ _ AV) as (_ & _ & Q & CP & PI & _ & _ & HB). cbv zeta.
  set (p1 := set_cmd_id c (set_reply_id 0 ps)). inversion Bp as [|? ? _ Bd]; subst.
  destruct (records_spec e (map dec (chunks (Z.to_nat (zlen d / n)) n d)) 0 p1) as (q & HQ & DR).
  change (caps p1) with (caps ps) in DR. rewrite CP in DR.
  exists (set_reply_id 64 q), RNone.
  assert (X : decode_switch e p1 c d = Some (do_multi e p1 n dec d)).
  { destruct MC as [(-> & -> & ->)|[(-> & -> & ->)|(-> & -> & ->)]]; reflexivity. }
  assert (NE : c <> 117) by (destruct MC as [(-> & _)|[(-> & _)|(-> & _)]]; lia).
  assert (QV : app_view q = app_view ps /\ sc_active (fl q) = false /\ cmd_id q = c /\ rb q = rb ps /\ peer_rx q = peer_rx ps).
  { destruct HQ as [->|(k & ->)]; repeat split; auto. }
  destruct QV as (Q1 & Q2 & Q3 & Q4 & Q5).
  split. { rewrite X. unfold do_multi. replace (negb (zlen d mod n =? 0)) with false by lia. change (has_cb p1) with (has_cb ps). rewrite HB, HC. simpl. rewrite DR, (L Bd). reflexivity. }
  split; auto. split; [auto|]. split; auto. split; [tauto|].
  split; [intros; apply ack_built; auto|]. intros q2 Hq. rewrite (dev_view _ _ Hq). change (app_view (set_reply_id 64 q)) with (app_view q). congruence.
Qed.

Lemma chunk_step n (d1 d : list Z) : zlen d1 = n -> 0 < n -> sub (d1 ++ d) 0 n = d1 /\ from (d1 ++ d) n = d.
Proof.
  intros L P. unfold sub, from. change (Z.to_nat 0) with 0%nat. cbn [skipn]. unfold zlen in L.
  split; [rewrite firstn_app|rewrite skipn_app]; replace (Z.to_nat n) with (length d1) by lia;
  rewrite ?firstn_all, ?skipn_all, Nat.sub_diag; simpl; auto using app_nil_r.
Qed.

Lemma chunk_records n dec (recs : list Z -> list cmd) :
  0 < n -> recs [] = [] -> (forall d1 d, zlen d1 = n -> recs (d1 ++ d) = dec d1 :: recs d) ->
  forall k d, zlen d = Z.of_nat k * n -> map dec (chunks k n d) = recs d.
Proof.
  intros P N0 ST. induction k as [|k IH]; intros d L.
  - simpl in L. destruct d; [symmetry; exact N0|rewrite zlen_cons in L; pose proof (zlen_nonneg d); lia].
  - assert (LD : n <= zlen d) by nia. rewrite <- (firstn_skipn (Z.to_nat n) d).
    assert (L1 : zlen (firstn (Z.to_nat n) d) = n) by (unfold zlen in *; rewrite firstn_length; lia).
    assert (L2 : zlen (skipn (Z.to_nat n) d) = Z.of_nat k * n) by (unfold zlen in *; rewrite skipn_length; nia).
    rewrite ST by auto. cbn [chunks map]. destruct (chunk_step n _ (skipn (Z.to_nat n) d) L1 P) as [E1 E2]. rewrite E1, E2, IH; auto.
Qed.

Lemma div_mult n (d : list Z) : 0 < n -> zlen d mod n = 0 -> zlen d = Z.of_nat (Z.to_nat (zlen d / n)) * n :> Z.
Proof. intros P M. pose proof (Z.div_mod (zlen d) n ltac:(lia)). pose proof (zlen_nonneg d). pose proof (Z.div_pos (zlen d) n ltac:(lia) P). rewrite Z2Nat.id by lia. nia. Qed.

Ltac list_len H := match type of H with zlen ?l = _ =>
  repeat (destruct l as [|? l]; [try (exfalso; rewrite ?zlen_cons in H; change (zlen (@nil Z)) with 0 in H; lia)|rewrite ?zlen_cons in H]) end.

Lemma out_chunks d : zlen d mod 4 = 0 -> map dec_out (chunks (Z.to_nat (zlen d / 4)) 4 d) = out_records d.
Proof.
  intros M. apply (chunk_records 4); [lia|reflexivity| |apply div_mult; auto; lia].
  intros d1 d2 L. do 4 (destruct d1 as [|? d1]; [exfalso; unfold zlen in L; simpl in L; lia|]).
  destruct d1; [reflexivity|exfalso; unfold zlen in L; simpl in L; lia].
Qed.
Lemma led_chunks d : zlen d mod 14 = 0 -> map dec_led (chunks (Z.to_nat (zlen d / 14)) 14 d) = led_records d.
Proof.
  intros M. apply (chunk_records 14); [lia|reflexivity| |apply div_mult; auto; lia].
  intros d1 d2 L. do 14 (destruct d1 as [|? d1]; [exfalso; unfold zlen in L; simpl in L; lia|]).
  destruct d1; [reflexivity|exfalso; unfold zlen in L; simpl in L; lia].
Qed.
Lemma buz_chunks d : zlen d mod 5 = 0 -> map dec_buz (chunks (Z.to_nat (zlen d / 5)) 5 d) = buz_records d.
Proof.
  intros M. apply (chunk_records 5); [lia|reflexivity| |apply div_mult; auto; lia].
  intros d1 d2 L. do 5 (destruct d1 as [|? d1]; [exfalso; unfold zlen in L; simpl in L; lia|]).
  destruct d1; [reflexivity|exfalso; unfold zlen in L; simpl in L; lia].
Qed.

(** * TEXT, MFG, COMSET *)
(* accepted: ACK; refused: NAK 9 *)
Definition verdict (rc : Z) : list Z := if rc =? 0 then [64] else [65; 9].

Lemma verdict_built e p rc m : 60 <= m ->
  let q := if rc =? 0 then set_reply_id 64 p else nak 9 p in
  build_switch e (after_init q) false m = Ok (after_init q, Some (verdict rc), None, []).
Proof. intros L q. subst q. unfold verdict. destruct (rc =? 0); [apply ack_built; auto|apply nak_built; auto]. Qed.

Lemma verdict_len rc : zlen (verdict rc) <= 2.
Proof. unfold verdict. destruct (rc =? 0); unfold zlen; simpl; lia. Qed.

Lemma verdict_answer e p f rest c d x : env_ok e -> pd_inv p -> clear_cmd e p f rest c d -> 256 <= e_tx e -> 69 <= tx_buf_size p ->
  enforce (fl p) = false -> c <> 117 ->
  (forall p1, caps p1 = caps p -> has_cb p1 = has_cb p -> decode_switch e p1 c d =
      Some (match do_callback e 0 p1 x with
      | (p1, false, _, o) => Ok (p1, RReply, o)
      | (p1, true, _, o) => Ok (set_reply_id REPLY_ACK p1, RNone, o)
      end)) ->
  exchange e p f rest [x] (verdict (fst (e_cb e 0 x))) (fun q => app_view q = app_view p).
Proof.
  intros K I C TX T1 EN NE D. pose proof (verdict_len (fst (e_cb e 0 x))). apply (exchange_by e p f rest c d); auto; [lia|].
  intros ps A SA AV Bp. destruct (view_fields _ _ AV) as (_ & _ & _ & CP & _ & _ & _ & HB). cbv zeta.
  set (p1 := set_cmd_id c (set_reply_id 0 ps)). set (rc := fst (e_cb e 0 x)).
  exists (if rc =? 0 then set_reply_id 64 p1 else nak 9 p1), (if rc =? 0 then RNone else RReply).
  split. { rewrite (D p1 CP HB). unfold do_callback, rc. destruct (e_cb e 0 x) as [r c1]. simpl. destruct (r =? 0); reflexivity. }
  split; [destruct (rc =? 0); auto|]. split; [destruct (rc =? 0); auto|]. split; [destruct (rc =? 0); reflexivity|].
  split; [tauto|]. split; [intros; apply (verdict_built e p1 rc m); auto|].
  intros q Hq. rewrite (dev_view _ _ Hq). rewrite <- AV. destruct (rc =? 0); reflexivity.
Qed.

Lemma text_answer e p f rest d : env_ok e -> pd_inv p -> clear_cmd e p f rest 107 d -> 256 <= e_tx e -> 69 <= tx_buf_size p ->
  enforce (fl p) = false -> has_cb p = true -> ~ length_wrong 107 d -> cap_level (caps p) 6 <> 0 -> cap_items (caps p) 6 <> 0 ->
  exchange e p f rest [text_of d] (verdict (fst (e_cb e 0 (text_of d)))) (fun q => app_view q = app_view p).
Proof.
  intros K I C TX T1 EN HC LW C1 C2. apply (verdict_answer e p f rest 107 d); auto; [lia|]. intros p1 CP HB.
  unfold length_wrong in LW. simpl in LW.
  unfold decode_switch. simpl. unfold do_text, cap_present. rewrite HB, HC.
  change (c_comp (cap_at p1 CAP_TEXT)) with (cap_level (caps p1) 6). change (c_num (cap_at p1 CAP_TEXT)) with (cap_items (caps p1) 6). rewrite CP.
  assert (N5 : getb d 5 = nth 5 d 0) by reflexivity.
  replace (zlen d <? 6) with false by lia. simpl. rewrite N5. replace (nth 5 d 0 >? 32) with false by lia. replace (zlen d - 6 <? nth 5 d 0) with false by lia.
  simpl. replace (cap_items (caps p) 6 =? 0) with false by lia. replace (cap_level (caps p) 6 =? 0) with false by lia. reflexivity.
Qed.

Lemma mfg_answer e p f rest d : env_ok e -> pd_inv p -> clear_cmd e p f rest 128 d -> 256 <= e_tx e -> 69 <= tx_buf_size p ->
  enforce (fl p) = false -> has_cb p = true -> ~ length_wrong 128 d ->
  exchange e p f rest [mfg_of d] (verdict (fst (e_cb e 0 (mfg_of d)))) (fun q => app_view q = app_view p).
Proof.
  intros K I C TX T1 EN HC LW. apply (verdict_answer e p f rest 128 d); auto; [lia|]. intros p1 CP HB.
  unfold length_wrong in LW. simpl in LW.
  unfold decode_switch. simpl. unfold do_mfg. rewrite HB, HC.
  replace (zlen d <? 4) with false by lia. simpl. replace (zlen d - 4 >? 64) with false by lia. reflexivity.
Qed.

(* COMSET: the answer goes out under the old address and carries the new settings, which hold from then on *)
Lemma comset_answer e p f rest d a b : env_ok e -> pd_inv p -> clear_cmd e p f rest 110 d -> 256 <= e_tx e -> 69 <= tx_buf_size p ->
  enforce (fl p) = false -> has_cb p = true -> zlen d = 5 -> nth 0 d 0 < 127 ->
  In (le32 (nth 1 d 0) (nth 2 d 0) (nth 3 d 0) (nth 4 d 0)) legal_bauds ->
  e_cb e 0 (comset_of d) = (0, CComset a b) ->
  exchange e p f rest [comset_of d] ([84] ++ le_bytes 1 a ++ le_bytes 4 b) (fun q => address q = a /\ baud q = b).
Proof.
  intros K I C TX T1 EN HC L5 LA LB CB. set (pay := [84] ++ le_bytes 1 a ++ le_bytes 4 b).
  assert (PL : zlen pay = 6) by reflexivity.
  apply (clear_exchange e p f rest 110 d); auto.
  intros ps A SA AV EP Bp. destruct (view_fields _ _ AV) as (_ & _ & _ & CP & _ & _ & PX & HB).
  set (p1 := set_cmd_id 110 (set_reply_id 0 ps)).
  set (p3 := set_reply_id 84 (set_eph (EphCmd (CComset a b)) p1)).
  assert (TB : tx_buf_size p3 = tx_buf_size p) by (apply tx_same; exact PX).
  exists p3, (set_baud b (set_address a (after_init p3))), RNone.
  assert (RR : 60 <= reply_room p3). { unfold reply_room, pd_hdr. change (sc_active (fl p3)) with (sc_active (fl ps)). rewrite SA, TB. pose proof (mk_of_len p3).
    change (in_sc_handshake true (reply_id p3)) with false. unfold zlen. rewrite app_length. simpl length. lia. }
  split.
  { rewrite decode_gate; auto; [|rewrite EP, EN; reflexivity]. fold p1. unfold decode_switch. simpl. unfold do_comset.
    change (has_cb p1) with (has_cb ps). rewrite HB, HC. replace (zlen d =? 5) with true by lia.
    change (getb d 0) with (nth 0 d 0). replace (nth 0 d 0 >=? 127) with false by lia.
    replace (baud_ok (le32 (getb d 1) (getb d 2) (getb d 3) (getb d 4))) with true.
    - simpl. unfold do_callback. change (CComset (nth 0 d 0) (le32 (getb d 1) (getb d 2) (getb d 3) (getb d 4))) with (comset_of d). rewrite CB. reflexivity.
    - symmetry. unfold baud_ok. change (getb d 1) with (nth 1 d 0). change (getb d 2) with (nth 2 d 0). change (getb d 3) with (nth 3 d 0). change (getb d 4) with (nth 4 d 0).
      revert LB. unfold legal_bauds. set (z := le32 _ _ _ _). cbn [In]. lia. }
  split; auto. rewrite TB. split; [lia|]. split; [reflexivity|].
  split. { unfold build_switch. simpl. unfold assert_len. replace (6 <? reply_room p3) with true by lia.
    assert (pay = [84; u8 a; byte0 b; byte1 b; byte2 b; byte3 b]) as ->; [|reflexivity].
    unfold pay, le_bytes. cbn [seq map app]. change (2 ^ (8 * Z.of_nat 0)) with 1. rewrite !Z.div_1_r. reflexivity. }
  split; [exact SA|]. split; [intros [X _]; discriminate|]. split; [reflexivity|].
  intros q Hq. split; [exact (f_equal (fun x => address x) Hq)|exact (f_equal (fun x => baud x) Hq)].
Qed.

Lemma comset_refused e p f rest d : env_ok e -> pd_inv p -> clear_cmd e p f rest 110 d -> 256 <= e_tx e -> 69 <= tx_buf_size p ->
  enforce (fl p) = false -> has_cb p = true -> zlen d = 5 -> nth 0 d 0 < 127 ->
  In (le32 (nth 1 d 0) (nth 2 d 0) (nth 3 d 0) (nth 4 d 0)) legal_bauds ->
  fst (e_cb e 0 (comset_of d)) <> 0 ->
  exchange e p f rest [comset_of d] [65; 9] (fun q => app_view q = app_view p).
Proof.
  intros K I C TX T1 EN HC L5 LA LB CB. apply (exchange_by e p f rest 110 d); auto; [change (zlen [65; 9]) with 2; lia|].
  intros ps A SA AV Bp. destruct (view_fields _ _ AV) as (_ & _ & _ & CP & _ & _ & _ & HB). cbv zeta.
  set (p1 := set_cmd_id 110 (set_reply_id 0 ps)). exists (nak 9 p1), RReply.
  split.
  { unfold decode_switch. simpl. unfold do_comset.
    change (has_cb p1) with (has_cb ps). rewrite HB, HC. replace (zlen d =? 5) with true by lia.
    change (getb d 0) with (nth 0 d 0). replace (nth 0 d 0 >=? 127) with false by lia.
    replace (baud_ok (le32 (getb d 1) (getb d 2) (getb d 3) (getb d 4))) with true.
    - simpl. unfold do_callback. change (CComset (nth 0 d 0) (le32 (getb d 1) (getb d 2) (getb d 3) (getb d 4))) with (comset_of d).
      destruct (e_cb e 0 (comset_of d)) as [rc c1]. simpl in CB. replace (rc =? 0) with false by lia. reflexivity.
    - symmetry. unfold baud_ok. change (getb d 1) with (nth 1 d 0). change (getb d 2) with (nth 2 d 0). change (getb d 3) with (nth 3 d 0). change (getb d 4) with (nth 4 d 0).
      revert LB. unfold legal_bauds. set (z := le32 _ _ _ _). cbn [In]. lia. }
  split; auto. split; [auto|]. split; [reflexivity|]. split; [intros [X _]; discriminate|].
  split; [intros; apply nak_built; auto|]. intros q Hq. rewrite (dev_view _ _ Hq). exact AV.
Qed.

(** * Status commands *)
(* code, status kind, reply code *)
Definition status_code (c ty rp : Z) : Prop :=
  (c = 100 /\ ty = 2 /\ rp = 72) \/ (c = 101 /\ ty = 0 /\ rp = 73) \/ (c = 102 /\ ty = 1 /\ rp = 74) \/ (c = 103 /\ ty = 3 /\ rp = 75).

Lemma status_answer e p f rest c ty rp t n m pay : env_ok e -> pd_inv p -> clear_cmd e p f rest c [] -> 256 <= e_tx e -> 69 <= tx_buf_size p ->
  enforce (fl p) = false -> has_cb p = true -> status_code c ty rp -> cap_covers (caps p) (CStatus ty 0 0) ->
  e_cb e 0 (CStatus ty 0 0) = (0, CStatus t n m) -> n <= 32 -> event_payload (caps p) (EStatus ty n m) = Some pay ->
  zlen pay + 8 <= tx_buf_size p ->
  exchange e p f rest [CStatus ty 0 0] pay (fun q => app_view q = app_view p).
Proof.
  intros K I C TX T1 EN HC SC CC CB N32 P L. apply (exchange_by e p f rest c []); auto.
  intros ps A SA AV Bp. destruct (view_fields _ _ AV) as (_ & _ & _ & CP & _ & _ & _ & HB). cbv zeta.
  set (p1 := set_cmd_id c (set_reply_id 0 ps)). set (p3 := set_reply_id rp (set_eph (EphEv (EStatus t n m)) p1)).
  exists p3, RNone.
  assert (DS : do_status e p1 ty rp = Ok (p3, RNone, [OCmd (CStatus ty 0 0)])).
  { unfold do_status, do_callback. rewrite CB. reflexivity. }
  split.
  { destruct CC as [C1 C2].
    assert (X1 : ty = 0 -> cap_present p1 CAP_CONTACT = true).
    { intros Y. destruct (C1 Y) as [Y1 Y2]. rewrite <- CP in Y1, Y2. change (cap_level (caps ps) 1) with (c_comp (cap_at p1 CAP_CONTACT)) in Y1.
      change (cap_items (caps ps) 1) with (c_num (cap_at p1 CAP_CONTACT)) in Y2. unfold cap_present. lia. }
    assert (X2 : ty = 1 -> cap_present p1 CAP_OUTPUT = true).
    { intros Y. destruct (C2 Y) as [Y1 Y2]. rewrite <- CP in Y1, Y2. change (cap_level (caps ps) 2) with (c_comp (cap_at p1 CAP_OUTPUT)) in Y1.
      change (cap_items (caps ps) 2) with (c_num (cap_at p1 CAP_OUTPUT)) in Y2. unfold cap_present. lia. }
    assert (X3 : has_cb p1 = true) by (change (has_cb p1) with (has_cb ps); congruence).
    destruct SC as [(-> & -> & ->)|[(-> & -> & ->)|[(-> & -> & ->)|(-> & -> & ->)]]].
    - change (decode_switch e p1 100 []) with (Some (if negb (zlen (@nil Z) =? 0) then Ok (p1, RGeneric, []) else if negb (has_cb p1) then UB NullCall else do_status e p1 2 72)).
      rewrite X3, DS. reflexivity.
    - change (decode_switch e p1 101 []) with (Some (if negb (zlen (@nil Z) =? 0) || negb (has_cb p1) then Ok (p1, RGeneric, []) else if negb (cap_present p1 CAP_CONTACT) then Ok (nak 3 p1, RReply, []) else do_status e p1 0 73)).
      rewrite X3, X1, DS; reflexivity.
    - change (decode_switch e p1 102 []) with (Some (if negb (zlen (@nil Z) =? 0) || negb (has_cb p1) then Ok (p1, RGeneric, []) else if negb (cap_present p1 CAP_OUTPUT) then Ok (nak 3 p1, RReply, []) else do_status e p1 1 74)).
      rewrite X3, X2, DS; reflexivity.
    - change (decode_switch e p1 103 []) with (Some (if negb (zlen (@nil Z) =? 0) || negb (has_cb p1) then Ok (p1, RGeneric, []) else do_status e p1 3 75)).
      rewrite X3, DS; reflexivity. }
  split; auto. split; [repeat split; auto|]. split; [destruct SC as [(_ & _ & X)|[(_ & _ & X)|[(_ & _ & X)|(_ & _ & X)]]]; change (reply_id p3) with rp; rewrite X; reflexivity|].
  split; [destruct SC as [(X & _)|[(X & _)|[(X & _)|(X & _)]]]; rewrite X; intros [Y _]; discriminate|].
  split; [|intros q Hq; rewrite (dev_view _ _ Hq); exact AV].
  intros mm Hm H60.
  assert (ER : event_reply (EStatus ty n m) = rp) by (destruct SC as [(_ & -> & ->)|[(_ & -> & ->)|[(_ & -> & ->)|(_ & -> & ->)]]]; reflexivity).
  (* the kind stored with the answer does not matter *)
  apply (status_built e (after_init p3) t ty n m pay mm); auto.
  - rewrite ER. destruct SC as [(_ & _ & X)|[(_ & _ & X)|[(_ & _ & X)|(_ & _ & X)]]]; lia.
  - change (caps (after_init p3)) with (caps ps). rewrite CP. exact P.
Qed.
