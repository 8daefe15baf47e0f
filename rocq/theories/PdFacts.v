(** PD: consequences of the case analysis that the property theorems use. *)
From Verif Require Import Base ListLemmas Crc SpecCrc CrcProofs CrcBurst Aes AesProofs Rb RbProofs
  Types Sc ScProofs Phy PhyCheck File Pd SpecRx SpecFrame SpecSec SpecCmd MacProofs RxProofs RxFwd PdRx PdCore PhyTx PdTx PdReply
  PdStep PdWire PdFwd SpecPd PdRun PdSpeak PdPlain PdSec PdRefuse.
From Coq Require Import ZifyBool ZifyNat.
Ltac Zify.zify_post_hook ::= Z.div_mod_to_equations.
Local Opaque aes_ecb_encrypt aes_cbc_encrypt aes_cbc_decrypt mac_of RB_SIZE osdp_mac enc1.

(* which answers open a session *)
Lemma reply_phase_active e p q o : env_ok e -> binv p -> reply_phase e p = Ok (q, o) -> sc_active (fl q) = true ->
  reply_id q = reply_id p /\
  (sc_active (fl p) = true \/
   (reply_id p = REPLY_RMAC_I /\ cp_crypt (sc p) = cp_cryptogram_of (sc p) /\ sc_tstamp q = e_now e)).
Proof.
  intros K I H A. destruct (reply_phase_cases e p q o K I H) as (q1 & ok & RS & I1 & _ & Q).
  destruct (reply_sent_ids e p q1 ok o RS) as (D1 & D2 & D3).
  destruct Q as [(-> & _)|(_ & _ & _ & k & _ & ->)]; [|discriminate].
  change (fl (state_reset false q1)) with (fl q1) in A. change (reply_id (state_reset false q1)) with (reply_id q1).
  change (sc_tstamp (state_reset false q1)) with (sc_tstamp q1).
  split; auto.
  destruct RS as [(_ & -> & _)|(_ & p2 & pay & ss & m & smb & ob & ot & BS & Hm & _ & BR & NT & T & TY & -> & S)]; auto.
  pose proof (txcore_flags _ _ T) as F. rewrite F in A.
  assert (TS : sc_tstamp q1 = sc_tstamp p2) by exact (f_equal (fun x => sc_tstamp x) T). rewrite TS. clear - A BR.
  destruct BR as [->|[(E & a & b & _ & ->)|[(E & x & ->)|[(E & ->)|[(E & C & ->)|(E & C & ->)]]]]]; auto.
Qed.

(* ... and the whole second half of a refresh *)
Lemma finish_active e p3 r o1 q o : env_ok e -> binv p3 -> pd_finish e (p3, r, o1) = Ok (q, o) -> sc_active (fl q) = true ->
  (r = RNone \/ r = RReply \/ r = RWait \/ r = RGeneric) ->
  sc_active (fl p3) = true \/ (reply_id q = REPLY_RMAC_I /\ reply_id p3 = REPLY_RMAC_I /\ (r = RNone \/ r = RReply) /\ cp_crypt (sc p3) = cp_cryptogram_of (sc p3)).
Proof.
  intros K I H A R. destruct (sc_active (fl p3)) eqn:E; auto. right.
  unfold pd_finish in H. destruct r; try (exfalso; intuition congruence).
  - apply bind_inv in H. destruct H as ([p4 o4] & H1 & H2). inv H2.
    assert (Bu : bumped e p3 = p3) by (unfold bumped; rewrite E; reflexivity). rewrite Bu in H1.
    destruct (reply_phase_active e p3 q o4 K I H1 A) as (X & [Y|(Y1 & Y2 & Y3)]); [congruence|].
    split; [congruence|]. auto.
  - destruct (_ <? _) in H; inv H; simpl in A; congruence.
  - inv H. simpl in A. congruence.
  - apply bind_inv in H. destruct H as ([p4 o4] & H1 & H2). inv H2.
    destruct (reply_phase_active e p3 q o4 K I H1 A) as (X & [Y|(Y1 & Y2 & Y3)]); [congruence|].
    split; [congruence|]. auto.
Qed.

Lemma decode_result e ps p3 r o : env_ok e -> binv ps -> full ps -> rap_k e (ps, KNone) = Ok (p3, r, o) ->
  binv p3 /\ (sc_active (fl p3) = true -> sc_active (fl ps) = true) /\ (r = RNone \/ r = RReply \/ r = RWait \/ r = RGeneric).
Proof.
  intros K I F H. destruct (rap_none e ps p3 r o H) as (p2 & d & D & C).
  destruct (decode_packet_inv ps p2 d I F D) as (I2 & F2 & DD).
  destruct (decode_packet_core ps p2 d (iv_mode ps I) D) as (_ & _ & SA & _).
  destruct C as [(-> & -> & -> & ->)|[(c & -> & _ & -> & -> & ->)|(l & -> & C)]].
  - auto.
  - split; auto.
  - destruct DD as [Bl Nl].
    destruct (decode_command_inv e p2 l p3 r o K Bl I2 C) as [I3 _].
    destruct (decode_command_core e p2 l p3 r o C) as (_ & SB & _ & _ & R1 & R2 & R3).
    split; auto. split; auto. destruct r; try congruence; auto.
Qed.

Lemma seq_accepted e p f rest : env_ok e -> pd_inv p -> next_frame e p f rest -> f_intact f -> f_mine (address p) f ->
  seq_ok (seqn p) (f_seq f) ->
  exists p1, seqn p1 = f_seq f /\ app_view p1 = app_view p /\ frame_of p1 = f /\
       sc_active (fl p1) = (session_open e p && negb (f_seq f =? 0)) /\
       pd_refresh e p = bind (rap_k e (p1, KNone)) (pd_finish e).
Proof.
  intros K I N V M S.
  destruct (frame_verdict e p f rest K I N) as (p1 & R & Ef & Rr & Sy & I1 & F1 & Bf & TS & _ & _ & _ & X).
  specialize (X V M S).
  destruct (core_view _ _ R) as (R1 & R2 & R3 & R4 & R5 & R6 & R7 & R8 & R9).
  destruct (timeout_view e p) as (T1 & T2 & T3 & T4). destruct (timeout_ids e p) as (U1 & U2 & U3 & U4).
  destruct (seen_view f p1) as (V1 & V2 & V3 & V4 & V5).
  destruct (seen_buffers f p1) as (W1 & W2 & W3 & W4 & W5 & W6).
  destruct (seen_ids f p1) as (Y1 & Y2 & Y3).
  exists (pd_seen f p1). split. { rewrite Y3, R7, U2. apply seq_after_ok; auto. }
  split; [congruence|]. split; [congruence|]. split; [|exact X].
  rewrite V3, R3, session_open_eq. reflexivity.
Qed.

Lemma zero_closes e p f rest q o : env_ok e -> pd_inv p -> next_frame e p f rest -> f_intact f -> f_mine (address p) f ->
  f_seq f = 0 -> pd_refresh e p = Ok (q, o) -> sc_active (fl q) = true -> reply_id q = REPLY_RMAC_I.
Proof.
  intros K I N V M S H A.
  destruct (frame_verdict e p f rest K I N) as (p1 & R & Ef & Rr & Sy & I1 & F1 & Bf & TS & _ & _ & _ & X).
  specialize (X V M (or_introl S)). rewrite X in H. clear X.
  apply bind_inv in H. destruct H as ([[p3 r] o1] & H1 & H2).
  pose proof (binv_seen f p1 I1) as I2. pose proof (full_seen f p1 F1) as F2.
  destruct (decode_result e _ p3 r o1 K I2 F2 H1) as (I3 & SA & RR).
  destruct (finish_active e p3 r o1 q o K I3 H2 A RR) as [Y|(Y & _)]; auto.
  apply SA in Y. destruct (seen_view f p1) as (_ & _ & V3 & _). rewrite V3, S in Y. rewrite andb_false_r in Y. discriminate.
Qed.

Lemma foreign_silent e p f rest : env_ok e -> pd_inv p -> next_frame e p f rest -> f_intact f -> ~ f_mine (address p) f ->
  exists q, pd_refresh e p = Ok (q, []) /\ pending q = rest /\ app_view q = app_view p /\
    sc q = sc p /\ seqn q = seqn p /\ sc_active (fl q) = session_open e p /\ broadcast (fl q) = broadcast (fl p).
Proof.
  intros K I N V M.
  destruct (frame_verdict e p f rest K I N) as (p1 & R & Ef & Rr & Sy & I1 & F1 & Bf & TS & _ & X & _ & _).
  specialize (X V M).
  destruct (core_view _ _ R) as (R1 & R2 & R3 & R4 & R5 & R6 & R7 & R8 & R9).
  destruct (timeout_view e p) as (T1 & T2 & T3 & T4). destruct (timeout_ids e p) as (U1 & U2 & U3 & U4).
  exists (state_reset false p1). split; auto. split; [rewrite pending_reset; auto|].
  change (app_view (state_reset false p1)) with (app_view p1). change (sc (state_reset false p1)) with (sc p1).
  change (seqn (state_reset false p1)) with (seqn p1). change (fl (state_reset false p1)) with (fl p1).
  split; [congruence|]. split; [congruence|]. split; [congruence|]. split; [|congruence]. rewrite R3. apply session_open_eq.
Qed.

Lemma in_tx_last oc F d : no_tx oc -> In (OTx d) (oc ++ [OTx F]) -> d = F.
Proof. intros N H. apply in_app_or in H. destruct H as [H|[H|[]]]; [destruct (N d H)|congruence]. Qed.

Lemma broadcast_answer e p q o d : env_ok e -> pd_inv p -> pd_refresh e p = Ok (q, o) -> In (OTx d) o ->
  exists noise mk f rest F w k, arrived e p = noise ++ mk ++ f ++ rest /\ f_shape false f /\ f_intact f /\
    f_mine (address p) f /\ d = firstn k F /\ (0 < k <= length F)%nat /\ (F = w \/ F = 255 :: w) /\
    nth 1 w 0 = (if (f_addr f =? 127) || broadcast (fl p) then 255 else address p mod 128 + 128).
Proof.
  intros K I H D. destruct (refresh_tx e p q o K I H) as [N|(f & rest & oc & F & k & (noise & mk & A & _) & S & V & M & G & L & -> & NO)].
  - destruct (N d D).
  - apply in_tx_last in D; auto. destruct G as (mk2 & w & EF & MK & _ & _ & _ & _ & _ & AD & _).
    exists noise, mk, f, rest, F, w, (Z.to_nat k). unfold zlen in L.
    do 6 (split; [first [assumption|lia]|]). split; [|exact AD]. destruct MK as [-> | ->]; subst; auto.
Qed.

Lemma spoken_to e p q o : env_ok e -> pd_inv p -> pd_refresh e p = Ok (q, o) ->
  (tx_count o <= 1)%nat /\
  (forall d, In (OTx d) o -> exists noise mk f rest, arrived e p = noise ++ mk ++ f ++ rest /\
     ~ In 83 noise /\ zlen mk <= 1 /\ f_shape false f /\ f_intact f /\ (f_addr f = address p \/ f_addr f = 127)).
Proof.
  intros K I H. destruct (refresh_tx e p q o K I H) as [N|(f & rest & oc & F & k & (noise & mk & A & NN & MK) & S & V & M & G & L & -> & NO)].
  - split. { rewrite tx_count_none; auto. } intros d D. destruct (N d D).
  - split. { rewrite tx_count_app, (tx_count_none oc NO). simpl. lia. }
    intros d D. exists noise, mk, f, rest. split; auto. split; auto. split; [destruct MK as [-> | ->]; [change (zlen (@nil Z)) with 0|]; lia|]. auto.
Qed.

Lemma packet_shape e p q o d : env_ok e -> pd_inv p -> pd_refresh e p = Ok (q, o) -> In (OTx d) o ->
  exists F k f mk w, d = firstn k F /\ (0 < k <= length F)%nat /\ F = mk ++ w /\ (mk = [] \/ mk = [255]) /\
    bytes w /\ nth 0 w 0 = 83 /\ f_reply w = true /\ f_len w = zlen w /\ f_crc w = true /\ crc_valid w /\
    f_seq w = seq_after (seqn p) (f_seq f) /\
    nth 1 w 0 = (if (f_addr f =? 127) || broadcast (fl p) then 255 else address p mod 128 + 128) /\
    zlen F <= 256 /\ (peer_rx q <> 0 -> zlen F <= peer_rx q).
Proof.
  intros K I H D. destruct (refresh_tx e p q o K I H) as [N|(f & rest & oc & F & k & (noise & mk & A & NN & MK) & S & V & M & G & L & -> & NO)].
  - destruct (N d D).
  - apply in_tx_last in D; auto. destruct G as (mk2 & w & EF & MK2 & B & (S1 & S2 & S3 & S4) & C & CV & SQ & AD & Z1 & Z2).
    exists F, (Z.to_nat k), f, mk2, w. unfold zlen in L. do 2 (split; [first [assumption|lia]|]).
    repeat (split; [assumption|]). assumption.
Qed.

Lemma receive_bounds e p : pd_inv p -> Forall bytes (e_rx e) ->
  (exists q k, check_packet e p = Ok (q, k) /\ length (pbuf q) = 256%nat /\ 0 <= pblen q <= 256) \/
  (check_packet e p = UB OobWrite /\
   exists noise f, arrived e p = noise ++ 255 :: f /\ nth 0 f 0 = 83 /\ f_reply f = false /\ f_len f = 256 /\ 256 <= zlen f).
Proof.
  intros [B F Sy] BR.
  assert (Hpd : pd_mode (fl p) = true) by apply B.
  destruct (check_packet_cases e p (conj (iv_rxb p B) F) BR) as [(E & q & R & PL & HM & CH & PB & (noise & A & L & _) & SY & P5 & RB)|[(q & k & E & NF & _)|(q & E & GF & _)]].
  - right. split; auto. specialize (SY Sy). destruct (SY ltac:(lia)) as (_ & t & PD). rewrite HM in PD.
    exists noise, (83 :: t). split; [rewrite A, PD; reflexivity|]. split; [reflexivity|].
    destruct RB as (W1 & W2 & W3 & W4).
    assert (G : forall i, (i < 5)%nat -> nth i (pbuf q) 0 = nth i (pending q) 0).
    { intros i Hi. unfold pending. rewrite app_nth1 by (rewrite firstn_length; lia). symmetry. apply nth_firstn. lia. }
    pose proof (rxcore_pd_mode _ _ R) as PM. rewrite Hpd in PM.
    unfold check_header_bytes in CH. unfold mark_len in CH. rewrite HM, PM in CH. unfold getb in CH.
    change (Z.to_nat (1 + 0)) with 1%nat in CH. change (Z.to_nat (1 + 1)) with 2%nat in CH.
    change (Z.to_nat (1 + 2)) with 3%nat in CH. change (Z.to_nat (1 + 3)) with 4%nat in CH.
    rewrite !G in CH by lia. rewrite PD in CH. cbn [app nth] in CH.
    assert (BT : bytes (83 :: t)).
    { assert (X : bytes (pending q)) by (unfold pending; apply bytes_app; split; [apply bytes_firstn; auto|auto]).
      rewrite PD in X. inv X. auto. }
    unfold f_reply, f_len. cbn [nth] in *.
    destruct (negb (83 =? PKT_SOM)); [discriminate|].
    destruct ((negb true && negb (Z.testbit (nth 0 t 0) 7)) || (true && Z.testbit (nth 0 t 0) 7)) eqn:D; [discriminate|].
    cbn [negb andb orb] in D. destruct ((_ >? _) || _) eqn:D2; [discriminate|]. inv CH.
    pose proof (bytes_nth (83 :: t) 1 BT) as B1. cbn [nth] in B1. unfold byte in B1.
    rewrite testbit_div in D by lia. change (2 ^ 7) with 128 in D.
    split; [lia|]. split; [lia|]. rewrite PD in L. cbn [app] in L. rewrite zlen_cons in L. lia.
  - left. exists q, k. split; auto. destruct NF as (_ & ((W1 & W2 & W3 & W4) & FF) & _). split; auto. destruct FF as [FF|FF]; lia.
  - left. destruct (check_packet_bytes q (frame_of q)) as [q2 k] eqn:C. exists q2, k. split; auto.
    destruct GF as (R & ((W1 & W2 & W3 & W4) & FF) & _ & PB & PL & _).
    assert (X : pbuf q2 = pbuf q /\ pblen q2 = pblen q).
    { clear -C. unfold check_packet_bytes in C. destruct (check_crc (frame_of q)); [|inv C; auto].
      cbv zeta in C. unfold get_seq in C.
      repeat (match type of C with context [if ?b then _ else _] => destruct b end; try (inv C; auto; fail)). }
    destruct X as [-> ->]. split; auto. lia.
Qed.
