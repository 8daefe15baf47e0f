(** PD: frames with a security block of a running session. *)
From Verif Require Import Base ListLemmas Crc SpecCrc CrcProofs CrcBurst Aes AesProofs Rb RbProofs
  Types Sc ScProofs Phy PhyCheck File Pd SpecRx SpecFrame SpecSec MacProofs RxProofs RxFwd PdRx PdCore PhyTx PdTx PdReply
  PdStep PdWire PdFwd SpecPd PdRun PdSpeak PdPlain.
From Coq Require Import ZifyBool ZifyNat.
Ltac Zify.zify_post_hook ::= Z.div_mod_to_equations.
Local Opaque aes_ecb_encrypt aes_cbc_encrypt aes_cbc_decrypt mac_of RB_SIZE osdp_mac enc1.

(* the MAC bytes a device with secure channel state s wants to see on f *)
Definition mac_wanted (s : schan) (f : list Z) : list Z :=
  firstn 4 (osdp_mac (s_mac1 s) (s_mac2 s) (r_mac s) (f_covered f)).

Lemma frame_prefix p n : length (pbuf p) = 256%nat -> full p -> 0 <= n <= zlen (frame_of p) ->
  firstn (Z.to_nat n) (from (pbuf p) (mark_len p)) = firstn (Z.to_nat n) (frame_of p).
Proof.
  intros L F H. destruct (frame_from p L F) as (_ & _ & X).
  specialize (X 0 n ltac:(lia) ltac:(lia) ltac:(lia)). exact X.
Qed.

Lemma decode_bad_mac p f : binv p -> full p -> frame_of p = f -> bytes f -> f_scb f = true -> 7 <= zlen f ->
  21 <= f_sctype f <= 24 -> sc_active (fl p) = true -> f_mac f <> mac_wanted (sc p) f ->
  exists m, blk m /\ decode_packet p = Ok (nak 6 (sc_deactivate (set_c_mac m p)), DErr (-6)).
Proof.
  intros I F E Bf SB L T SA M.
  destruct I as [x1 x2 x3 x4 x5 x6 x7 x8 x9]. destruct x5 as (E1 & E2 & E3 & E4 & E5 & E6).
  destruct (frame_from p E5 F) as (Z1 & Z2 & Z3). rewrite E in Z1.
  pose proof (getb_frame p 4 E5 F) as G4. rewrite E in G4. specialize (G4 ltac:(lia)).
  pose proof (getb_frame p 6 E5 F) as G6. rewrite E in G6. specialize (G6 ltac:(lia)).
  assert (PB : pblen p = plen p) by apply F.
  assert (C4 : ctl_scb (getb (from (pbuf p) (mark_len p)) 4) = true).
  { rewrite G4. rewrite f_scb_ctl in SB. unfold getb in SB. exact SB. }
  assert (K4 : ctl_crc (getb (from (pbuf p) (mark_len p)) 4) = f_crc f).
  { rewrite G4, f_crc_ctl. reflexivity. }
  set (mo := zlen f - f_tail f - 4).
  assert (MO : 1 <= mo /\ mo + 4 <= zlen f) by (unfold mo, f_tail; destruct (f_crc f); lia).
  assert (CV : firstn (Z.to_nat mo) (from (pbuf p) (mark_len p)) = f_covered f).
  { rewrite (frame_prefix p mo E5 F) by (rewrite E; lia). rewrite E. reflexivity. }
  assert (FM : sub (from (pbuf p) (mark_len p)) mo 4 = f_mac f).
  { rewrite (Z3 mo 4) by (try rewrite E; lia). rewrite E. reflexivity. }
  assert (NE : f_covered f <> []).
  { unfold f_covered. intros X. apply (f_equal (@length Z)) in X. rewrite firstn_length in X. simpl in X. unfold zlen in *. unfold mo in *. lia. }
  assert (BC : bytes (f_covered f)) by (apply bytes_firstn; auto).
  destruct E4 as (S1 & S2 & _). destruct S1 as (Q1 & Q2 & Q3 & Q4 & Q5).
  exists (mac_of (s_mac1 (sc p)) (s_mac2 (sc p)) (r_mac (sc p)) (f_covered f)).
  split. { apply blk_mac_of; auto. }
  unfold decode_packet. rewrite C4, K4, x1, PB, G6, SA.
  assert (CAP : sc_is_capable p = true) by (unfold sc_is_capable; destruct x8 as [-> ->]; reflexivity).
  rewrite CAP. unfold f_sctype in T. change (Z.to_nat 6) with 6%nat.
  unfold SCS_11, SCS_13, SCS_14, SCS_15, SCS_18 in *.
  set (ty := nth 6 f 0) in *.
  replace ((ty <? 17) || (ty >? 24)) with false by lia.
  replace (negb true && (ty >? 20)) with false by reflexivity.
  replace ((ty =? 17) || (ty =? 19)) with false by lia.
  cbn [andb negb]. replace (21 <=? ty) with true by lia.
  replace (plen p - mark_len p - (if f_crc f then 2 else 1) - 4) with mo by (unfold mo, f_tail; lia).
  unfold decode_secure. rewrite x1, CV. unfold compute_mac.
  replace (zlen (f_covered f) =? 0) with false.
  2:{ symmetry. apply Z.eqb_neq. intros X. apply NE. destruct (f_covered f); auto. rewrite zlen_cons in X. pose proof (zlen_nonneg l). lia. }
  rewrite bind_Ok, FM. change (c_mac (sc (set_c_mac ?m p))) with m.
  replace (eqb_bytes (f_mac f) (firstn 4 (mac_of (s_mac1 (sc p)) (s_mac2 (sc p)) (r_mac (sc p)) (f_covered f)))) with false.
  - reflexivity.
  - symmetry. apply not_true_is_false. intros X. apply eqb_bytes_eq in X. apply M. rewrite X. unfold mac_wanted.
    rewrite mac_of_spec; auto.
Qed.

(* a frame with a wrong MAC: refused, session dropped *)
Lemma bad_mac e p f rest : env_ok e -> pd_inv p -> next_frame e p f rest ->
  f_intact f -> f_mine (address p) f -> seq_ok (seqn p) (f_seq f) -> f_seq f <> 0 ->
  sc_active (fl (sc_timeout e p)) = true -> f_scb f = true -> 7 <= zlen f -> 21 <= f_sctype f <= 24 ->
  f_mac f <> mac_wanted (sc p) f ->
  (forall q o, pd_refresh e p = Ok (q, o) -> only_tx o /\ app_view q = app_view p /\ sc_active (fl q) = false /\ pending q = rest) /\
  (69 <= tx_buf_size p -> 256 <= e_tx e ->
   exists q o, pd_refresh e p = Ok (q, o) /\ answers o (answer_addr p f) (f_seq f) [65; 6]).
Proof.
  intros K I N V M S S0 SA SB L T MM.
  destruct (frame_verdict e p f rest K I N) as (p1 & R & Ef & Rr & Sy & I1 & F1 & Bf & TS & _ & _ & _ & X).
  specialize (X V M S).
  destruct (core_view _ _ R) as (R1 & R2 & R3 & R4 & R5 & R6 & R7 & R8 & R9).
  destruct (timeout_view e p) as (T1 & T2 & T3 & T4). destruct (timeout_ids e p) as (U1 & U2 & U3 & U4).
  destruct (seen_view f p1) as (V1 & V2 & V3 & V4 & V5).
  destruct (seen_buffers f p1) as (W1 & W2 & W3 & W4 & W5 & W6).
  assert (A : answering p f (pd_seen f p1)) by (apply (answering_timeout e); apply answering_seen; auto).
  set (ps := pd_seen f p1) in *.
  assert (Sps : sc ps = sc p) by congruence.
  destruct (decode_bad_mac ps f) as (m & Bm & D); auto.
  { apply A. } { apply full_seen; auto. } { congruence. } { rewrite V3, R3, SA. simpl. apply negb_true_iff. lia. }
  { rewrite Sps. auto. }
  unfold rap_k in X. rewrite D, bind_Ok in X. cbv beta iota zeta in X. change (-6 =? -6) with true in X. cbv iota in X. rewrite bind_Ok in X.
  set (pn := sc_deactivate (set_c_mac m ps)) in *.
  assert (An : answering p f pn).
  { destruct A as (A1 & A2). split; [|exact A2]. apply binv_deact, binv_c_mac; auto. }
  assert (X2 : pd_refresh e p = reply_phase e (nak 6 pn)).
  { rewrite X. unfold pd_finish. destruct (reply_phase e (nak 6 pn)) as [[? ?]| |]; reflexivity. }
  assert (B6 : byte 6) by (unfold byte; lia).
  split.
  - intros q o H. rewrite X2 in H. pose proof (nak_reply e pn 6 q o K (proj1 (answering_nak p f pn 6 B6 An)) H) as (H1 & H2 & H3 & H4 & H5 & H6).
    split; auto. split. { rewrite H2. change (app_view pn) with (app_view ps). congruence. }
    split; [rewrite H3; reflexivity|]. unfold pending. rewrite H6, H5. change (rb pn) with (rb ps). rewrite V5. exact Rr.
  - intros H1 H2. rewrite X2. rewrite <- (seq_after_ok _ _ S).
    apply nak_answer; auto; [apply I|]. change (tx_buf_size pn) with (tx_buf_size ps). rewrite V4, R4, T3. auto.
Qed.

(* a frame without security block inside a session is refused, whatever it holds *)
Lemma plain_in_session e p f rest : env_ok e -> pd_inv p -> next_frame e p f rest ->
  f_intact f -> f_mine (address p) f -> seq_ok (seqn p) (f_seq f) -> f_seq f <> 0 ->
  sc_active (fl (sc_timeout e p)) = true -> f_scb f = false ->
  forall q o, pd_refresh e p = Ok (q, o) -> only_tx o /\ app_view q = app_view p /\ pending q = rest.
Proof.
  intros K I N V M S S0 SA SB q o H.
  destruct (frame_verdict e p f rest K I N) as (p1 & R & Ef & Rr & Sy & I1 & F1 & Bf & TS & _ & _ & _ & X).
  specialize (X V M S).
  destruct (core_view _ _ R) as (R1 & R2 & R3 & R4 & R5 & R6 & R7 & R8 & R9).
  destruct (timeout_view e p) as (T1 & T2 & T3 & T4).
  destruct (seen_view f p1) as (V1 & V2 & V3 & V4 & V5).
  destruct (seen_buffers f p1) as (W1 & W2 & W3 & W4 & W5 & W6).
  assert (A : answering p f (pd_seen f p1)) by (apply (answering_timeout e); apply answering_seen; auto).
  set (ps := pd_seen f p1) in *.
  unfold rap_k in X.
  rewrite (decode_plain ps f) in X; auto; [|apply A|apply full_seen; auto|congruence|destruct N as ((_ & _ & _ & L) & _); lia].
  replace (sc_active (fl ps)) with true in X. 2:{ rewrite V3, R3, SA. symmetry. apply negb_true_iff. lia. }
  rewrite bind_Ok in X. change (-6 =? -6) with true in X. cbv iota in X. rewrite bind_Ok in X.
  assert (X2 : pd_refresh e p = reply_phase e (nak 6 ps)).
  { rewrite X. unfold pd_finish. destruct (reply_phase e (nak 6 ps)) as [[? ?]| |]; reflexivity. }
  assert (B6 : byte 6) by (unfold byte; lia).
  rewrite X2 in H. pose proof (nak_reply e ps 6 q o K (proj1 (answering_nak p f ps 6 B6 A)) H) as (H1 & H2 & H3 & H4 & H5 & H6).
  split; auto. split. { rewrite H2. congruence. }
  unfold pending. rewrite H6, H5, V5. exact Rr.
Qed.
