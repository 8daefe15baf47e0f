(** PD: invariants over histories - settings, keys, session stamps, event queue. *)
From Verif Require Import Base ListLemmas Crc SpecCrc CrcProofs CrcBurst Aes AesProofs Rb RbProofs
  Types Sc ScProofs Phy PhyCheck File Pd SpecRx SpecFrame SpecSec SpecCmd SpecApp MacProofs RxProofs RxFwd PdRx PdCore PhyTx PdTx PdReply
  PdStep PdWire PdFwd SpecPd PdRun PdSpeak PdPlain PdSec PdRefuse PdFacts PdKinds PdCase PdApp PdTrace.
From Coq Require Import ZifyBool ZifyNat.
Ltac Zify.zify_post_hook ::= Z.div_mod_to_equations.
Local Opaque aes_ecb_encrypt aes_cbc_encrypt aes_cbc_decrypt mac_of RB_SIZE osdp_mac enc1 cap_entries.

(* fields of related states *)


Lemma ans_fields p q : anscore q = anscore p ->
  (evq q = evq p /\ caps q = caps p /\ peer_rx q = peer_rx p /\ has_cb q = has_cb p) /\
  (pid q = pid p /\ pool q = pool p /\ cmd_id q = cmd_id p /\ reply_id q = reply_id p) /\
  (eph q = eph p /\ enforce (fl q) = enforce (fl p) /\ seqn q = seqn p) /\
  (cp_random (sc q) = cp_random (sc p) /\ cp_crypt (sc q) = cp_crypt (sc p) /\ client_uid (sc q) = client_uid (sc p)).
Proof. unfold anscore. intros H. inversion H. repeat split; assumption. Qed.

Lemma same_fields p q : samecore q = samecore p ->
  (anscore q = anscore p /\ address q = address p /\ baud q = baud p /\ file q = file p /\ sc_tstamp q = sc_tstamp p) /\
  (install (fl q) = install (fl p) /\ use_scbkd (fl q) = use_scbkd (fl p) /\ scbk (sc q) = scbk (sc p) /\
   s_enc (sc q) = s_enc (sc p) /\ pd_random (sc q) = pd_random (sc p)).
Proof.
  intros H. repeat split; [exact (f_equal (fun x => fst (fst (fst x))) H)| | | | | | | | |].
  - exact (f_equal (fun x => fst (fst (fst (snd (fst (fst x)))))) H).
  - exact (f_equal (fun x => snd (fst (fst (snd (fst (fst x)))))) H).
  - exact (f_equal (fun x => snd (fst (snd (fst (fst x))))) H).
  - exact (f_equal (fun x => snd (snd (fst (fst x)))) H).
  - exact (f_equal (fun x => fst (snd (fst x))) H).
  - exact (f_equal (fun x => snd (snd (fst x))) H).
  - exact (f_equal (fun x => fst (fst (fst (fst (snd x))))) H).
  - exact (f_equal (fun x => snd (fst (fst (fst (snd x))))) H).
  - exact (f_equal (fun x => snd (snd x)) H).
Qed.

(* what decoding a command leaves alone *)
Lemma cmd_fields e p l q r o : decode_command e p l = Ok (q, r, o) ->
  (address q = address p /\ baud q = baud p /\ caps q = caps p /\ has_cb q = has_cb p /\ pid q = pid p /\ pool q = pool p) /\
  (enforce (fl q) = enforce (fl p) /\ install (fl q) = install (fl p) /\ use_scbkd (fl q) = use_scbkd (fl p)) /\
  (scbk (sc q) = scbk (sc p) /\ s_enc (sc q) = s_enc (sc p) /\ pd_random (sc q) = pd_random (sc p)) /\
  cmd_id q = getb l 0 /\ (sc_active (fl q) = true -> sc_active (fl p) = true).
Proof.
  intros H. destruct (decode_command_core _ _ _ _ _ _ H) as (R & A & _ & C & _).
  split; [|split; [|split; [|auto]]]; repeat split;
    first [exact (f_equal (fun x => address x) R)|exact (f_equal (fun x => baud x) R)|exact (f_equal (fun x => caps x) R)|
           exact (f_equal (fun x => has_cb x) R)|exact (f_equal (fun x => pid x) R)|exact (f_equal (fun x => pool x) R)|
           exact (f_equal (fun x => enforce (fl x)) R)|exact (f_equal (fun x => install (fl x)) R)|exact (f_equal (fun x => use_scbkd (fl x)) R)|
           exact (f_equal (fun x => scbk (sc x)) R)|exact (f_equal (fun x => s_enc (sc x)) R)|exact (f_equal (fun x => pd_random (sc x)) R)].
Qed.

Lemma bumped_fields e p : let q := bumped e p in
  anscore q = anscore p /\ (address q = address p /\ baud q = baud p /\ file q = file p /\ sc q = sc p /\ fl q = fl p) /\
  sc_tstamp q = (if sc_active (fl p) then e_now e else sc_tstamp p).
Proof. unfold bumped. destruct (sc_active (fl p)) eqn:A; cbv zeta; repeat split; simpl; auto. Qed.

Lemma getb_head c d : getb (c :: d) 0 = c.
Proof. reflexivity. Qed.

(** * C32 address and baud rate *)
(* the pending COM answer has already been applied, unless no answer can be sent at all *)
Definition com_inv (p : pd) : Prop := forall a b, reply_id p = 84 -> eph p = EphCmd (CComset a b) ->
  tx_buf_size p < 69 \/ (address p = a /\ baud p = b).

Lemma tx_size_eq p q : peer_rx q = peer_rx p -> tx_buf_size q = tx_buf_size p.
Proof. unfold tx_buf_size. intros ->. auto. Qed.

Lemma com_near e p pr : com_inv p -> near (sc_timeout e p) pr -> nak_or_same (sc_timeout e p) pr -> com_inv pr.
Proof.
  intros C N S a b R E. destruct (near_fields _ _ N) as (_ & _ & _ & _ & F1 & F2 & _ & F3 & _).
  destruct (timeout_fields e p) as (_ & _ & _ & _ & T1 & T2 & _ & T3 & _ & _ & _ & _ & T4 & T5 & _).
  destruct S as [(X & _)|(X & Y)]; [congruence|]. rewrite (tx_size_eq p pr) by congruence.
  rewrite F1, F2, T1, T2. apply C; congruence.
Qed.

Lemma com_ans e p q : ans_rel e p q -> com_inv q.
Proof.
  intros [C A _ _ _ _ _] a b R E. destruct (ans_fields _ _ C) as ((_ & _ & X1 & _) & (_ & _ & _ & X2) & (X3 & _) & _).
  rewrite X2 in R. rewrite X3 in E. destruct A as [(_ & _ & A)|(_ & _ & a2 & b2 & A1 & A2 & A3)].
  - left. rewrite (tx_size_eq p q X1). auto.
  - right. rewrite A1 in E. injection E as -> ->. auto.
Qed.

Lemma com_step e p q o : com_inv p -> step_kind e p q o ->
  com_inv q /\
  ((address q = address p /\ baud q = baud p) \/
   (session_open e p || negb (enforce (fl p)) = true /\
    exists d a b f rest, comset_ok e 110 d (CComset a b) o /\ bytes d /\ address q = a /\ baud q = b /\ heard_frame e p f rest)).
Proof.
  intros C [pr N S -> SC SA|f rest pr HF N S B RP AR QO|f rest p1 p2 c d p3 HF SQ FO RX BS FS DP BL N2 DC SC SA|
    f rest p1 p2 c d p3 r oc p4 o2 HF SQ FO RX BS FS DP BL N2 DC PR B4 RP AR QO ->].
  - destruct (same_fields _ _ SC) as ((AC & A1 & A2 & _) & _). destruct (ans_fields _ _ AC) as ((_ & _ & X1 & _) & (_ & _ & _ & X2) & (X3 & _) & _).
    pose proof (com_near e p pr C N S) as CP. destruct (near_fields _ _ N) as (_ & _ & _ & _ & F1 & F2 & _).
    destruct (timeout_fields e p) as (_ & _ & _ & _ & T1 & T2 & _). split; [|left; split; congruence].
    intros a b R E. rewrite (tx_size_eq pr q X1), A1, A2. apply CP; congruence.
  - split; [eapply com_ans; eauto|]. left. destruct (near_fields _ _ N) as (_ & _ & _ & _ & F1 & F2 & _).
    destruct (timeout_fields e p) as (_ & _ & _ & _ & T1 & T2 & _).
    destruct AR as [_ A _ _ _ _ _]. destruct A as [(A1 & A2 & _)|(R & TX & a & b & E & A1 & A2)]; [split; congruence|].
    destruct (com_near e p pr C N S a b R E) as [X|[X1 X2]]; [lia|]. split; congruence.
  - destruct (same_fields _ _ SC) as ((AC & A1 & A2 & _) & _). destruct (ans_fields _ _ AC) as ((_ & _ & X1 & _) & (_ & _ & _ & X2) & (X3 & _) & _).
    destruct (near_fields _ _ N2) as (_ & _ & _ & _ & F1 & F2 & _). destruct (timeout_fields e p) as (_ & _ & _ & _ & T1 & T2 & _).
    destruct (cmd_fields _ _ _ _ _ _ DC) as ((G1 & G2 & _) & _).
    split; [|left; split; congruence]. intros a b R E. rewrite X2 in R. destruct (de_com _ _ _ _ _ _ _ (command_eff _ _ _ _ _ _ _ DC) R) as [X _]. discriminate.
  - split; [eapply com_ans; eauto|]. destruct (near_fields _ _ N2) as (_ & _ & F0 & _ & F1 & F2 & _).
    destruct (timeout_fields e p) as (_ & _ & T0 & _ & T1 & T2 & _). destruct (cmd_fields _ _ _ _ _ _ DC) as ((G1 & G2 & _) & _).
    assert (P4 : anscore p4 = anscore p3 /\ address p4 = address p3 /\ baud p4 = baud p3).
    { destruct PR as [(_ & ->)|(_ & ->)]; auto. destruct (bumped_fields e p3) as (Y1 & (Y2 & Y3 & _) & _). auto. }
    destruct P4 as (P1 & P2 & P3). destruct (ans_fields _ _ P1) as (_ & (_ & _ & _ & X2) & (X3 & _) & _).
    destruct AR as [_ A _ _ _ _ _]. destruct A as [(A1 & A2 & _)|(R & TX & a & b & E & A1 & A2)]; [left; split; congruence|].
    right. rewrite X2 in R. destruct (de_com _ _ _ _ _ _ _ (command_eff _ _ _ _ _ _ _ DC) R) as (-> & c1 & E1 & CO).
    assert (c1 = CComset a b) by congruence. subst c1. pose proof CO as (-> & Z5 & Z6 & Z7 & Z8 & Z9). split.
    + destruct (enforce (fl p)) eqn:EN; [|apply orb_true_r]. simpl. rewrite orb_false_r. destruct (session_open e p) eqn:SO; auto.
      destruct (command_gate _ _ _ _ _ _ _ DC) as (-> & _); [congruence| |destruct Z9].
      destruct N2 as (_ & N2 & _). rewrite session_open_eq in N2. destruct (sc_active (fl p2)); auto. rewrite N2 in SO; auto.
    + exists d, a, b, f, rest. split; [|inversion BL; auto]. repeat split; auto. apply in_or_app; auto.
Qed.

(** * Runs *)
Lemma setup_fresh i n p : pd_setup i n = Some p ->
  (reply_id p = 0 /\ eph p = EphNone /\ evq p = [] /\ sc_active (fl p) = false /\ use_scbkd (fl p) = false) /\
  (pool p = n /\ file p = None /\ has_cb p = false /\ seqn p = -1 /\ peer_rx p = 0) /\
  (address p = i_address i /\ baud p = i_baud i /\ enforce (fl p) = enforce (i_flags i)) /\
  (forall k, i_scbk i = Some k -> scbk (sc p) = k /\ install (fl p) = install (i_flags i)) /\
  (s_enc (sc p) = zeros 16 /\ cp_random (sc p) = zeros 8 /\ pd_random (sc p) = zeros 8 /\ cp_crypt (sc p) = zeros 16).
Proof.
  unfold pd_setup. cbv zeta. destruct (i_scbk i) as [k|] eqn:SK.
  - intros H. apply (f_equal (fun x => match x with Some y => y | None => pd_zero end)) in H. subst p.
    repeat split; try discriminate; try (match goal with X : Some _ = Some _ |- _ => injection X as <- end); reflexivity.
  - destruct (enforce (public_flags (i_flags i))) eqn:E; [discriminate|]. intros H.
    apply (f_equal (fun x => match x with Some y => y | None => pd_zero end)) in H. subst p.
    repeat split; try discriminate; reflexivity.
Qed.

(* calls other than refresh touch the event queue, capabilities, callback and file registration *)
Definition othercore (p : pd) : pd := set_evq [] (set_caps [] (set_has_cb false (set_file None p))).
Lemma other_call c p q o : pd_do c p = Ok (q, o) -> (exists e, c = Refresh e) \/ (othercore q = othercore p /\ o = []).
Proof.
  destruct c; simpl; [eauto|..]; intros H; inv H; right; split; try reflexivity.
  unfold pd_notify_event. destruct (_ <? _); reflexivity.
Qed.
Lemma other_fields p q : othercore q = othercore p ->
  (reply_id q = reply_id p /\ eph q = eph p /\ fl q = fl p /\ sc q = sc p /\ sc_tstamp q = sc_tstamp p) /\
  (address q = address p /\ baud q = baud p /\ peer_rx q = peer_rx p /\ pool q = pool p /\ seqn q = seqn p).
Proof.
  intros R. repeat split; first [exact (f_equal (fun x => reply_id x) R)|exact (f_equal (fun x => eph x) R)|exact (f_equal (fun x => fl x) R)|
    exact (f_equal (fun x => sc x) R)|exact (f_equal (fun x => sc_tstamp x) R)|exact (f_equal (fun x => address x) R)|exact (f_equal (fun x => baud x) R)|
    exact (f_equal (fun x => peer_rx x) R)|exact (f_equal (fun x => pool x) R)|exact (f_equal (fun x => seqn x) R)].
Qed.

Lemma run_step e i n h p q o : pd_runs i n h p -> call_typed (Refresh e) -> pd_refresh e p = Ok (q, o) -> step_kind e p q o.
Proof. intros R T H. apply refresh_step; auto; [apply env_typed; auto|apply (runs_inv i n h); auto]. Qed.

Lemma com_runs i n h p : pd_runs i n h p -> com_inv p.
Proof.
  intros R. induction R as [p T S|h p c q o R IH T D].
  - intros a b X. destruct (setup_fresh i n p S) as ((Y & _) & _). congruence.
  - destruct (other_call _ _ _ _ D) as [(e & ->)|(O & _)].
    + apply (com_step e p q o IH). eapply run_step; eauto.
    + destruct (other_fields _ _ O) as ((O1 & O2 & _) & (O3 & O4 & O5 & _)). intros a b X Y.
      rewrite O3, O4, (tx_size_eq p q O5). apply IH; congruence.
Qed.

(** * C15 keys *)
(* in this call the application accepted the key k, in a session *)
Definition key_offer (en : entry) (k : list Z) : Prop :=
  exists e d kt kn kd, en_call en = Refresh e /\ session_open e (en_pd en) = true /\ bytes d /\ zlen d = 16 /\
    In (OCmd (CKeyset 1 16 d)) (en_out en) /\ e_cb e 0 (CKeyset 1 16 d) = (0, CKeyset kt kn kd) /\ k = firstn 16 kd /\ length k = 16%nat.

Lemma offer_of e p d k o : keyset_ok e 117 d k o -> bytes d -> session_open e p = true -> key_offer (mkEntry p (Refresh e) o) k.
Proof.
  intros (_ & L & G0 & G1 & (kt & kn & kd & EC & TA) & HI) B S. exists e, (from d 2), kt, kn, kd. simpl.
  split; auto. split; auto. split. { unfold from. apply bytes_skipn; auto. }
  split. { unfold from. unfold zlen in *. rewrite skipn_length. lia. }
  unfold keyset_of in *. split; auto. split; auto.
  unfold take_arr in TA. repeat (match type of TA with (if ?b then _ else _) = _ => destruct b eqn:? end; try discriminate).
  assert (TB : k = firstn 16 kd) by (change 16%nat with (Z.to_nat 16); congruence). split; [exact TB|]. rewrite TB.
  unfold zlen in *. rewrite firstn_length. lia.
Qed.

(* a packet that gives a command leaves the pending answer alone *)
Lemma data_same e p f p1 p2 l : rxcore p1 = rxcore (sc_timeout e p) -> binv (pd_seen f p1) ->
  decode_packet (pd_seen f p1) = Ok (p2, DData l) ->
  eph p2 = eph p /\ reply_id p2 = reply_id p /\ sc_active (fl p2) = sc_active (fl (pd_seen f p1)).
Proof.
  intros RX B D. destruct (seen_same f p1) as [S1 S2]. destruct (core_same _ _ RX) as [C1 C2].
  destruct (timeout_fields e p) as (_ & _ & _ & _ & _ & _ & _ & _ & _ & _ & _ & _ & T4 & T5 & _).
  assert (M : pd_mode (fl (pd_seen f p1)) = true) by (apply B).
  destruct (decode_packet_core _ _ _ M D) as (_ & _ & _ & _ & _ & _ & _ & _ & _ & _ & X & Y & Z). repeat split; congruence.
Qed.

Definition key_inv (h : list entry) (p : pd) : Prop := forall k, eph p = EphKey k -> exists en, In en h /\ key_offer en k.

Lemma key_step e i n h p q o : pd_runs i n h p -> call_typed (Refresh e) -> pd_refresh e p = Ok (q, o) -> key_inv h p ->
  key_inv (mkEntry p (Refresh e) o :: h) q /\
  ((scbk (sc q) = scbk (sc p) /\ install (fl q) = install (fl p)) \/
   (sc_active (fl q) = false /\ install (fl q) = false /\ use_scbkd (fl q) = false /\
    exists en, In en (mkEntry p (Refresh e) o :: h) /\ key_offer en (scbk (sc q)))).
Proof.
  intros R T H KI. pose proof (run_step e i n h p q o R T H) as SK.
  destruct SK as [pr N S -> SC SA|f rest pr HF N S B RP AR QO|f rest p1 p2 c d p3 HF SQ FO RX BS FS DP BL N2 DC SC SA|
    f rest p1 p2 c d p3 r oc p4 o2 HF SQ FO RX BS FS DP BL N2 DC PR B4 RP AR QO ->].
  - destruct (same_fields _ _ SC) as ((AC & _) & (I1 & _ & I3 & _)). destruct (ans_fields _ _ AC) as (_ & _ & (X3 & _) & _).
    destruct (near_fields _ _ N) as (_ & _ & _ & _ & _ & _ & _ & _ & F1 & F2 & _).
    destruct (timeout_fields e p) as (_ & _ & _ & _ & _ & _ & _ & _ & T1 & T2 & _ & _ & _ & T5 & _).
    split; [|left; split; congruence]. intros k E. rewrite X3 in E.
    destruct S as [(_ & c0 & Y)|(_ & Y)]; [congruence|]. destruct (KI k) as (en & I & O); [congruence|]. exists en; simpl; auto.
  - destruct (near_fields _ _ N) as (_ & _ & _ & _ & _ & _ & _ & _ & F1 & F2 & _).
    destruct (timeout_fields e p) as (_ & _ & _ & _ & _ & _ & _ & _ & T1 & T2 & _ & _ & _ & T5 & _).
    assert (KP : forall k, eph pr = EphKey k -> exists en, In en (mkEntry p (Refresh e) o :: h) /\ key_offer en k).
    { intros k E. destruct S as [(_ & c0 & Y)|(_ & Y)]; [congruence|]. destruct (KI k) as (en & I & O); [congruence|]. exists en; simpl; auto. }
    destruct AR as [C _ A _ _ _ _]. destruct (ans_fields _ _ C) as (_ & _ & (X3 & _) & _). split.
    + intros k E. apply KP. congruence.
    + destruct A as [(A1 & A2 & _)|(A1 & A2 & A3 & A4 & A5 & A6)]; [left; split; congruence|]. right. auto.
  - destruct (same_fields _ _ SC) as ((AC & _) & (I1 & _ & I3 & _)). destruct (ans_fields _ _ AC) as (_ & _ & (X3 & _) & _).
    destruct (near_fields _ _ N2) as (_ & _ & _ & _ & _ & _ & _ & _ & F1 & F2 & _).
    destruct (timeout_fields e p) as (_ & _ & _ & _ & _ & _ & _ & _ & T1 & T2 & _ & _ & _ & T5 & _).
    destruct (cmd_fields _ _ _ _ _ _ DC) as (_ & (_ & G1 & _) & (G2 & _) & _).
    split; [|left; split; congruence]. intros k E. rewrite X3 in E.
    destruct (de_keys _ _ _ _ _ _ _ (command_eff _ _ _ _ _ _ _ DC) k E) as [Y|(_ & Y & _)]; [|discriminate].
    destruct (data_same _ _ _ _ _ _ RX BS DP) as (Z & _).
    destruct (KI k) as (en & I & O); [congruence|]. exists en; simpl; auto.
  - destruct (near_fields _ _ N2) as (_ & _ & _ & _ & _ & _ & _ & _ & F1 & F2 & _).
    destruct (timeout_fields e p) as (_ & _ & _ & _ & _ & _ & _ & _ & T1 & T2 & _ & _ & _ & T5 & _).
    destruct (cmd_fields _ _ _ _ _ _ DC) as (_ & (_ & G1 & _) & (G2 & _) & G4 & _). rewrite getb_head in G4.
    destruct (data_same _ _ _ _ _ _ RX BS DP) as (Z & _).
    assert (P4 : anscore p4 = anscore p3 /\ install (fl p4) = install (fl p3) /\ scbk (sc p4) = scbk (sc p3)).
    { destruct PR as [(_ & ->)|(_ & ->)]; auto. destruct (bumped_fields e p3) as (Y1 & (_ & _ & _ & Y2 & Y3) & _). rewrite Y2, Y3. auto. }
    destruct P4 as (P1 & P2 & P3). destruct (ans_fields _ _ P1) as (_ & (_ & _ & X1 & X2) & (X3 & _) & _).
    assert (KP : forall k, eph p4 = EphKey k -> exists en, In en (mkEntry p (Refresh e) (oc ++ o2) :: h) /\ key_offer en k).
    { intros k E. destruct (de_keys _ _ _ _ _ _ _ (command_eff _ _ _ _ _ _ _ DC) k) as [Y|(SA & _ & _ & KO)]; [congruence| |].
      - destruct (KI k) as (en & I & O); [congruence|]. exists en; simpl; auto.
      - exists (mkEntry p (Refresh e) (oc ++ o2)). split; [simpl; auto|]. pose proof KO as (-> & _).
        apply (offer_of e p d); [|inversion BL; auto|].
        + destruct KO as (K1 & K2 & K3 & K4 & K5 & K6). repeat split; auto. apply in_or_app; auto.
        + rewrite <- session_open_eq. destruct N2 as (_ & N2 & _). auto. }
    destruct AR as [C _ A _ _ _ _]. destruct (ans_fields _ _ C) as (_ & _ & (X6 & _) & _). split.
    + intros k E. apply KP. congruence.
    + destruct A as [(A1 & A2 & _)|(A1 & A2 & A3 & A4 & A5 & A6)]; [left; split; congruence|]. right. auto.
Qed.

Lemma key_runs i n h p : pd_runs i n h p -> key_inv h p.
Proof.
  intros R. induction R as [p T S|h p c q o R IH T D].
  - intros k X. destruct (setup_fresh i n p S) as ((_ & Y & _) & _). congruence.
  - destruct (other_call _ _ _ _ D) as [(e & ->)|(O & _)].
    + apply (key_step e i n h p q o R T D IH).
    + destruct (other_fields _ _ O) as ((O1 & O2 & _) & _). intros k X. destruct (IH k) as (en & I & K); [congruence|]. exists en. simpl; auto.
Qed.

(** * C17 session stamp *)
Lemma stamp_step e p q o : step_kind e p q o -> sc_active (fl q) = true ->
  (session_open e p = true /\ sc_tstamp q = sc_tstamp p) \/
  (sc_tstamp q = e_now e /\ exists f rest, heard_frame e p f rest).
Proof.
  intros SK SA. destruct SK as [pr N S -> SC SB|f rest pr HF N S B RP AR QO|f rest p1 p2 c d p3 HF SQ FO RX BS FS DP BL N2 DC SC SB|
    f rest p1 p2 c d p3 r oc p4 o2 HF SQ FO RX BS FS DP BL N2 DC PR B4 RP AR QO ->].
  - left. destruct (same_fields _ _ SC) as ((_ & _ & _ & _ & I1) & _). destruct (near_fields _ _ N) as (_ & _ & _ & _ & _ & _ & _ & _ & _ & _ & F1 & _).
    destruct (timeout_fields e p) as (_ & _ & _ & _ & _ & _ & _ & _ & _ & _ & T1 & _). rewrite <- session_open_eq.
    split; [apply N; auto|congruence].
  - destruct (near_fields _ _ N) as (_ & _ & _ & _ & _ & _ & _ & _ & _ & _ & F1 & _).
    destruct (timeout_fields e p) as (_ & _ & _ & _ & _ & _ & _ & _ & _ & _ & T1 & _). rewrite <- session_open_eq.
    destruct AR as [_ _ _ _ _ A _]. destruct (A SA) as [(A1 & [A2|A2])|(_ & _ & A2)]; [left|right; eauto|right; eauto].
    split; [apply N; auto|congruence].
  - left. destruct (same_fields _ _ SC) as ((_ & _ & _ & _ & I1) & _). destruct (near_fields _ _ N2) as (_ & _ & _ & _ & _ & _ & _ & _ & _ & _ & F1 & _).
    destruct (timeout_fields e p) as (_ & _ & _ & _ & _ & _ & _ & _ & _ & _ & T1 & _). rewrite <- session_open_eq.
    destruct (cmd_fields _ _ _ _ _ _ DC) as (_ & _ & _ & _ & G).
    split; [apply N2; auto|]. destruct (de_stamp _ _ _ _ _ _ _ (command_eff _ _ _ _ _ _ _ DC)) as [E|E]; [congruence|discriminate].
  - destruct (near_fields _ _ N2) as (_ & _ & _ & _ & _ & _ & _ & _ & _ & _ & F1 & _).
    destruct (timeout_fields e p) as (_ & _ & _ & _ & _ & _ & _ & _ & _ & _ & T1 & _). rewrite <- session_open_eq.
    destruct (cmd_fields _ _ _ _ _ _ DC) as (_ & _ & _ & _ & G).
    destruct AR as [_ _ _ _ _ A _]. destruct (A SA) as [(A1 & [A2|A2])|(_ & _ & A2)]; [|right; eauto|right; eauto].
    destruct PR as [(-> & ->)|(-> & ->)].
    + right. destruct (bumped_fields e p3) as (_ & (_ & _ & _ & _ & Y3) & Y). rewrite Y3 in A1. rewrite A1 in Y. split; [congruence|eauto].
    + left. split; [apply N2; auto|]. destruct (de_stamp _ _ _ _ _ _ _ (command_eff _ _ _ _ _ _ _ DC)) as [E|E]; [congruence|discriminate].
Qed.

Lemma stamp_runs i n h p : pd_runs i n h p -> sc_active (fl p) = true ->
  exists en e f rest, In en h /\ en_call en = Refresh e /\ sc_tstamp p = e_now e /\ heard_frame e (en_pd en) f rest.
Proof.
  intros R. induction R as [p T S|h p c q o R IH T D]; intros SA.
  - destruct (setup_fresh i n p S) as ((_ & _ & _ & Y & _) & _). congruence.
  - destruct (other_call _ _ _ _ D) as [(e & ->)|(O & _)].
    + destruct (stamp_step e p q o (run_step e i n h p q o R T D) SA) as [(SO & E)|(E & f & rest & HF)].
      * destruct IH as (en & e1 & f & rest & I & C & E1 & HF); [unfold session_open in SO; destruct (sc_active (fl p)); auto|].
        exists en, e1, f, rest. simpl. split; auto. split; auto. split; auto. congruence.
      * exists (mkEntry p (Refresh e) o), e, f, rest. simpl. auto.
    + destruct (other_fields _ _ O) as ((_ & _ & O1 & _ & O2) & _). rewrite O1 in SA. destruct (IH SA) as (en & e1 & f & rest & I & C & E1 & HF).
      exists en, e1, f, rest. simpl. split; auto. split; auto. split; auto. congruence.
Qed.

(** * C16 default key *)
Lemma dflt_step e p q o : pd_inv p -> step_kind e p q o -> install (fl p) = false ->
  install (fl q) = false /\
  ((s_enc (sc q) = s_enc (sc p)) \/ (exists rnd, s_enc (sc q) = enc1 (scbk (sc p)) (session_block 1 130 rnd) /\ cp_random (sc q) = rnd)).
Proof.
  intros I SK IN. assert (UD : use_scbkd (fl p) = false).
  { destruct (use_scbkd (fl p)) eqn:E; auto. destruct I as [B _ _]. pose proof (iv_dflt _ B E). congruence. }
  destruct (timeout_fields e p) as (_ & _ & _ & _ & _ & _ & _ & _ & T1 & T2 & _ & _ & _ & _ & T3 & _).
  assert (ND : forall x, near (sc_timeout e p) x -> use_scbkd (fl x) = false /\ install (fl x) = false).
  { intros x NX. destruct (near_fields _ _ NX) as (_ & _ & _ & _ & _ & _ & _ & _ & _ & F & _). destruct NX as (_ & _ & NX).
    split; [|congruence]. destruct (use_scbkd (fl x)); auto. destruct NX; auto; congruence. }
  destruct SK as [pr N S -> SC SB|f rest pr HF N S B RP AR QO|f rest p1 p2 c d p3 HF SQ FO RX BS FS DP BL N2 DC SC SB|
    f rest p1 p2 c d p3 r oc p4 o2 HF SQ FO RX BS FS DP BL N2 DC PR B4 RP AR QO ->].
  - destruct (same_fields _ _ SC) as (_ & (I1 & I2 & I3 & I4 & _)). destruct (near_fields _ _ N) as (_ & _ & _ & _ & _ & _ & _ & _ & _ & F & _ & _ & _ & _ & F2 & _).
    destruct (ND pr N). split; [congruence|]. left. congruence.
  - destruct (near_fields _ _ N) as (_ & _ & _ & _ & _ & _ & _ & _ & F0 & F & _ & _ & _ & _ & F2 & _). destruct (ND pr N) as [U1 U2].
    destruct AR as [C _ A _ A2 _ _]. destruct (ans_fields _ _ C) as (_ & _ & _ & (X3 & _)). split; [destruct A as [(_ & A & _)|(_ & _ & _ & A & _)]; congruence|].
    destruct A2 as [(A2 & _)|(_ & _ & A2)]; [left; congruence|]. right. rewrite U1 in A2. exists (cp_random (sc pr)). split; congruence.
  - destruct (same_fields _ _ SC) as (_ & (I1 & I2 & I3 & I4 & _)). destruct (near_fields _ _ N2) as (_ & _ & _ & _ & _ & _ & _ & _ & _ & F & _ & _ & _ & _ & F2 & _).
    destruct (ND p2 N2). destruct (cmd_fields _ _ _ _ _ _ DC) as (_ & (_ & G1 & _) & (_ & G2 & _) & _). split; [congruence|]. left. congruence.
  - destruct (near_fields _ _ N2) as (_ & _ & _ & _ & _ & _ & _ & _ & F0 & F & _ & _ & _ & _ & F2 & _). destruct (ND p2 N2) as [U1 U2].
    destruct (cmd_fields _ _ _ _ _ _ DC) as (_ & (_ & G1 & G3) & (G4 & G2 & _) & _).
    assert (P4 : anscore p4 = anscore p3 /\ fl p4 = fl p3 /\ sc p4 = sc p3).
    { destruct PR as [(_ & ->)|(_ & ->)]; auto. destruct (bumped_fields e p3) as (Y1 & (_ & _ & _ & Y2 & Y3) & _). auto. }
    destruct P4 as (P1 & P2 & P3). rewrite <- P2 in *. rewrite <- P3 in *.
    destruct AR as [C _ A _ A2 _ _]. destruct (ans_fields _ _ C) as (_ & _ & _ & (X3 & _)). split; [destruct A as [(_ & A & _)|(_ & _ & _ & A & _)]; congruence|].
    destruct A2 as [(A2 & _)|(_ & _ & A2)]; [left; congruence|]. right. rewrite G3, U1 in A2. exists (cp_random (sc p4)). split; congruence.
Qed.

