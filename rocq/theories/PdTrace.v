(** PD: step lemmas for address, key, session, events and callbacks. *)
From Verif Require Import Base ListLemmas Crc SpecCrc CrcProofs CrcBurst Aes AesProofs Rb RbProofs
  Types Sc ScProofs Phy PhyCheck File Pd SpecRx SpecFrame SpecSec SpecCmd SpecApp MacProofs RxProofs RxFwd PdRx PdCore PhyTx PdTx PdReply
  PdStep PdWire PdFwd SpecPd PdRun PdSpeak PdPlain PdSec PdRefuse PdFacts PdKinds PdCase PdApp.
From Coq Require Import ZifyBool ZifyNat.
Ltac Zify.zify_post_hook ::= Z.div_mod_to_equations.
Local Opaque aes_ecb_encrypt aes_cbc_encrypt aes_cbc_decrypt mac_of RB_SIZE osdp_mac enc1 cap_entries.

Lemma cap_present_spec p fc : cap_present p fc = true -> c_comp (cap_at p fc) <> 0 /\ c_num (cap_at p fc) <> 0.
Proof. unfold cap_present. lia. Qed.
Lemma cap_item_spec p fc n : cap_item p fc n = true -> c_comp (cap_at p fc) <> 0 /\ n < c_num (cap_at p fc).
Proof. unfold cap_item. lia. Qed.

Lemma rec_ok_covers p c : rec_ok p c = true -> cap_covers (caps p) c.
Proof.
  unfold rec_ok, cap_covers. destruct c; try discriminate; intros H.
  - apply cap_item_spec in H. exact H.
  - apply cap_item_spec in H. exact H.
  - apply cap_present_spec in H. exact H.
Qed.

(* records: calls of the application in order, each covered; nothing but the pending answer changes *)
Lemma records_outs e l : forall n p q o, do_records e n p l = (q, o) ->
  (forall x, In x o -> exists c, x = OCmd c /\ In c l /\ rec_ok p c = true) /\
  (q = p \/ exists k, q = nak k p).
Proof.
  induction l as [|c t IH]; intros n p q o H; simpl in H.
  - inv H. split; [intros x []|auto].
  - destruct (rec_ok p c) eqn:R; simpl in H; [|inv H; split; [intros x []|eauto]].
    destruct (do_callback e n p c) as [[[p3 bb] c1] o1] eqn:E.
    apply do_callback_eq in E as (-> & -> & [(-> & E & ->)|(-> & E & ->)]).
    + destruct (do_records e (S n) p t) as [q2 o2] eqn:D. inv H. destruct (IH _ _ _ _ D) as [A B]. split; auto.
      intros x [<-|X]; [exists c; simpl; auto|]. destruct (A x X) as (c2 & -> & I2 & R2). exists c2. simpl; auto.
    + inv H. split; [|eauto]. intros x [<-|[]]. exists c. simpl; auto.
Qed.

Lemma chunk_decoders c n dec x : multi_cmd c n dec -> (exists a b t, dec x = COutput a b t) \/ (exists a b t u, dec x = CLed a b t u) \/ (exists a b t u v, dec x = CBuzzer a b t u v).
Proof. intros [(-> & -> & ->)|[(-> & -> & ->)|(-> & -> & ->)]]; unfold dec_out, dec_led, dec_buz; eauto 10. Qed.

Lemma file_tx_decode_outs e p d q b o : file_tx_decode e p d = Ok (q, b, o) ->
  forall x, In x o -> (exists ty fl, x = OCmd (CFileTx ty fl) /\ has_cb p = true) \/ (exists a b, x = OFOpen a b) \/ (exists a b, x = OFWrite a b).
Proof.
  unfold file_tx_decode. destruct (file p) as [f|]; [|intros H; inv H; intros x []].
  dif; [intros H; inv H; intros x []|]. cbv zeta. dif; [discriminate|].
  destruct (file_rx_open e p f _ _) as [[f1|] o1] eqn:O.
  - assert (A : forall x, In x o1 -> (exists ty fl, x = OCmd (CFileTx ty fl) /\ has_cb p = true) \/ (exists a b, x = OFOpen a b) \/ (exists a b, x = OFWrite a b)).
    { unfold file_rx_open in O. destruct (f_state f); try (inv O; intros x []; fail);
      (cbv zeta in O; destruct (has_cb p); simpl in O;
        repeat (match type of O with (if ?b then _ else _) = _ => destruct b end; try discriminate);
        inv O; simpl; intros x HX; repeat destruct HX as [<-|HX]; try contradiction; eauto 10). }
    dif; [intros H; inv H; auto|]. dif; intros H; inv H; intros x HX; apply in_app_or in HX; destruct HX as [HX|[<-|[]]]; eauto 10.
  - intros H; inv H. unfold file_rx_open in O. destruct (f_state f); try discriminate;
      (cbv zeta in O; destruct (has_cb q); simpl in O;
        repeat (match type of O with (if ?b then _ else _) = _ => destruct b end; try discriminate);
        inv O; simpl; intros x HX; repeat destruct HX as [<-|HX]; try contradiction; eauto 10).
Qed.

(* everything the decoder asks of the application is covered by a capability *)
Lemma case_covers e p c d q r o : dec_case e p c d q r o -> forall x, In (OCmd x) o -> has_cb p = true /\ cap_covers (caps p) x.
Proof.
  intros H x HX. inversion H; subst; try contradiction;
    try (destruct HX as [HX|[]]; injection HX as <-; split; [assumption|]; try exact I).
  - split; intros E; subst ty; match goal with X : status_cap _ _ |- _ => destruct X as [X1 X2] end;
      [exact (cap_present_spec p CAP_CONTACT (X1 eq_refl))|exact (cap_present_spec p CAP_OUTPUT (X2 eq_refl))].
  - split; intros E; subst ty; match goal with X : status_cap _ _ |- _ => destruct X as [X1 X2] end;
      [exact (cap_present_spec p CAP_CONTACT (X1 eq_refl))|exact (cap_present_spec p CAP_OUTPUT (X2 eq_refl))].
  - match goal with X : do_records _ _ _ _ = _ |- _ => apply records_outs in X as [X _]; destruct (X _ HX) as (c0 & E & _ & R) end.
    injection E as <-. split; auto. apply rec_ok_covers; auto.
  - match goal with X : cap_present p CAP_TEXT = true |- _ => exact (cap_present_spec p CAP_TEXT X) end.
  - match goal with X : cap_present p CAP_TEXT = true |- _ => exact (cap_present_spec p CAP_TEXT X) end.
  - match goal with X : file_tx_abort _ = _ |- _ => unfold file_tx_abort in X; destruct (file p) as [f|]; [destruct (in_progress f)|]; inv X end;
      simpl in HX; intuition discriminate.
  - match goal with X : file_tx_decode _ _ _ = _ |- _ => destruct (file_tx_decode_outs _ _ _ _ _ _ X _ HX) as [(ty & fl & E & C)|[(a & b & E)|(a & b & E)]] end; try discriminate.
    injection E as ->. split; [auto|exact I].
  - match goal with X : file_tx_decode _ _ _ = _ |- _ => destruct (file_tx_decode_outs _ _ _ _ _ _ X _ HX) as [(ty & fl & E & C)|[(a & b & E)|(a & b & E)]] end; try discriminate.
    injection E as ->. split; [auto|exact I].
Qed.

Lemma cons_of (l : list Z) : l <> [] -> exists c d, l = c :: d.
Proof. destruct l; [congruence|eauto]. Qed.

Lemma decode_covers e p l q r o : l <> [] -> decode_command e p l = Ok (q, r, o) -> forall x, In (OCmd x) o -> has_cb p = true /\ cap_covers (caps p) x.
Proof.
  intros NL H x HX. destruct (cons_of l NL) as (c & d & ->). destruct (command_case _ _ _ _ _ _ _ H) as (_ & [(k & _ & _ & _ & ->)|[(q1 & D & _)|(_ & D)]]).
  - destruct HX.
  - apply (case_covers _ _ _ _ _ _ _ D x HX).
  - apply (case_covers _ _ _ _ _ _ _ D x HX).
Qed.

Lemma quiet_no_cmd o c : Forall quiet_out o -> ~ In (OCmd c) o.
Proof. intros F I. rewrite Forall_forall in F. destruct (F _ I) as [(d & E)|E]; discriminate. Qed.

(* a call of the application comes from the command of the frame received in this refresh *)
Lemma refresh_call e p q o : env_ok e -> pd_inv p -> pd_refresh e p = Ok (q, o) -> forall x, ~ quiet_out x -> In x o ->
  exists f rest p1 p2 l p3 r oc o2, heard_frame e p f rest /\ seq_ok (seqn p) (f_seq f) /\ frame_of p1 = f /\
    rxcore p1 = rxcore (sc_timeout e p) /\ binv (pd_seen f p1) /\ full (pd_seen f p1) /\
    decode_packet (pd_seen f p1) = Ok (p2, DData l) /\ l <> [] /\ bytes l /\ near (sc_timeout e p) p2 /\
    decode_command e p2 l = Ok (p3, r, oc) /\ In x oc /\ o = oc ++ o2.
Proof.
  intros K I H x NQ HX. destruct (refresh_kinds e p q o K I H) as [(-> & _)|[(f & rest & pr & HF & AN & _ & _ & RP)|
     (f & rest & p1 & ps & p2 & l & p3 & r & oc & HF & SQ & RC & FO & -> & BS & FS & AN & DP & BL & NL & B2 & N2 & DC & B3 & C)]].
  - destruct HX.
  - pose proof (reply_phase_outs e pr q o K (proj1 AN) RP) as Q. rewrite Forall_forall in Q. destruct (NQ (Q _ HX)).
  - assert (C2 : exists o2, o = oc ++ o2 /\ Forall quiet_out o2).
    { destruct C as [(_ & -> & _)|[(_ & o2 & RP & ->)|(_ & o2 & RP & ->)]].
      - exists []. rewrite app_nil_r. split; auto.
      - exists o2. split; auto. apply (reply_phase_outs e (bumped e p3) q o2 K); auto. apply binv_bumped; auto.
      - exists o2. split; auto. apply (reply_phase_outs e p3 q o2 K); auto. }
    destruct C2 as (o2 & -> & Q). apply in_app_or in HX. destruct HX as [HX|HX].
    + exists f, rest, p1, p2, l, p3, r, oc, o2. do 12 (split; [assumption|]). reflexivity.
    + rewrite Forall_forall in Q. destruct (NQ (Q _ HX)).
Qed.

Lemma near_fields p0 p2 : near p0 p2 ->
  caps p2 = caps p0 /\ has_cb p2 = has_cb p0 /\ enforce (fl p2) = enforce (fl p0) /\ evq p2 = evq p0 /\ address p2 = address p0 /\
  baud p2 = baud p0 /\ file p2 = file p0 /\ peer_rx p2 = peer_rx p0 /\ scbk (sc p2) = scbk (sc p0) /\ install (fl p2) = install (fl p0) /\
  sc_tstamp p2 = sc_tstamp p0 /\ cmd_id p2 = cmd_id p0 /\ cp_random (sc p2) = cp_random (sc p0) /\ cp_crypt (sc p2) = cp_crypt (sc p0) /\
  s_enc (sc p2) = s_enc (sc p0) /\ pd_random (sc p2) = pd_random (sc p0) /\ pool p2 = pool p0.
Proof.
  intros (R & _).
  repeat (split; [first [exact (f_equal (fun x => caps x) R)|exact (f_equal (fun x => has_cb x) R)|exact (f_equal (fun x => enforce (fl x)) R)|
    exact (f_equal (fun x => evq x) R)|exact (f_equal (fun x => address x) R)|exact (f_equal (fun x => baud x) R)|exact (f_equal (fun x => file x) R)|
    exact (f_equal (fun x => peer_rx x) R)|exact (f_equal (fun x => scbk (sc x)) R)|exact (f_equal (fun x => install (fl x)) R)|
    exact (f_equal (fun x => sc_tstamp x) R)|exact (f_equal (fun x => cmd_id x) R)|exact (f_equal (fun x => cp_random (sc x)) R)|
    exact (f_equal (fun x => cp_crypt (sc x)) R)|exact (f_equal (fun x => s_enc (sc x)) R)|exact (f_equal (fun x => pd_random (sc x)) R)]|]).
  exact (f_equal (fun x => pool x) R).
Qed.

Lemma timeout_fields e p : let q := sc_timeout e p in
  caps q = caps p /\ has_cb q = has_cb p /\ enforce (fl q) = enforce (fl p) /\ evq q = evq p /\ address q = address p /\
  baud q = baud p /\ file q = file p /\ peer_rx q = peer_rx p /\ sc q = sc p /\ install (fl q) = install (fl p) /\
  sc_tstamp q = sc_tstamp p /\ cmd_id q = cmd_id p /\ reply_id q = reply_id p /\ eph q = eph p /\ use_scbkd (fl q) = use_scbkd (fl p) /\ pool q = pool p.
Proof. unfold sc_timeout. destruct (_ && _); cbv zeta; repeat split; reflexivity. Qed.

(* C30 *)
Lemma call_covered e p q o x : env_ok e -> pd_inv p -> pd_refresh e p = Ok (q, o) -> In (OCmd x) o -> has_cb p = true /\ cap_covers (caps p) x.
Proof.
  intros K I H HX. destruct (refresh_call e p q o K I H (OCmd x)) as (f & rest & p1 & p2 & l & p3 & r & oc & o2 & _ & _ & _ & _ & _ & _ & _ & NL & _ & N2 & DC & HX2 & _); auto.
  { intros [(d & E)|E]; discriminate. }
  destruct (decode_covers _ _ _ _ _ _ NL DC x HX2) as [A B].
  destruct (near_fields _ _ N2) as (F1 & F2 & _). destruct (timeout_fields e p) as (T1 & T2 & _).
  rewrite F1, T1 in B. rewrite F2, T2 in A. auto.
Qed.

(* an accepted COMSET, an accepted KEYSET *)
Definition comset_ok (e : env) (c : Z) (d : list Z) (c1 : cmd) (o : list out) : Prop :=
  c = 110 /\ zlen d = 5 /\ getb d 0 < 127 /\ baud_ok (le32 (getb d 1) (getb d 2) (getb d 3) (getb d 4)) = true /\
  e_cb e 0 (comset_of d) = (0, c1) /\ In (OCmd (comset_of d)) o.
Definition keyset_ok (e : env) (c : Z) (d k : list Z) (o : list out) : Prop :=
  c = 117 /\ zlen d = 18 /\ getb d 0 = 1 /\ getb d 1 = 16 /\
  (exists kt kn kd, e_cb e 0 (keyset_of d) = (0, CKeyset kt kn kd) /\ take_arr kd 16 = Ok k) /\ In (OCmd (keyset_of d)) o.

(* what decoding one command does to the pending answer, the event queue and the handshake data *)
Record dec_eff (e : env) (p : pd) (c : Z) (d : list Z) (q : pd) (r : pderr) (o : list out) : Prop := {
  de_com : reply_id q = 84 -> r = RNone /\ exists c1, eph q = EphCmd c1 /\ comset_ok e c d c1 o;
  de_key : c = 117 -> reply_id q = 64 -> sc_active (fl p) = true /\ exists k, eph q = EphKey k /\ keyset_ok e c d k o;
  de_keys : forall k, eph q = EphKey k -> eph p = EphKey k \/ (sc_active (fl p) = true /\ r = RNone /\ reply_id q = 64 /\ keyset_ok e c d k o);
  de_chl : reply_id q = 118 -> c = 118;
  de_rnd : cp_random (sc q) = cp_random (sc p) \/ (c = 118 /\ zlen d = 8 /\ cp_random (sc q) = d /\ reply_id q = 118 /\ r = RNone /\ sc_active (fl q) = false);
  de_scr : reply_id q = 120 -> c = 119 /\ zlen d = 16 /\ cp_crypt (sc q) = d /\ sc_active (fl p) = false;
  de_cry : cp_crypt (sc q) = cp_crypt (sc p) \/ (c = 119 /\ zlen d = 16 /\ cp_crypt (sc q) = d /\ sc_active (fl p) = false);
  de_stamp : sc_tstamp q = sc_tstamp p \/ r = RNone;
  de_evq : evq q = evq p \/ (c = 96 /\ d = [] /\ r = RNone /\ exists ev, evq p = ev :: evq q /\
             q = translate_event (set_evq (evq q) (set_cmd_id c (set_reply_id 0 p))) ev);
  de_stat : reply_id q = 122 -> c = 124 /\ r = RNone;
  de_file : file q = file p \/ c = 124 \/ c = 162;
  de_rx : peer_rx q = peer_rx p \/ (c = 123 /\ peer_rx q = le16 (getb d 0) (getb d 1))
}.

Lemma event_codes ev x : event_reply ev = x -> x <> 84 /\ x <> 118 /\ x <> 120 /\ x <> 122.
Proof.
  intros <-. unfold event_reply, REPLY_RAW, REPLY_KEYPAD, REPLY_ISTATR, REPLY_OSTATR, REPLY_LSTATR, REPLY_RSTATR, REPLY_MFGREP.
  destruct ev; repeat match goal with |- context [if ?b then _ else _] => destruct b end; lia.
Qed.

Lemma case_eff e p c d q r o : dec_case e (set_cmd_id c (set_reply_id 0 p)) c d q r o -> dec_eff e p c d q r o.
Proof.
  intros H. inversion H; subst; clear H;
    try (match goal with X : do_records _ _ _ _ = _ |- _ => apply records_outs in X as [_ X]; destruct X as [->|(k & ->)] end);
    try (match goal with X : file_tx_abort _ = _ |- _ => apply file_tx_abort_core in X as [(ff & ->) _] end);
    try (match goal with X : file_tx_decode _ _ _ = _ |- _ => pose proof (file_tx_decode_core _ _ _ _ _ _ X) as [(ff & ->) _] end);
    try (match goal with X : status_cmd _ _ _ |- _ => destruct X as [(-> & -> & ->)|[(-> & -> & ->)|[(-> & -> & ->)|(-> & -> & ->)]]] end);
    try (match goal with X : multi_cmd _ _ _ |- _ => destruct X as [(-> & -> & ->)|[(-> & -> & ->)|(-> & -> & ->)]] end);
    try (match goal with X : _ \/ _ |- _ => destruct X as [(-> & -> & X & ->)|[(-> & X & ->)|(-> & X & ->)]] end).
  all: try (constructor; simpl; try discriminate; try congruence; try tauto; auto 10; fail).
  - pose proof (event_codes ev _ eq_refl) as EC. unfold translate_event. destruct (event_reply ev =? 0) eqn:Z0.
    + constructor; simpl; try discriminate; try congruence; try tauto; auto 10.
      right. split; auto. split; auto. split; auto. exists ev. split; auto. unfold translate_event. rewrite Z0. reflexivity.
    + constructor; simpl; try discriminate; try congruence; try tauto; auto 10.
      right. split; auto. split; auto. split; auto. exists ev. split; auto. unfold translate_event. rewrite Z0. reflexivity.
  - constructor; simpl; try discriminate; try congruence; try tauto; auto 10.
    intros _. split; auto. exists (cb_out e 0 (comset_of d)). split; auto. unfold comset_ok, cb_out. unfold cb_rc in *.
    destruct (e_cb e 0 (comset_of d)); simpl in *. subst z. repeat split; auto.
  - assert (KO : keyset_ok e 117 d k [OCmd (keyset_of d)]) by (unfold keyset_ok; repeat split; auto; [exists kt, kn, kd; auto|simpl; auto]).
    constructor; simpl; try discriminate; try congruence; try tauto; auto 10.
    + intros _ _. split; auto. exists k; auto.
    + intros k0 E. injection E as <-. right; auto.
Qed.

Lemma eff_nak e p c d q q1 r o k : dec_eff e p c d q r o -> r <> RNone -> q1 = nak k q -> dec_eff e p c d q1 RReply o.
Proof.
  intros D NR ->. destruct D. constructor; simpl; try discriminate; auto.
  - destruct de_rnd0 as [|(_ & _ & _ & _ & X & _)]; auto. congruence.
  - destruct de_stamp0; auto. congruence.
  - destruct de_evq0 as [|(_ & _ & X & _)]; auto. congruence.
Qed.

Lemma command_eff e p c d q r o : decode_command e p (c :: d) = Ok (q, r, o) -> dec_eff e p c d q r o.
Proof.
  intros H. destruct (command_case _ _ _ _ _ _ _ H) as (_ & [(k & Hk & -> & -> & ->)|[(q1 & D & NO & -> & ->)|(NG & D)]]).
  - eapply eff_nak; [apply case_eff, dc_bad|discriminate|reflexivity].
  - eapply eff_nak; [apply case_eff; exact D|discriminate|reflexivity].
  - apply case_eff; auto.
Qed.

(* under ENFORCE_SECURE and without a session only the public commands get past the gate *)
Lemma command_gate e p c d q r o : decode_command e p (c :: d) = Ok (q, r, o) -> enforce (fl p) = true -> sc_active (fl p) = false ->
  o = [] /\ (In c public_codes \/ (reply_id q = 65 /\ eph q = EphNak 6 /\ r = RReply)).
Proof.
  intros H E A. destruct (command_case _ _ _ _ _ _ _ H) as (G & C). destruct (G E) as [X|[X|(-> & -> & ->)]]; [congruence| |simpl; auto].
  split; auto. unfold public_codes in X.
  destruct C as [(k & Hk & -> & -> & ->)|[(q1 & D & NO & -> & ->)|(NG & D)]]; auto.
  - inversion D; subst; auto; simpl in X;
     try (match goal with X : status_cmd _ _ _ |- _ => destruct X as [(-> & -> & ->)|[(-> & -> & ->)|[(-> & -> & ->)|(-> & -> & ->)]]] end);
     exfalso; lia.
  - inversion D; subst; auto; simpl in X;
     try (match goal with X : status_cmd _ _ _ |- _ => destruct X as [(-> & -> & ->)|[(-> & -> & ->)|[(-> & -> & ->)|(-> & -> & ->)]]] end);
     try (match goal with X : multi_cmd _ _ _ |- _ => destruct X as [(-> & -> & ->)|[(-> & -> & ->)|(-> & -> & ->)]] end); exfalso; lia.
Qed.

(** * One refresh, seen from the application state *)
(* fields that a refresh without an answer leaves alone *)
Definition samecore (p : pd) :=
  (anscore p, (address p, baud p, file p, sc_tstamp p), (install (fl p), use_scbkd (fl p)),
   (scbk (sc p), s_enc (sc p), s_mac1 (sc p), s_mac2 (sc p), pd_random (sc p))).

Inductive step_kind (e : env) (p q : pd) (o : list out) : Prop :=
| sk_idle pr : near (sc_timeout e p) pr -> nak_or_same (sc_timeout e p) pr -> o = [] -> samecore q = samecore pr ->
    (sc_active (fl q) = true -> sc_active (fl pr) = true) -> step_kind e p q o
| sk_answer f rest pr : heard_frame e p f rest -> near (sc_timeout e p) pr -> nak_or_same (sc_timeout e p) pr -> binv pr ->
    reply_phase e pr = Ok (q, o) -> ans_rel e pr q -> Forall quiet_out o -> step_kind e p q o
| sk_wait f rest p1 p2 c d p3 : heard_frame e p f rest -> seq_ok (seqn p) (f_seq f) -> frame_of p1 = f ->
    rxcore p1 = rxcore (sc_timeout e p) -> binv (pd_seen f p1) -> full (pd_seen f p1) ->
    decode_packet (pd_seen f p1) = Ok (p2, DData (c :: d)) -> bytes (c :: d) -> near (sc_timeout e p) p2 ->
    decode_command e p2 (c :: d) = Ok (p3, RWait, o) -> samecore q = samecore p3 ->
    (sc_active (fl q) = true -> sc_active (fl p3) = true) -> step_kind e p q o
| sk_cmd f rest p1 p2 c d p3 r oc p4 o2 : heard_frame e p f rest -> seq_ok (seqn p) (f_seq f) -> frame_of p1 = f ->
    rxcore p1 = rxcore (sc_timeout e p) -> binv (pd_seen f p1) -> full (pd_seen f p1) ->
    decode_packet (pd_seen f p1) = Ok (p2, DData (c :: d)) -> bytes (c :: d) -> near (sc_timeout e p) p2 ->
    decode_command e p2 (c :: d) = Ok (p3, r, oc) ->
    (r = RNone /\ p4 = bumped e p3) \/ (r = RReply /\ p4 = p3) -> binv p4 ->
    reply_phase e p4 = Ok (q, o2) -> ans_rel e p4 q -> Forall quiet_out o2 -> o = oc ++ o2 -> step_kind e p q o.

Lemma refresh_step e p q o : env_ok e -> pd_inv p -> pd_refresh e p = Ok (q, o) -> step_kind e p q o.
Proof.
  intros K I H. destruct (refresh_kinds e p q o K I H) as [(-> & p2 & N2 & S2 & B2 & Q)|[(f & rest & pr & HF & AN & N & S & RP)|
     (f & rest & p1 & ps & p2 & l & p3 & r & oc & HF & SQ & RC & FO & -> & BS & FS & AN & DP & BL & NL & B2 & N2 & DC & B3 & C)]].
  - apply (sk_idle _ _ _ _ p2); auto; destruct Q as [->|[->| ->]]; auto; simpl; auto. discriminate.
  - apply (sk_answer _ _ _ _ f rest pr); auto; [apply AN|apply (reply_ans e pr q o); auto; apply AN|apply (reply_phase_outs e pr q o); auto; apply AN].
  - destruct (cons_of l NL) as (c & d & ->). destruct C as [(-> & -> & Q)|[(-> & o2 & RP & ->)|(-> & o2 & RP & ->)]].
    + apply (sk_wait _ _ _ _ f rest p1 p2 c d p3); auto; destruct Q as [->| ->]; auto; simpl; auto. discriminate.
    + pose proof (binv_bumped e p3 B3) as BB. apply (sk_cmd _ _ _ _ f rest p1 p2 c d p3 RNone oc (bumped e p3) o2); auto.
      * apply (reply_ans e (bumped e p3) q o2); auto.
      * apply (reply_phase_outs e (bumped e p3) q o2); auto.
    + apply (sk_cmd _ _ _ _ f rest p1 p2 c d p3 RReply oc p3 o2); auto.
      * apply (reply_ans e p3 q o2); auto.
      * apply (reply_phase_outs e p3 q o2); auto.
Qed.
