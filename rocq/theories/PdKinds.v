(** PD: the three kinds of a refresh - nothing to answer, an answer without a command, a command. *)
From Verif Require Import Base ListLemmas Crc SpecCrc CrcProofs CrcBurst Aes AesProofs Rb RbProofs
  Types Sc ScProofs Phy PhyCheck File Pd SpecRx SpecFrame SpecSec SpecCmd MacProofs RxProofs RxFwd PdRx PdCore PhyTx PdTx PdReply
  PdStep PdWire PdFwd SpecPd PdRun PdSpeak PdPlain PdSec PdRefuse PdFacts.
From Coq Require Import ZifyBool ZifyNat.
Ltac Zify.zify_post_hook ::= Z.div_mod_to_equations.
Local Opaque aes_ecb_encrypt aes_cbc_encrypt aes_cbc_decrypt mac_of RB_SIZE osdp_mac enc1.

(* f is a frame among the bytes of this refresh that passes every check but the sequence check *)
Definition heard_frame (e : env) (p : pd) (f rest : list Z) : Prop :=
  (exists noise mk, arrived e p = noise ++ mk ++ f ++ rest /\ ~ In 83 noise /\ (mk = [] \/ zlen mk = 1)) /\
  f_shape false f /\ bytes f /\ f_intact f /\ f_mine (address p) f.

(* the answer that is pending is a NAK, or still the previous answer *)
Definition nak_or_same (p pr : pd) : Prop :=
  (reply_id pr = 65 /\ exists c, eph pr = EphNak c) \/ (reply_id pr = reply_id p /\ eph pr = eph p).

Lemma decode_packet_err p q c : decode_packet p = Ok (q, DErr c) -> nak_or_same p q.
Proof.
  unfold decode_packet. cbv zeta. intros H. unfold nak_or_same.
  destruct (ctl_scb _).
  - destruct (pd_mode (fl p) && negb (sc_is_capable p)). { inv H. left; simpl; eauto. }
    destruct (_ || (_ >? SCS_18)). { inv H. left; simpl; eauto. }
    destruct (negb (sc_active (fl p)) && _). { inv H. left; simpl; eauto. }
    match type of H with context [if ?b then set_use_scbkd true p else p] => set (p1 := if b then set_use_scbkd true p else p) in H end.
    assert (E : reply_id p1 = reply_id p /\ eph p1 = eph p) by (subst p1; match goal with |- context [if ?b then _ else _] => destruct b end; auto).
    clearbody p1. destruct E as [E1 E2].
    destruct (_ && _) eqn:?.
    + unfold decode_secure in H. apply bind_inv in H. destruct H as (p2 & C & H).
      assert (E : reply_id p2 = reply_id p1 /\ eph p2 = eph p1).
      { unfold compute_mac in C. destruct (_ =? 0); [discriminate|]. inv C. destruct (pd_mode (fl p1)); auto. }
      destruct E as [E3 E4].
      destruct (negb (eqb_bytes _ _)). { inv H. left; simpl; eauto. }
      destruct ((getb _ 6 =? SCS_17) || _).
      * match type of H with (if ?b then _ else _) = _ => destruct b end; [discriminate|].
        match type of H with (if ?b then _ else _) = _ => destruct b end. { inv H. left; simpl; eauto. }
        destruct (decrypt_data _ _ _ _) as [[d m]|]; [discriminate|]. inv H. left; simpl; eauto.
      * inv H. right. split; congruence.
    + inv H. right. split; congruence.
  - match type of H with context [if ?b then Ok (nak 6 p, _) else _] => destruct b end; inv H; [left; simpl; eauto|right; auto].
Qed.

(* pr stands where p stood, up to what receiving a packet may change *)
Definition near (p0 pr : pd) : Prop :=
  incore pr = incore p0 /\ (sc_active (fl pr) = true -> sc_active (fl p0) = true) /\
  (use_scbkd (fl pr) = true -> use_scbkd (fl p0) = true \/ install (fl p0) = true).

Lemma near_refl p : near p p.
Proof. split; auto. Qed.
Lemma near_rx p q : rxcore q = rxcore p -> near p q.
Proof.
  intros R. split; [apply rxcore_incore; auto|].
  pose proof (f_equal (fun x => fl x) R) as F. simpl in F.
  assert (A : sc_active (fl q) = sc_active (fl p)) by exact (f_equal sc_active F).
  assert (B : use_scbkd (fl q) = use_scbkd (fl p)) by exact (f_equal use_scbkd F). rewrite A, B. auto.
Qed.
Lemma near_trans a b c : near a b -> near b c -> near a c.
Proof.
  intros (A1 & A2 & A3) (B1 & B2 & B3). split; [congruence|]. split; auto.
  assert (F : install (fl b) = install (fl a)) by exact (f_equal (fun x => install (fl x)) A1).
  intros X. destruct (B3 X); auto. right. congruence.
Qed.
Lemma near_seen f p : near p (pd_seen f p).
Proof.
  split; [apply incore_seen|]. unfold pd_seen. split; destruct (f_addr f =? 127), (f_seq f =? 0); simpl; auto; discriminate.
Qed.
Lemma near_nak c p : near p (nak c p).
Proof. split; [apply incore_nak|auto]. Qed.
Lemma near_decode p q r : pd_mode (fl p) = true -> decode_packet p = Ok (q, r) -> near p q.
Proof. intros M H. destruct (decode_packet_core p q r M H) as (A & B & C & _). split; auto. Qed.

Definition kind_idle (e : env) (p0 q : pd) (o : list out) : Prop :=
  o = [] /\ exists p2, near p0 p2 /\ nak_or_same p0 p2 /\ binv p2 /\
    (q = p2 \/ q = state_reset false p2 \/ q = pd_error_reset p2).
Definition kind_answer (e : env) (p p0 q : pd) (o : list out) : Prop :=
  exists f rest pr, heard_frame e p f rest /\ answering p f pr /\ near p0 pr /\ nak_or_same p0 pr /\ 
    reply_phase e pr = Ok (q, o).
Definition kind_command (e : env) (p p0 q : pd) (o : list out) : Prop :=
  exists f rest p1 ps p2 l p3 r oc, heard_frame e p f rest /\ seq_ok (seqn p) (f_seq f) /\
    rxcore p1 = rxcore p0 /\ frame_of p1 = f /\ ps = pd_seen f p1 /\ binv ps /\ full ps /\ answering p f ps /\
    decode_packet ps = Ok (p2, DData l) /\ bytes l /\ l <> [] /\ binv p2 /\ near p0 p2 /\
    decode_command e p2 l = Ok (p3, r, oc) /\ binv p3 /\
    ((r = RWait /\ o = oc /\ (q = p3 \/ q = pd_error_reset p3)) \/
     (r = RNone /\ exists o2, reply_phase e (bumped e p3) = Ok (q, o2) /\ o = oc ++ o2) \/
     (r = RReply /\ exists o2, reply_phase e p3 = Ok (q, o2) /\ o = oc ++ o2)).

Lemma seen_same f p : reply_id (pd_seen f p) = reply_id p /\ eph (pd_seen f p) = eph p.
Proof. unfold pd_seen. destruct (f_addr f =? 127), (f_seq f =? 0); auto. Qed.
Lemma core_same p q : rxcore q = rxcore p -> reply_id q = reply_id p /\ eph q = eph p.
Proof. intros R. split; [exact (f_equal (fun x => reply_id x) R)|exact (f_equal (fun x => eph x) R)]. Qed.

Lemma got_heard e p p1 f : got_frame e (sc_timeout e p) p1 -> f = frame_of p1 -> bytes f -> f_intact f -> f_mine (address p) f ->
  pd_mode (fl p) = true -> exists rest, heard_frame e p f rest.
Proof.
  intros G -> B V M PM. destruct G as (GC & GW & _ & GP & GL & GA & GF & _).
  destruct GA as (noise & mk & GA & MK & NN & _). exists (rb_contents (rb p1)). split; [exists noise, mk; rewrite <- arrived_timeout; split; [auto|]; split; [auto|]; unfold mark_len in MK; destruct (has_mark (fl p1)); [right; auto|left; destruct mk; auto; rewrite zlen_cons in MK; pose proof (zlen_nonneg mk); lia]|].
  assert (X : pd_mode (fl (sc_timeout e p)) = true) by (rewrite (proj2 (proj2 (proj2 (timeout_ids e p)))); auto).
  rewrite X in GF. simpl in GF. auto.
Qed.

Lemma refresh_kinds e p q o : env_ok e -> pd_inv p -> pd_refresh e p = Ok (q, o) ->
  let p0 := sc_timeout e p in
  kind_idle e p0 q o \/ kind_answer e p p0 q o \/ kind_command e p p0 q o.
Proof.
  intros K I H p0. destruct (timeout_ids e p) as (TA & TS & _ & TM). fold p0 in TA, TS, TM.
  assert (PM : pd_mode (fl p) = true) by (destruct I as [B _ _]; apply B).
  destruct (refresh_cases e p q o K I H) as [(p1 & k & NF & SY & B1 & -> & C)|(p1 & G & B1 & BF & C)].
  - left. split; auto. exists p1. destruct NF as (R & _). fold p0 in R.
    split; [apply near_rx; auto|]. split; [right; apply core_same; auto|]. split; auto.
    destruct C as [(_ & ->)|[(_ & _ & ->)|[(_ & _ & ->)|[(_ & ->)|(_ & ->)]]]]; auto.
  - pose proof (got_full e _ p1 G) as GF. pose proof (got_heard e p p1 _ G eq_refl BF) as GH.
    assert (GC : rxcore p1 = rxcore p0) by (destruct G as (GC & _); exact GC).
    assert (AN : answering p (frame_of p1) (pd_seen (frame_of p1) p1)).
    { apply (answering_timeout e). apply answering_seen; auto. }
    assert (NS : near p0 (pd_seen (frame_of p1) p1)) by (eapply near_trans; [apply near_rx; exact GC|apply near_seen]).
    assert (SAME : reply_id (pd_seen (frame_of p1) p1) = reply_id p0 /\ eph (pd_seen (frame_of p1) p1) = eph p0).
    { destruct (seen_same (frame_of p1) p1) as [-> ->]. apply core_same; auto. }
    fold p0 in C. rewrite TA, TS in C. clear TA TS.
    destruct C as [(_ & -> & ->)|[(V & M & -> & ->)|[(V & M & SQ & C)|(V & M & SQ & BS & FS & p2 & r & D & B2 & F2 & C)]]].
    + left. split; auto. exists p1. split; [apply near_rx; auto|]. split; [right; apply core_same; auto|]. auto.
    + left. split; auto. exists p1. split; [apply near_rx; auto|]. split; [right; apply core_same; auto|]. auto.
    + right. left. destruct (GH V M PM) as (rest & HF). exists (frame_of p1), rest, (nak 4 (pd_seen (frame_of p1) p1)).
      split; auto. split; [apply answering_nak; [unfold byte; lia|auto]|]. split; [eapply near_trans; [exact NS|apply near_nak]|].
      split; auto. left. simpl. eauto.
    + assert (PMs : pd_mode (fl (pd_seen (frame_of p1) p1)) = true) by apply BS.
      destruct (GH V M PM) as (rest & HF).
      assert (N2 : near p0 p2) by (eapply near_trans; [exact NS|eapply near_decode; eauto]).
      destruct C as [(-> & C)|[(c & -> & NC & -> & ->)|(l & p3 & o1 & -> & BL & NL & B3 & C)]].
      * right. left. exists (frame_of p1), rest, p2. split; auto. split; [eapply answering_dec; eauto|]. split; auto.
        split; auto. destruct (decode_packet_err _ _ _ D) as [X|[X1 X2]]; [left; auto|right]. destruct SAME; split; congruence.
      * left. split; auto. exists p2. split; auto. split; auto.
        destruct (decode_packet_err _ _ _ D) as [X|[X1 X2]]; [left; auto|right]. destruct SAME; split; congruence.
      * right. right.
        assert (Q : exists r, decode_command e p2 l = Ok (p3, r, o1) /\
          ((r = RWait /\ o = o1 /\ (q = p3 \/ q = pd_error_reset p3)) \/
           (r = RNone /\ exists o2, reply_phase e (bumped e p3) = Ok (q, o2) /\ o = o1 ++ o2) \/
           (r = RReply /\ exists o2, reply_phase e p3 = Ok (q, o2) /\ o = o1 ++ o2))).
        { destruct C as [(DC & o2 & C1 & ->)|[(DC & o2 & C1 & ->)|(DC & -> & _ & _ & [(_ & ->)|(_ & ->)])]].
          - exists RNone. split; auto. right. left. split; auto. eauto.
          - exists RReply. split; auto. right. right. split; auto. eauto.
          - exists RWait. split; auto.
          - exists RWait. split; auto. }
        destruct Q as (r & DC & Q).
        exists (frame_of p1), rest, p1, (pd_seen (frame_of p1) p1), p2, l, p3, r, o1.
        do 14 (split; [first [assumption|reflexivity]|]). split; assumption.
Qed.
