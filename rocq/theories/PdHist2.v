(** PD: more invariants over histories - the SCRYPT cryptogram, the event queue, work outside a session. *)
From Verif Require Import Base ListLemmas Crc SpecCrc CrcProofs CrcBurst Aes AesProofs Rb RbProofs
  Types Sc ScProofs Phy PhyCheck File Pd SpecRx SpecFrame SpecSec SpecCmd SpecApp MacProofs RxProofs RxFwd PdRx PdCore PhyTx PdTx PdReply
  PdStep PdWire PdFwd SpecPd PdRun PdSpeak PdPlain PdSec PdRefuse PdFacts PdKinds PdCase PdApp PdTrace PdHist.
From Coq Require Import ZifyBool ZifyNat.
Ltac Zify.zify_post_hook ::= Z.div_mod_to_equations.
Local Opaque aes_ecb_encrypt aes_cbc_encrypt aes_cbc_decrypt mac_of RB_SIZE osdp_mac enc1 cap_entries.

Lemma firstn_add {A} (b : list A) x y : firstn (x + y) b = firstn x b ++ firstn y (skipn x b).
Proof. revert b. induction x as [|x IH]; intros [|a b]; simpl; auto. - rewrite firstn_nil. auto. - f_equal. apply IH. Qed.

Lemma infix_sub (b : list Z) n off len : (off + len <= n)%nat ->
  exists a t, firstn n b = a ++ firstn len (skipn off b) ++ t.
Proof.
  intros H1. exists (firstn off b), (firstn (n - off - len) (skipn len (skipn off b))).
  replace n with (off + (len + (n - off - len)))%nat at 1 by lia. rewrite !firstn_add. auto.
Qed.

(* l stands in f in clear *)
Definition carries (f l : list Z) : Prop := exists a b, f = a ++ l ++ b.

Lemma decode_carries p q l : decode_packet p = Ok (q, DData l) -> binv p -> full p -> sc_active (fl p) = false -> carries (frame_of p) l.
Proof.
  intros D B F A. pose proof (iv_ty p B) as (_ & _ & _ & _ & LB & BB).
  destruct (frame_from p LB F) as (Z & _ & _). pose proof (zlen_nonneg (frame_of p)) as NN.
  pose proof (bytes_getb (from (pbuf p) (mark_len p)) 5 (bytes_skipn _ _ BB)) as B5.
  pose proof (frame_prefix p (zlen (frame_of p)) LB F ltac:(lia)) as FP.
  rewrite (firstn_all2 (frame_of p)) in FP by (unfold zlen; lia).
  assert (PB : pblen p = plen p) by apply F.
  assert (X : exists off len, l = sub (from (pbuf p) (mark_len p)) off len /\ 0 < len /\ 0 <= off /\ off + len <= zlen (frame_of p)).
  { unfold decode_packet in D. cbv zeta in D. rewrite A, (iv_mode p B), PB in D. cbn [andb negb] in D. unfold ret_data in D.
    unfold byte in B5.
    repeat match type of D with context [if ?b then _ else _] => destruct b eqn:? end; inv D.
    - eexists _, _. split; [reflexivity|]. lia.
    - eexists _, _. split; [reflexivity|]. lia.
    - eexists _, _. split; [reflexivity|]. lia.
    - eexists _, _. split; [reflexivity|]. lia.
    - eexists _, _. split; [reflexivity|]. lia.
    - eexists _, _. split; [reflexivity|]. lia. }
  destruct X as (off & len & -> & L1 & L2 & L3).
  destruct (infix_sub (from (pbuf p) (mark_len p)) (Z.to_nat (zlen (frame_of p))) (Z.to_nat off) (Z.to_nat len) ltac:(lia)) as (a & t & E).
  exists a, t. rewrite <- FP. exact E.
Qed.

(** * C09 cryptogram *)
(* in this call a SCRYPT with the 16 bytes x came in, in clear, outside a session *)
Definition scrypt_in (en : entry) (x : list Z) : Prop :=
  exists e f rest, en_call en = Refresh e /\ heard_frame e (en_pd en) f rest /\ carries f (119 :: x) /\
    (session_open e (en_pd en) = false \/ f_seq f = 0).
Definition scr_inv (h : list entry) (p : pd) : Prop :=
  reply_id p = 120 -> exists en, In en h /\ scrypt_in en (cp_crypt (sc p)).

Lemma seen_active f p : sc_active (fl (pd_seen f p)) = false -> sc_active (fl p) = false \/ f_seq f = 0.
Proof.
  unfold pd_seen. cbv zeta. destruct (f_seq f =? 0) eqn:E; [right; lia|]. intros H. left.
  rewrite <- H. destruct (f_addr f =? 127); reflexivity.
Qed.

Lemma near_crypt e p pr : near (sc_timeout e p) pr -> nak_or_same (sc_timeout e p) pr -> reply_id pr = 120 ->
  reply_id p = 120 /\ cp_crypt (sc pr) = cp_crypt (sc p).
Proof.
  intros N S R. destruct (near_fields _ _ N) as (_ & _ & _ & _ & _ & _ & _ & _ & _ & _ & _ & _ & _ & F & _).
  destruct (timeout_fields e p) as (_ & _ & _ & _ & _ & _ & _ & _ & T1 & _ & _ & _ & T2 & _).
  destruct S as [(Y & _)|(Y & _)]; split; congruence.
Qed.

Lemma cmd_scrypt e p q o f rest p1 p2 c d p3 r oc : heard_frame e p f rest -> frame_of p1 = f ->
  rxcore p1 = rxcore (sc_timeout e p) -> binv (pd_seen f p1) -> full (pd_seen f p1) ->
  decode_packet (pd_seen f p1) = Ok (p2, DData (c :: d)) -> near (sc_timeout e p) p2 ->
  decode_command e p2 (c :: d) = Ok (p3, r, oc) -> reply_id p3 = 120 -> cp_crypt (sc q) = cp_crypt (sc p3) ->
  scrypt_in (mkEntry p (Refresh e) o) (cp_crypt (sc q)).
Proof.
  intros HF FO RX BS FS DP N2 DC R ->.
  destruct (de_scr _ _ _ _ _ _ _ (command_eff _ _ _ _ _ _ _ DC) R) as (-> & L & E & A).
  destruct (data_same _ _ _ _ _ _ RX BS DP) as (_ & _ & Z). rewrite A in Z. symmetry in Z.
  pose proof (decode_carries _ _ _ DP BS FS Z) as C.
  assert (frame_of (pd_seen f p1) = f). { rewrite <- FO at 2. unfold pd_seen. cbv zeta. destruct (f_addr f =? 127), (f_seq f =? 0); reflexivity. }
  exists e, f, rest. rewrite E. repeat split; auto; try apply HF; try congruence.
  destruct (seen_active _ _ Z) as [Y|Y]; auto. left. change (en_pd (mkEntry p (Refresh e) o)) with p. rewrite <- session_open_eq.
  rewrite <- Y. symmetry. exact (f_equal (fun x => sc_active (fl x)) RX).
Qed.

(* C09: the session comes up only by the right cryptogram, received *)
Lemma scr_step e i n h p q o : pd_runs i n h p -> call_typed (Refresh e) -> pd_refresh e p = Ok (q, o) -> scr_inv h p ->
  scr_inv (mkEntry p (Refresh e) o :: h) q /\
  (sc_active (fl q) = true -> session_open e p = true \/
     (cp_crypt (sc q) = enc1 (s_enc (sc q)) (firstn 8 (pd_random (sc q)) ++ firstn 8 (cp_random (sc q))) /\
      exists en, In en (mkEntry p (Refresh e) o :: h) /\ scrypt_in en (cp_crypt (sc q)))).
Proof.
  intros R T H KI. pose proof (run_step e i n h p q o R T H) as SK.
  assert (KS : forall x, In x h -> In x (mkEntry p (Refresh e) o :: h)) by (simpl; auto).
  destruct SK as [pr N S -> SC SA|f rest pr HF N S B RP AR QO|f rest p1 p2 c d p3 HF SQ FO RX BS FS DP BL N2 DC SC SA|
    f rest p1 p2 c d p3 r oc p4 o2 HF SQ FO RX BS FS DP BL N2 DC PR B4 RP AR QO EO].
  - destruct (same_fields _ _ SC) as ((AC & _) & _). destruct (ans_fields _ _ AC) as (_ & (_ & _ & _ & X2) & _ & (_ & X4 & _)). split.
    + intros Y. destruct (near_crypt e p pr N S ltac:(congruence)) as (Y1 & Y2). destruct (KI Y1) as (en & I & K).
      exists en. split; auto. rewrite X4, Y2. exact K.
    + intros Y. left. rewrite <- session_open_eq. apply N; auto.
  - destruct AR as [C _ _ _ SS A _]. destruct (ans_fields _ _ C) as (_ & (_ & _ & _ & X2) & _ & (X3 & X4 & _)).
    assert (G : reply_id pr = 120 -> exists en, In en (mkEntry p (Refresh e) o :: h) /\ scrypt_in en (cp_crypt (sc q))).
    { intros Y. destruct (near_crypt e p pr N S Y) as (Y1 & Y2). destruct (KI Y1) as (en & I & K). exists en. split; auto. rewrite X4, Y2. exact K. }
    split.
    + intros Y. apply G. congruence.
    + intros Y. destruct (A Y) as [(Y1 & _)|(Y1 & Y2 & _)].
      * left. rewrite <- session_open_eq. apply N; auto.
      * right. split; [|apply G; auto]. destruct SS as [(S1 & _ & _ & S4)|(S1 & _)]; [|congruence]. rewrite S1, S4, X3, X4. exact Y2.
  - destruct (same_fields _ _ SC) as ((AC & _) & _). destruct (ans_fields _ _ AC) as (_ & (_ & _ & _ & X2) & _ & (_ & X4 & _)). split.
    + intros Y. exists (mkEntry p (Refresh e) o). split; [simpl; auto|].
      apply (cmd_scrypt e p q o f rest p1 p2 c d p3 RWait o); auto; congruence.
    + intros Y. left. rewrite <- session_open_eq. apply N2. destruct (cmd_fields _ _ _ _ _ _ DC) as (_ & _ & _ & _ & G). auto.
  - assert (P4 : anscore p4 = anscore p3 /\ fl p4 = fl p3).
    { destruct PR as [(_ & ->)|(_ & ->)]; auto. destruct (bumped_fields e p3) as (Y1 & (_ & _ & _ & _ & Y3) & _). auto. }
    destruct P4 as (P1 & P2). destruct (ans_fields _ _ P1) as (_ & (_ & _ & _ & Z2) & _ & (_ & Z4 & _)).
    destruct AR as [C _ _ _ SS A _]. destruct (ans_fields _ _ C) as (_ & (_ & _ & _ & X2) & _ & (X3 & X4 & _)).
    assert (G : reply_id p4 = 120 -> exists en, In en (mkEntry p (Refresh e) o :: h) /\ scrypt_in en (cp_crypt (sc q))).
    { intros Y. exists (mkEntry p (Refresh e) o). split; [simpl; auto|].
      apply (cmd_scrypt e p q o f rest p1 p2 c d p3 r oc); auto; congruence. }
    split.
    + intros Y. apply G. congruence.
    + intros Y. destruct (A Y) as [(Y1 & _)|(Y1 & Y2 & _)].
      * left. rewrite <- session_open_eq. apply N2. rewrite P2 in Y1. destruct (cmd_fields _ _ _ _ _ _ DC) as (_ & _ & _ & _ & W). auto.
      * right. split; [|apply G; auto]. destruct SS as [(S1 & _ & _ & S4)|(S1 & _)]; [|congruence]. rewrite S1, S4, X3, X4. exact Y2.
Qed.

Lemma scr_runs i n h p : pd_runs i n h p -> scr_inv h p.
Proof.
  intros R. induction R as [p T S|h p c q o R IH T D].
  - intros X. destruct (setup_fresh i n p S) as ((Y & _) & _). congruence.
  - destruct (other_call _ _ _ _ D) as [(e & ->)|(O & _)].
    + apply (scr_step e i n h p q o R T D IH).
    + destruct (other_fields _ _ O) as ((O1 & _ & _ & O4 & _) & _). intros X. rewrite O4. destruct (IH ltac:(congruence)) as (en & I & K). exists en. simpl; auto.
Qed.

(** * C14 outside a session *)
Lemma gate_same e p c d q r o : decode_command e p (c :: d) = Ok (q, r, o) -> enforce (fl p) = true -> sc_active (fl p) = false ->
  o = [] /\ evq q = evq p /\ file q = file p /\ peer_rx q = peer_rx p /\ In (reply_id q) [65; 69; 70; 118; 120].
Proof.
  intros H E A. destruct (command_gate _ _ _ _ _ _ _ H E A) as (-> & _). split; auto.
  destruct (command_case _ _ _ _ _ _ _ H) as (G & C). destruct (G E) as [X|[X|(-> & -> & _)]]; [congruence| |simpl; auto].
  unfold public_codes in X.
  destruct C as [(k & Hk & -> & _)|[(q1 & D & NO & -> & ->)|(NG & D)]]; [simpl; auto| |].
  - inversion D; subst; simpl in X |- *; auto 10;
     try (match goal with X : status_cmd _ _ _ |- _ => destruct X as [(-> & -> & ->)|[(-> & -> & ->)|[(-> & -> & ->)|(-> & -> & ->)]]] end);
     exfalso; lia.
  - inversion D; subst; simpl in X |- *; auto 10;
     try (match goal with X : status_cmd _ _ _ |- _ => destruct X as [(-> & -> & ->)|[(-> & -> & ->)|[(-> & -> & ->)|(-> & -> & ->)]]] end);
     try (match goal with X : multi_cmd _ _ _ |- _ => destruct X as [(-> & -> & ->)|[(-> & -> & ->)|(-> & -> & ->)]] end); try (exfalso; lia).
    split; auto. split; auto. split; auto. lia.
Qed.

(* the pending answer is a public one or the one that was already pending *)
Lemma quiet_step e p q o : step_kind e p q o -> enforce (fl p) = true -> session_open e p = false ->
  Forall quiet_out o /\ (evq q = evq p /\ caps q = caps p /\ has_cb q = has_cb p /\ peer_rx q = peer_rx p) /\
  (file q = file p \/ reply_id p = 122) /\ (reply_id q = reply_id p \/ In (reply_id q) [65; 69; 70; 118; 120]).
Proof.
  intros SK EN SO. destruct (timeout_fields e p) as (T1 & T2 & T3 & T4 & _ & _ & T5 & T6 & _ & _ & _ & _ & T7 & _).
  rewrite <- session_open_eq in SO.
  destruct SK as [pr N S -> SC SA|f rest pr HF N S B RP AR QO|f rest p1 p2 c d p3 HF SQ FO RX BS FS DP BL N2 DC SC SA|
    f rest p1 p2 c d p3 r oc p4 o2 HF SQ FO RX BS FS DP BL N2 DC PR B4 RP AR QO EO].
  - destruct (same_fields _ _ SC) as ((AC & _ & _ & AF & _) & _). destruct (ans_fields _ _ AC) as ((X1 & X2 & X3 & X4) & (_ & _ & _ & X5) & _ & _).
    destruct (near_fields _ _ N) as (F1 & F2 & F3 & F4 & _ & _ & F5 & F6 & _).
    split; [constructor|]. split; [repeat split; congruence|]. split; [left; congruence|].
    destruct S as [(Y & _)|(Y & _)]; [right; simpl; left|left]; congruence.
  - destruct AR as [AC _ _ AF _ _ _]. destruct (ans_fields _ _ AC) as ((X1 & X2 & X3 & X4) & (_ & _ & _ & X5) & _ & _).
    destruct (near_fields _ _ N) as (F1 & F2 & F3 & F4 & _ & _ & F5 & F6 & _).
    split; auto. split; [repeat split; congruence|]. destruct S as [(Y & _)|(Y & _)].
    + split; [|right; simpl; left; congruence]. left. destruct AF; congruence.
    + split; [|left; congruence]. destruct AF; [left|right]; congruence.
  - assert (A2 : sc_active (fl p2) = false). { destruct N2 as (_ & N2 & _). destruct (sc_active (fl p2)); auto. rewrite N2 in SO; auto. }
    destruct (near_fields _ _ N2) as (F1 & F2 & F3 & F4 & _ & _ & F5 & F6 & _).
    destruct (gate_same _ _ _ _ _ _ _ DC ltac:(congruence) A2) as (-> & G1 & G2 & G3 & G4).
    destruct (cmd_fields _ _ _ _ _ _ DC) as ((_ & _ & C1 & C2 & _) & _).
    destruct (same_fields _ _ SC) as ((AC & _ & _ & AF & _) & _). destruct (ans_fields _ _ AC) as ((X1 & X2 & X3 & X4) & (_ & _ & _ & X5) & _ & _).
    split; [constructor|]. split; [repeat split; congruence|]. split; [left; congruence|]. right. rewrite X5. exact G4.
  - assert (A2 : sc_active (fl p2) = false). { destruct N2 as (_ & N2 & _). destruct (sc_active (fl p2)); auto. rewrite N2 in SO; auto. }
    destruct (near_fields _ _ N2) as (F1 & F2 & F3 & F4 & _ & _ & F5 & F6 & _).
    destruct (gate_same _ _ _ _ _ _ _ DC ltac:(congruence) A2) as (-> & G1 & G2 & G3 & G4).
    destruct (cmd_fields _ _ _ _ _ _ DC) as ((_ & _ & C1 & C2 & _) & _).
    assert (P4 : anscore p4 = anscore p3 /\ file p4 = file p3).
    { destruct PR as [(_ & ->)|(_ & ->)]; auto. destruct (bumped_fields e p3) as (Y1 & (_ & _ & Y3 & _) & _). auto. }
    destruct P4 as (P1 & P2). destruct (ans_fields _ _ P1) as ((Z1 & Z2 & Z3 & Z4) & (_ & _ & _ & Z5) & _ & _).
    destruct AR as [AC _ _ AF _ _ _]. destruct (ans_fields _ _ AC) as ((X1 & X2 & X3 & X4) & (_ & _ & _ & X5) & _ & _).
    subst o. split; auto. split; [repeat split; congruence|]. split.
    + left. destruct AF as [AF|AF]; [congruence|]. exfalso. rewrite <- Z5, AF in G4. simpl in G4. lia.
    + right. rewrite X5, Z5. exact G4.
Qed.

(** * C28 event queue *)
(* events accepted since the last flush, oldest first *)
Fixpoint accepted (h : list entry) : list event :=
  match h with
  | [] => []
  | en :: t =>
      match en_call en with
      | Notify ev => accepted t ++ (if snd (pd_notify_event ev (en_pd en)) then [ev] else [])
      | Flush => []
      | _ => accepted t
      end
  end.
(* events taken out of the queue by refreshes since the last flush, oldest first; q: the device afterwards *)
Fixpoint taken (h : list entry) (q : pd) : list event :=
  match h with
  | [] => []
  | en :: t =>
      match en_call en with
      | Flush => []
      | _ => taken t (en_pd en) ++ firstn (length (evq (en_pd en)) - length (evq q)) (evq (en_pd en))
      end
  end.
(* a POLL was heard in this refresh *)
Lemma evq_step e p q o : step_kind e p q o ->
  evq q = evq p \/
  (exists ev f rest p1 p2 p3 p4 o2, evq p = ev :: evq q /\ heard_frame e p f rest /\ seq_ok (seqn p) (f_seq f) /\ frame_of p1 = f /\
     decode_packet (pd_seen f p1) = Ok (p2, DData [96]) /\ near (sc_timeout e p) p2 /\
     p3 = translate_event (set_evq (evq q) (set_cmd_id 96 (set_reply_id 0 p2))) ev /\ p4 = bumped e p3 /\
     reply_phase e p4 = Ok (q, o2) /\ o = o2).
Proof.
  intros SK. destruct (timeout_fields e p) as (T1 & T2 & T3 & T4 & _).
  destruct SK as [pr N S -> SC SA|f rest pr HF N S B RP AR QO|f rest p1 p2 c d p3 HF SQ FO RX BS FS DP BL N2 DC SC SA|
    f rest p1 p2 c d p3 r oc p4 o2 HF SQ FO RX BS FS DP BL N2 DC PR B4 RP AR QO EO].
  - destruct (same_fields _ _ SC) as ((AC & _) & _). destruct (ans_fields _ _ AC) as ((X1 & _) & _).
    destruct (near_fields _ _ N) as (_ & _ & _ & F4 & _). left; congruence.
  - destruct AR as [AC _ _ _ _ _ _]. destruct (ans_fields _ _ AC) as ((X1 & _) & _).
    destruct (near_fields _ _ N) as (_ & _ & _ & F4 & _). left; congruence.
  - destruct (near_fields _ _ N2) as (_ & _ & _ & F4 & _). destruct (same_fields _ _ SC) as ((AC & _) & _). destruct (ans_fields _ _ AC) as ((X1 & _) & _).
    left. destruct (de_evq _ _ _ _ _ _ _ (command_eff _ _ _ _ _ _ _ DC)) as [Y|(_ & _ & Y & _)]; [congruence|discriminate].
  - destruct (near_fields _ _ N2) as (_ & _ & _ & F4 & _).
    assert (P4 : anscore p4 = anscore p3).
    { destruct PR as [(_ & ->)|(_ & ->)]; auto. apply (bumped_fields e p3). }
    destruct (ans_fields _ _ P4) as ((Z1 & _) & _). destruct AR as [AC _ _ _ _ _ _]. destruct (ans_fields _ _ AC) as ((X1 & _) & _).
    destruct (de_evq _ _ _ _ _ _ _ (command_eff _ _ _ _ _ _ _ DC)) as [Y|(-> & -> & -> & ev & Y1 & Y2)]; [left; congruence|].
    assert (EQ : evq q = evq p3) by congruence. right. exists ev, f, rest, p1, p2, p3, p4, o2. rewrite EQ.
    split; [congruence|]. do 5 (split; auto). split; auto.
    destruct PR as [(_ & ->)|(? & _)]; [|discriminate]. repeat split; auto.
    assert (oc = []). { clear - DC F4 Y1. destruct (command_case _ _ _ _ _ _ _ DC) as (_ & [(k & _ & _ & _ & ->)|[(q1 & D & NO & _ & _)|(NG & D)]]); auto.
      - inversion D; subst; auto; try (match goal with X : status_cmd _ _ _ |- _ => destruct X as [(? & ?)|[(? & ?)|[(? & ?)|(? & ?)]]] end); exfalso; lia.
      - inversion D; subst; auto; try (match goal with X : status_cmd _ _ _ |- _ => destruct X as [(? & ?)|[(? & ?)|[(? & ?)|(? & ?)]]] end);
        try (match goal with X : multi_cmd _ _ _ |- _ => destruct X as [(? & ?)|[(? & ?)|(? & ?)]] end); exfalso; lia. }
    subst oc o. reflexivity.
Qed.

Lemma fifo_runs i n h p : pd_runs i n h p -> accepted h = taken h p ++ evq p.
Proof.
  intros R. induction R as [p T S|h p c q o R IH T D].
  - simpl. destruct (setup_fresh i n p S) as ((_ & _ & -> & _) & _). reflexivity.
  - destruct c as [e|ev| |l|b|]; simpl.
    + pose proof (run_step e i n h p q o R T D) as SK. rewrite IH. destruct (evq_step _ _ _ _ SK) as [->|(ev & f & rest & _ & _ & _ & _ & _ & E & _)].
      * rewrite Nat.sub_diag. simpl. rewrite app_nil_r. reflexivity.
      * rewrite E. replace (length (ev :: evq q) - length (evq q))%nat with 1%nat by (cbn [length]; lia). simpl. rewrite <- app_assoc. reflexivity.
    + simpl in D. injection D as <- _. rewrite IH. unfold pd_notify_event. destruct (zlen (evq p) <? pool p) eqn:E; simpl.
      2:{ rewrite Nat.sub_diag. simpl. rewrite !app_nil_r. reflexivity. }
      * replace (length (evq p) - length (evq p ++ [ev]))%nat with 0%nat by (rewrite app_length; lia). simpl. rewrite app_nil_r, <- app_assoc. reflexivity.
    + simpl in D. injection D as <- _. reflexivity.
    + simpl in D. injection D as <- _. assert (evq (pd_set_capabilities l p) = evq p) as -> by reflexivity.
      rewrite Nat.sub_diag. simpl. rewrite app_nil_r. exact IH.
    + simpl in D. injection D as <- _. simpl. rewrite Nat.sub_diag. simpl. rewrite app_nil_r. exact IH.
    + simpl in D. injection D as <- _. simpl. rewrite Nat.sub_diag. simpl. rewrite app_nil_r. exact IH.
Qed.
