(** CP: the address and the baud rate that an entry uses change only by a COM reply. *)
From Verif Require Import Base ListLemmas Crc SpecCrc CrcProofs CrcBurst Aes AesProofs Rb RbProofs
  Types Sc ScProofs Phy PhyCheck File Pd Cp SpecRx SpecFrame SpecSec SpecSession SpecReply SpecAuth RxProofs RxFwd PdRx PdCore PhyTx PdTx PdReply
  PdStep PdRun PdWire PdFwd PdSec PdHist2 WireSec SaysProofs AuthProofs CpCtx SpecPd SpecCp SpecCpRun CpTx CpRx CpStep CpInv CpEdge CpFacts CpSum CpWire CpHist CpTime CpFwd CpRetry CpSeq CpQueue CpReply.
From Coq Require Import ZifyBool ZifyNat.
Ltac Zify.zify_post_hook ::= Z.div_mod_to_equations.
Local Opaque aes_ecb_encrypt aes_cbc_encrypt aes_cbc_decrypt mac_of RB_SIZE osdp_mac enc1 cap_entries osdp_encrypt encrypt_data.

(* address and baud rate in use *)
Definition comm (p : pd) : Z * Z := (address p, baud p).
(* a COM reply with these values *)
Definition com_reply (l : list Z) (x : Z * Z) : Prop :=
  exists b0 b1 b2 b3, l = [84; fst x; b0; b1; b2; b3] /\ snd x = b0 + 256 * b1 + 65536 * b2 + 16777216 * b3.

Lemma stat_comm e p d q b o : file_stat_decode e p d = Ok (q, b, o) -> comm q = comm p.
Proof.
  unfold file_stat_decode. repeat match goal with |- context [if ?b then _ else _] => destruct b | |- context [match ?x with _ => _ end] => destruct x eqn:? end;
    cbv zeta; repeat match goal with |- context [if ?b then _ else _] => destruct b end; intros H; inv H; reflexivity.
Qed.

Lemma resp_comm e p l q r o : decode_response e p l = Ok (q, r, o) -> 1 <= zlen l -> comm q = comm p \/ com_reply l (comm q).
Proof.
  intros D L. destruct l as [|c d]; [change (zlen (@nil Z)) with 0 in L; lia|].
  unfold decode_response in D. cbv zeta in D. change (getb (c :: d) 0) with c in D. change (from (c :: d) 1) with d in D.
  assert (NX : forall x, Ok (set_reply_id c p, x, []) = Ok (q, r, o) -> comm q = comm p) by (intros x X; inv X; auto).
  assert (NE : forall ev, Ok (got_event ev (set_reply_id c p), CNone, []) = Ok (q, r, o) -> comm q = comm p) by (intros x X; inv X; auto).
  assert (MK : forall fc ty, dec_mask (set_reply_id c p) fc ty d = Ok (q, r, o) -> comm q = comm p).
  { intros fc ty X. clear D. unfold dec_mask in X. destruct (_ || _); [exact (NX _ X)|exact (NE _ X)]. }
  destruct (c =? REPLY_ACK); [left; destruct (negb _); eauto|].
  destruct (c =? REPLY_NAK); [left; destruct (negb _); eauto|].
  destruct (c =? REPLY_PDID); [left; destruct (negb _); eauto; inv D; reflexivity|].
  destruct (c =? REPLY_PDCAP); [left; destruct (negb _); eauto; inv D; unfold read_pdcap; destruct (_ =? CAP_RXBUF); reflexivity|].
  destruct (c =? REPLY_OSTATR); [left; eauto|].
  destruct (c =? REPLY_ISTATR); [left; eauto|].
  destruct (c =? REPLY_LSTATR); [left; destruct (negb _); eauto|].
  destruct (c =? REPLY_RSTATR); [left; destruct (negb _); eauto|].
  destruct (c =? REPLY_COM) eqn:K.
  { destruct (negb _) eqn:Z5; [left; eauto|]. right. unfold REPLY_COM in K. assert (c = 84) by lia. subst c.
    destruct d as [|a [|b0 [|b1 [|b2 [|b3 [|x t]]]]]]; rewrite ?zlen_cons in Z5; change (zlen (@nil Z)) with 0 in Z5; try (pose proof (zlen_nonneg t)); try lia.
    inv D. exists b0, b1, b2, b3. split; reflexivity. }
  left.
  destruct (c =? REPLY_KEYPAD). { destruct (_ <? 2); [eauto|]. destruct (negb _); [eauto|]. destruct (_ >? 64); [discriminate|eauto]. }
  destruct (c =? REPLY_RAW). { destruct (_ <? 4); [eauto|]. destruct (negb _); [eauto|]. destruct (_ >? 64); [discriminate|eauto]. }
  destruct (c =? REPLY_FMT); [eauto|].
  destruct (c =? REPLY_BUSY); [destruct (negb _); eauto|].
  destruct (c =? REPLY_MFGREP). { destruct (_ <? 4); [eauto|]. destruct (_ >? 128); eauto. }
  destruct (c =? REPLY_FTSTAT).
  { destruct (file_stat_decode _ _ _) as [[[p1 b] o1]| |] eqn:F; simpl in D; try discriminate. apply stat_comm in F. destruct b; inv D; exact F. }
  destruct (c =? REPLY_CCRYPT).
  { destruct (_ || _); [eauto|]. destruct (negb _); [eauto|]. destruct (verify_pd_cryptogram _); inv D; reflexivity. }
  destruct (c =? REPLY_RMAC_I).
  { destruct (_ || _); [eauto|]. destruct (negb _); [eauto|]. inv D; reflexivity. }
  eauto.
Qed.

(* the values are those of before or of a COM reply just received *)
Definition comm_src (e : env) (p p1 : pd) : Prop := comm p1 = comm p \/ exists l, heard_reply e p l /\ com_reply l (comm p1).

Lemma reply_comm e p p1 r o : cpi p -> phy_state p = PReplyWait -> reply_case e p p1 r o -> comm_src e p p1.
Proof.
  intros I P H. destruct H as [k N K S|k N K C|pf r o G S F].
  - left. destruct N as (R & _). exact (f_equal (fun x => comm x) R).
  - left. destruct N as (R & _). exact (f_equal (fun x => comm x) R).
  - pose proof G as (R & W1 & _). assert (E1 : comm pf = comm p) by exact (f_equal (fun x => comm x) R).
    assert (I1 : cbinv pf) by (eapply cbinv_rx; eauto; [apply (ci_b p I)|apply W1]).
    destruct (got_full _ _ _ G) as (FU & _).
    destruct F as [B E|A B C E|A B C D E|k A B C D H1|p2 l r o A B C D H1 H2].
    + left. rewrite E. auto.
    + left. rewrite E. auto.
    + left. rewrite E. auto.
    + left. destruct (cp_decode_packet _ _ _ I1 ltac:(destruct FU as (x & y & _); lia) H1) as (_ & DC & _).
      rewrite <- E1. exact (f_equal (fun x => comm x) DC).
    + destruct (cp_decode_packet _ _ _ I1 ltac:(destruct FU as (x & y & _); lia) H1) as (_ & DC & _ & _ & _ & BL & NE & _).
      assert (E2 : comm p2 = comm pf) by exact (f_equal (fun x => comm x) DC).
      assert (L1 : 1 <= zlen l) by (destruct l; [congruence|]; rewrite zlen_cons; pose proof (zlen_nonneg l); lia).
      destruct (resp_comm _ _ _ _ _ _ H2 L1) as [X|X]; [left; congruence|].
      right. exists l. split; [|exact X]. eapply got_says; eauto.
      assert (AD : address pf = address p) by exact (f_equal (fun x => address x) R).
      assert (SQ : seqn pf = seqn p) by exact (f_equal (fun x => seqn x) R).
      rewrite AD in B. rewrite SQ in D. split; [exact A|]. split; [exact B|]. exact D.
Qed.

Lemma change_comm e p n q o : state_change e p n = (q, o) -> comm q = comm p.
Proof. destruct n; cbn [state_change]; intros H; injection H as <- <-; try reflexivity. destruct (sc_setup_fields (e_rand e) p) as (s & ->). reflexivity. Qed.
Lemma requests_comm e p n q n2 o : do_requests e p n = (q, n2, o) -> comm q = comm p.
Proof.
  unfold do_requests. destruct (_ || _); [|intros H; inv H; auto].
  destruct (rq_restart p); simpl; (destruct (rq_offline p); simpl); destruct (rq_event p); simpl; intros H; inv H; reflexivity.
Qed.
Lemma keyset_comm e p q o : keyset_complete e p = Ok (q, o) -> comm q = comm p.
Proof.
  unfold keyset_complete. destruct (negb (use_scbkd (fl p))).
  - destruct (eph p) as [| |c| |]; try discriminate. destruct c; try discriminate. destruct (take_arr _ _); try discriminate. simpl.
    destruct (state p); intros K; inv K; reflexivity.
  - simpl. destruct (state p); intros K; inv K; reflexivity.
Qed.
Lemma next_comm e p ok p1 n1 o1 : (if ok : bool then next_ok_state e p else Ok (next_err_state e p)) = Ok (p1, n1, o1) -> comm p1 = comm p.
Proof.
  destruct ok.
  - unfold next_ok_state. destruct (state p); intros H; try (inv H; reflexivity).
    + destruct (sc_is_capable p); [|destruct (enforce (fl p))]; inv H; reflexivity.
    + cbv zeta in H. destruct (use_scbkd _); inv H; reflexivity.
    + destruct (keyset_complete e p) as [[p2 o2]| |] eqn:K; simpl in H; try discriminate. inv H. eapply keyset_comm; eauto.
  - unfold next_err_state. destruct (state p); intros H; try (inv H; reflexivity).
    destruct (enforce (fl p)); [|destruct (negb (use_scbkd (fl p)))]; inv H; reflexivity.
Qed.
Lemma finish_comm e cur p ok o0 q rc o : finish_update e cur p ok o0 = Ok (q, rc, o) -> comm q = comm p.
Proof.
  unfold finish_update. intros H.
  destruct (if ok then _ else _) as [[[p1 n1] o1]| |] eqn:NX; simpl in H; try discriminate. apply next_comm in NX.
  destruct (do_requests e p1 n1) as [[p2 n2] o2] eqn:DR. apply requests_comm in DR.
  destruct (st_eqb cur n2); [injection H as <- _ _; congruence|].
  destruct (state_change e p2 n2) as [p3 o3] eqn:CH. apply change_comm in CH. injection H as <- _ _. congruence.
Qed.
Lemma ended_comm e cur ok p1 o1 q o : ended e cur ok p1 o1 q o -> comm q = comm p1.
Proof.
  intros (p2 & st & o2 & CK & FU). apply finish_comm in FU. destruct (check_checked _ _ _ _ _ CK) as (CH & _). rewrite FU.
  destruct CH as [N E |p3 K T E]; rewrite E; [reflexivity|]. destruct T as [U -> |ty n k d U E1 TA ->]; reflexivity.
Qed.
Lemma pick_comm e p p1 c o : picked e p p1 c o -> comm p1 = comm p.
Proof. intros [k cq ? ? -> ? ?|f ? ? -> ?|f ? ? -> ? ?|f ? ? -> ? ?|? -> ?]; reflexivity. Qed.
Lemma sent_comm e p p1 ok o : cpi p -> cmd_sent e (set_phy_state PSend p) p1 ok o -> comm p1 = comm p.
Proof.
  intros I CS. assert (CB : cbinv (set_phy_state PSend p)) by (apply cbinv_phy; apply I).
  exact (f_equal (fun x => comm x) (sx_core _ _ _ _ _ (cmd_sent_fx e _ _ _ _ CB CS))).
Qed.

Lemma upd_comm e p q rc o : cpi p -> env_typed e -> state_update e p = Ok (q, rc, o) -> comm_src e p q.
Proof.
  intros I ET U. pose proof (cpi_case e p q rc o I ET U) as C.
  assert (EQ : forall p1, comm_src e p p1 -> comm q = comm p1 -> comm_src e p q) by (intros p1 X Y; unfold comm_src in *; rewrite Y; exact X).
  destruct C as [P1 T1 E | p1 c o P1 G C0 E | p1 c o1 o P1 G C0 F | p1 o SE CS E | p1 o1 o SE CS E | P1 R1 T1 | p1 P1 R1 T1 L E | p1 o P1 R1 T1 L E
       | p1 o P1 R1 E | p1 r o1 o P1 R1 K E | p1 r o1 o P1 R1 K E ].
  - left. congruence.
  - left. rewrite E. exact (pick_comm _ _ _ _ _ (get_cmd_picked _ _ _ _ _ G)).
  - left. apply finish_comm in F. rewrite F. exact (pick_comm _ _ _ _ _ (get_cmd_picked _ _ _ _ _ G)).
  - left. rewrite E. exact (sent_comm e p p1 _ _ I CS).
  - left. apply ended_comm in E. rewrite E. exact (sent_comm e p p1 _ _ I CS).
  - eapply reply_comm; eauto.
  - apply (EQ p1); [eapply reply_comm; eauto|rewrite E; reflexivity].
  - apply (EQ p1); [eapply reply_comm; eauto|apply ended_comm in E; rewrite E; reflexivity].
  - apply (EQ p1); [eapply reply_comm; eauto|rewrite E; reflexivity].
  - apply (EQ p1); [eapply reply_comm; eauto|apply ended_comm in E; rewrite E; unfold stamped; destruct r; cbv zeta; destruct (sc_active _); reflexivity].
  - apply (EQ p1); [eapply reply_comm; eauto|apply ended_comm in E; rewrite E; reflexivity].
Qed.

Lemma other_comm c p q o : is_update c = false -> cp_do c p = Ok (q, o) -> comm q = comm p.
Proof.
  destruct c as [e|e c| |enf inst ign other ds| |]; simpl; intros U H; try discriminate.
  - destruct (cp_send_command e p c) as [[p1 ok] o1] eqn:S. simpl in H. injection H as <- <-.
    destruct (send_fx e p c p1 ok o1 S) as [(cq & f & -> & _) N]. reflexivity.
  - injection H as <- <-. reflexivity.
  - injection H as <- <-. unfold cp_modify_flag. destruct other; [reflexivity|]. destruct enf, inst, ign; reflexivity.
  - injection H as <- <-. reflexivity.
  - injection H as <- <-. reflexivity.
Qed.

Lemma call_comm k n i h p c q o : cp_runs k n i h p -> cp_call_typed c -> cp_do c p = Ok (q, o) -> comm q <> comm p ->
  exists e l, c = Update e /\ heard_reply e p l /\ com_reply l (comm q).
Proof.
  intros R CT D NE. destruct (is_update c) eqn:UC.
  - destruct c; try discriminate. destruct (cp_do_update _ _ _ _ D) as (rc & U).
    destruct (upd_comm e p q rc o (cp_runs_inv _ _ _ _ _ R) CT U) as [X|(l & X)]; [destruct (NE X)|]. exists e, l. split; auto.
  - destruct (NE (other_comm c p q o UC D)).
Qed.
