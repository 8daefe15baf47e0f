(** PD: commands that the decoder refuses. *)
From Verif Require Import Base ListLemmas Crc SpecCrc CrcProofs CrcBurst Aes AesProofs Rb RbProofs
  Types Sc ScProofs Phy PhyCheck File Pd SpecRx SpecFrame SpecSec SpecCmd MacProofs RxProofs RxFwd PdRx PdCore PhyTx PdTx PdReply
  PdStep PdWire PdFwd SpecPd PdRun PdSpeak PdPlain PdSec.
From Coq Require Import ZifyBool ZifyNat.
Ltac Zify.zify_post_hook ::= Z.div_mod_to_equations.
Local Opaque aes_ecb_encrypt aes_cbc_encrypt aes_cbc_decrypt mac_of RB_SIZE osdp_mac enc1.

(* the session is open and not timed out *)
Definition session_open (e : env) (p : pd) : bool := sc_active (fl p) && (e_now e - sc_tstamp p <=? 8000).

Lemma session_open_eq e p : sc_active (fl (sc_timeout e p)) = session_open e p.
Proof.
  unfold sc_timeout, session_open, PD_SC_TIMEOUT. destruct (sc_active (fl p)) eqn:A; simpl.
  - destruct (e_now e - sc_tstamp p >? 8000) eqn:B; simpl; [lia|]. rewrite A. lia.
  - auto.
Qed.

Lemma cmd_parts c d : getb (c :: d) 0 = c /\ from (c :: d) 1 = d.
Proof. split; reflexivity. Qed.

Ltac inlist H := simpl in H; repeat match type of H with _ \/ _ => destruct H as [H|H] end; try contradiction.

Lemma plain_allowed_eq c : plain_allowed c = true <-> In c public_codes.
Proof. unfold plain_allowed, CMD_ID, CMD_CAP, CMD_CHLNG, CMD_SCRYPT, public_codes. simpl. lia. Qed.

Lemma name_null_eq c : cmd_name_null c = true <-> unnamed c.
Proof. unfold cmd_name_null, unnamed. lia. Qed.

Lemma switch_length e p c d : bytes d -> length_wrong c d -> decode_switch e p c d = Some (Ok (p, RGeneric, [])).
Proof.
  intros Bd H. unfold length_wrong in H.
  assert (Z0 : forall k, zlen d <> k -> negb (zlen d =? k) = true) by (intros; apply negb_true_iff; lia).
  repeat match type of H with _ \/ _ => destruct H as [H|H] end.
  - destruct H as [H N]. apply Z0 in N. inlist H; subst c; unfold decode_switch; simpl; rewrite N; reflexivity.
  - destruct H as [H N]. apply Z0 in N. inlist H; subst c; unfold decode_switch; simpl; rewrite N; reflexivity.
  - destruct H as [-> N]. unfold decode_switch; simpl. unfold do_multi. replace (zlen d mod 4 =? 0) with false by lia. reflexivity.
  - destruct H as [-> N]. unfold decode_switch; simpl. unfold do_multi. replace (zlen d mod 14 =? 0) with false by lia. reflexivity.
  - destruct H as [-> N]. unfold decode_switch; simpl. unfold do_multi. replace (zlen d mod 5 =? 0) with false by lia. reflexivity.
  - destruct H as [-> N]. unfold decode_switch; simpl. unfold do_text.
    destruct (zlen d <? 6) eqn:A; [reflexivity|]. cbn [orb]. destruct (has_cb p); [|reflexivity]. cbn [negb].
    unfold getb. change (Z.to_nat 5) with 5%nat.
    replace ((nth 5 d 0 >? 32) || (zlen d - 6 <? nth 5 d 0)) with true by lia. reflexivity.
  - destruct H as [-> N]. apply Z0 in N. unfold decode_switch; simpl. unfold do_comset. rewrite N. reflexivity.
  - destruct H as [-> N]. unfold decode_switch; simpl. unfold do_mfg.
    destruct (zlen d <? 4) eqn:A; [reflexivity|]. cbn [orb]. destruct (has_cb p); [|reflexivity]. cbn [negb].
    replace (zlen d - 4 >? 64) with true by lia. reflexivity.
  - destruct H as [H N]. assert (zlen d <? 2 = true) by lia. inlist H; subst c; unfold decode_switch; simpl; rewrite H0; reflexivity.
  - destruct H as [-> N]. apply Z0 in N. unfold decode_switch; simpl. unfold do_keyset. rewrite N. reflexivity.
  - destruct H as [-> N]. apply Z0 in N. unfold decode_switch; simpl. unfold do_chlng. rewrite N. reflexivity.
  - destruct H as [-> N]. apply Z0 in N. unfold decode_switch; simpl. unfold do_scrypt. rewrite N. reflexivity.
Qed.

Lemma switch_unknown e p c d : ~ In c known_codes -> decode_switch e p c d = None.
Proof.
  intros H. unfold known_codes in H. simpl in H. unfold decode_switch.
  unfold CMD_POLL, CMD_LSTAT, CMD_ISTAT, CMD_OSTAT, CMD_RSTAT, CMD_ID, CMD_CAP, CMD_OUT, CMD_LED, CMD_BUZ, CMD_TEXT, CMD_COMSET,
    CMD_MFG, CMD_ACURXSIZE, CMD_KEEPACTIVE, CMD_ABORT, CMD_FILETRANSFER, CMD_KEYSET, CMD_CHLNG, CMD_SCRYPT.
  repeat match goal with |- context [c =? ?k] => replace (c =? k) with false by lia end. reflexivity.
Qed.

(* outside a session: does the device look at the command at all *)
Definition admitted (p : pd) (c : Z) : Prop := enforce (fl p) = false \/ In c public_codes.

Lemma admitted_test p c : admitted p c -> enforce (fl p) && negb (plain_allowed c) = false.
Proof. intros [->|H]; auto. apply plain_allowed_eq in H. rewrite H. apply andb_false_r. Qed.

Lemma decode_gate e ps c d : sc_active (fl ps) = false -> enforce (fl ps) && negb (plain_allowed c) = false ->
  decode_command e ps (c :: d) =
  match decode_switch e (set_cmd_id c (set_reply_id 0 ps)) c d with
  | None => Ok (nak 3 (set_cmd_id c (set_reply_id 0 ps)), RReply, [])
  | Some r => bind r (fun x => match x with (p2, RGeneric, o) => Ok (nak 2 p2, RReply, o) | y => Ok y end)
  end.
Proof.
  intros SA EN. unfold decode_command. destruct (cmd_parts c d) as [-> ->]. simpl fl.
  rewrite SA. replace (enforce (fl ps) && negb false && negb (plain_allowed c)) with false.
  2:{ symmetry. rewrite andb_true_r. exact EN. }
  reflexivity.
Qed.

Section Refused.
Context (e : env) (p : pd) (f rest : list Z) (c : Z) (d : list Z).
Hypothesis K : env_ok e.
Hypothesis I : pd_inv p.
Hypothesis N : next_frame e p f rest.
Hypothesis V : f_intact f.
Hypothesis M : f_mine (address p) f.
Hypothesis S : seq_ok (seqn p) (f_seq f).
Hypothesis SB : f_scb f = false.
Hypothesis SA : session_open e p = false \/ f_seq f = 0.
Hypothesis PY : f_payload f = c :: d.

Definition refused_with (k : Z) : Prop :=
  (forall q o, pd_refresh e p = Ok (q, o) -> only_tx o /\ app_view q = app_view p /\ pending q = rest) /\
  (69 <= tx_buf_size p -> 256 <= e_tx e ->
   exists q o, pd_refresh e p = Ok (q, o) /\ answers o (answer_addr p f) (f_seq f) [65; k]).

Lemma payload_bytes : bytes (c :: d).
Proof.
  rewrite <- session_open_eq in SA.
  destruct (plain_command e p f rest c d K I N V M S SB SA PY) as (ps & A & _ & _ & _ & _ & _ & _ & Bp & _). exact Bp.
Qed.

Lemma refused_length : admitted p c -> length_wrong c d -> refused_with 2.
Proof.
  intros A W. pose proof payload_bytes as Y. rewrite <- session_open_eq in SA.
  apply (plain_refused e p f rest c d 2); auto; [unfold byte; lia|].
  intros ps _ SAp _ EN. rewrite decode_gate; auto.
  - rewrite switch_length; auto. inv Y; auto.
  - rewrite EN. apply admitted_test; auto.
Qed.

Lemma refused_unknown : admitted p c -> ~ In c known_codes -> refused_with 3.
Proof.
  intros A W. rewrite <- session_open_eq in SA.
  apply (plain_refused e p f rest c d 3); auto; [unfold byte; lia|].
  intros ps _ SAp _ EN. rewrite decode_gate; auto.
  - rewrite switch_unknown; auto.
  - rewrite EN. apply admitted_test; auto.
Qed.

Lemma refused_enforce : enforce (fl p) = true -> ~ In c public_codes -> ~ unnamed c -> refused_with 6.
Proof.
  intros E A W. rewrite <- session_open_eq in SA.
  apply (plain_refused e p f rest c d 6); auto; [unfold byte; lia|].
  intros ps _ SAp _ EN. unfold decode_command. destruct (cmd_parts c d) as [-> ->]. simpl fl. rewrite SAp, EN, E.
  replace (plain_allowed c) with false. 2:{ symmetry. apply not_true_is_false. intros X. apply plain_allowed_eq in X. auto. }
  simpl. replace (cmd_name_null c) with false; auto.
  symmetry. apply not_true_is_false. intros X. apply name_null_eq in X. auto.
Qed.

Lemma refused_nosc : admitted p c -> c_comp (nth 9 (caps p) (mkCap 0 0 0)) = 0 ->
  (c = 118 /\ zlen d = 8) \/ (c = 119 /\ zlen d = 16) \/ (c = 117 /\ zlen d = 18 /\ nth 0 d 0 = 1 /\ nth 1 d 0 = 16) -> refused_with 5.
Proof.
  intros A W C. rewrite <- session_open_eq in SA.
  apply (plain_refused e p f rest c d 5); auto; [unfold byte; lia|].
  intros ps _ SAp AV EN.
  assert (CP : caps ps = caps p) by (unfold app_view in AV; congruence).
  assert (CS : cap_sc (set_cmd_id c (set_reply_id 0 ps)) = false).
  { unfold cap_sc, cap_at. change (caps (set_cmd_id c (set_reply_id 0 ps))) with (caps ps). rewrite CP.
    change (Z.to_nat CAP_COMMSEC) with 9%nat. rewrite W. reflexivity. }
  rewrite decode_gate; auto. 2:{ rewrite EN. apply admitted_test; auto. }
  destruct C as [[-> L]|[[-> L]|(-> & L & L1 & L2)]]; unfold decode_switch; simpl.
  - unfold do_chlng. rewrite L, CS. reflexivity.
  - unfold do_scrypt. rewrite L, CS. reflexivity.
  - unfold do_keyset. unfold getb. change (Z.to_nat 0) with 0%nat. change (Z.to_nat 1) with 1%nat. rewrite L, L1, L2. simpl.
    change (cap_sc (nak 6 ?x)) with (cap_sc x). rewrite CS. reflexivity.
Qed.
End Refused.

(* out of sequence *)
Lemma refused_sequence e p f rest : env_ok e -> pd_inv p -> next_frame e p f rest ->
  f_intact f -> f_mine (address p) f -> ~ seq_ok (seqn p) (f_seq f) ->
  (forall q o, pd_refresh e p = Ok (q, o) -> only_tx o /\ app_view q = app_view p /\ pending q = rest /\
     sc_active (fl q) = session_open e p) /\
  (session_open e p = false -> 69 <= tx_buf_size p -> 256 <= e_tx e ->
   exists q o, pd_refresh e p = Ok (q, o) /\ answers o (answer_addr p f) (seq_next (seqn p)) [65; 4]).
Proof.
  intros K I N V M S.
  destruct (frame_verdict e p f rest K I N) as (p1 & R & Ef & Rr & Sy & I1 & F1 & Bf & TS & _ & _ & X & _).
  specialize (X V M S).
  destruct (core_view _ _ R) as (R1 & R2 & R3 & R4 & R5 & R6 & R7 & R8 & R9).
  destruct (timeout_view e p) as (T1 & T2 & T3 & T4).
  destruct (seen_view f p1) as (V1 & V2 & V3 & V4 & V5).
  assert (A : answering p f (pd_seen f p1)) by (apply (answering_timeout e); apply answering_seen; auto).
  set (ps := pd_seen f p1) in *.
  assert (B4 : byte 4) by (unfold byte; lia).
  assert (S0 : f_seq f =? 0 = false) by (unfold seq_ok in S; lia).
  split.
  - intros q o H. rewrite X in H. pose proof (nak_reply e ps 4 q o K (proj1 (answering_nak p f ps 4 B4 A)) H) as (H1 & H2 & H3 & H4 & H5 & H6).
    split; auto. split. { rewrite H2. congruence. } split. { unfold pending. rewrite H6, H5, V5. exact Rr. }
    rewrite H3, V3, R3, session_open_eq, S0. apply andb_true_r.
  - intros H0 H1 H2. rewrite X.
    replace (seq_next (seqn p)) with (seq_after (seqn p) (f_seq f)).
    2:{ unfold seq_after. rewrite S0. unfold seq_ok in S. destruct (f_seq f =? seqn p) eqn:E; auto. lia. }
    apply nak_answer; auto; [apply I| |].
    + rewrite V3, R3, session_open_eq, H0. reflexivity.
    + rewrite V4, R4, T3. auto.
Qed.
