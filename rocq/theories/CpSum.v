(** CP: one refresh of a PD entry in summary - what stays, how an exchange ends, where the state goes. *)
From Verif Require Import Base ListLemmas Crc SpecCrc CrcProofs CrcBurst Aes AesProofs Rb RbProofs
  Types Sc ScProofs Phy PhyCheck File Pd Cp SpecRx SpecFrame SpecSec RxProofs PdRx PdCore PhyTx PdTx PdReply
  PdStep PdRun PdWire PdFwd PdSec PdHist2 CpCtx SpecPd SpecCp CpTx CpRx CpStep CpInv CpEdge CpFacts.
From Coq Require Import ZifyBool ZifyNat.
Ltac Zify.zify_post_hook ::= Z.div_mod_to_equations.
Local Opaque aes_ecb_encrypt aes_cbc_encrypt aes_cbc_decrypt mac_of RB_SIZE osdp_mac enc1 cap_entries.

(* the reply is one the state waits for *)
Definition online_fits (p : pd) : bool :=
  let r := reply_id p in
  if r =? 64 then true else if (r =? 65) || (r =? 0) then false
  else if cmd_id p =? 96 then poll_reply r || ign_unsol (fl p) else expected_reply (cmd_id p) r.
Definition reply_fits (p : pd) : bool :=
  match state p with
  | SInit => reply_id p =? 69 | SCapdet => reply_id p =? 70 | SChlng => reply_id p =? 118 | SScrypt => reply_id p =? 120
  | SSetScbk => reply_id p =? 64 | SOnline => online_fits p | SOffline => false end.
Definition keyset_acked (p : pd) : Prop := state p = SOnline /\ cmd_id p = 117 /\ reply_id p = 64.

(* a new key is taken over *)
Inductive key_taken (p p2 : pd) : Prop :=
| KT_default : use_scbkd (fl p) = true -> p2 = set_rq_restart true (set_sc_active false (set_use_scbkd false p)) -> key_taken p p2
| KT_key ty n k d : use_scbkd (fl p) = false -> eph p = EphCmd (CKeyset ty n k) -> take_arr k 16 = Ok d ->
    p2 = set_rq_restart true (set_sc_active false (set_scbk d p)) -> key_taken p p2.

Inductive checked (p1 p3 : pd) : bool -> Prop :=
| CK_plain : ~ keyset_acked p1 -> p3 = state_reset false p1 -> checked p1 p3 (reply_fits p1)
| CK_key p2 : keyset_acked p1 -> key_taken p1 p2 -> p3 = state_reset false p2 -> checked p1 p3 true.

Lemma check_checked e p1 p2 st o : state_check_reply e p1 = Ok (p2, st, o) -> checked p1 (state_reset false p2) st /\
  (~ keyset_acked p1 -> o = []).
Proof.
  intros H. unfold state_check_reply in H. cbv zeta in H.
  assert (G : forall b, Ok (p1, b, []) = Ok (p2, st, o) -> b = reply_fits p1 -> ~ keyset_acked p1 -> checked p1 (state_reset false p2) st /\ (~ keyset_acked p1 -> o = [])).
  { intros b X -> K. injection X as <- <- <-. split; auto. constructor; auto. }
  unfold keyset_acked in *. unfold reply_fits, online_fits in G. cbv zeta in G.
  destruct (state p1) eqn:S; try (apply (G _ H); [reflexivity|intros (X & _); discriminate]).
  unfold check_online_response in H. cbv zeta in H.
  destruct (reply_id p1 =? REPLY_ACK) eqn:RA.
  - change REPLY_ACK with 64 in RA. rewrite RA in G. destruct (cmd_id p1 =? CMD_KEYSET) eqn:CK.
    + clear G. destruct (keyset_complete e p1) as [[p0 o2]| |] eqn:K; cbn [bind] in H; try discriminate. simpl in H. injection H as <- <- <-.
      apply Z.eqb_eq in RA, CK. change CMD_KEYSET with 117 in CK.
      split; [|intros X; exfalso; apply X; auto]. apply CK_key with (p2 := p0); auto; [repeat split; auto|].
      unfold keyset_complete in K. destruct (use_scbkd (fl p1)) eqn:U; simpl negb in K; cbv iota in K.
      * cbn [bind] in K. cbv zeta in K. change (state (sc_deactivate (set_use_scbkd false p1))) with (state p1) in K. rewrite S in K.
        injection K as <- _. apply KT_default; auto.
      * destruct (eph p1) eqn:EP; try discriminate. destruct c; try discriminate.
        destruct (take_arr data 16) as [d| |] eqn:TA; cbn [bind] in K; try discriminate. cbv zeta in K.
        change (state (sc_deactivate (set_scbk d p1))) with (state p1) in K. rewrite S in K. injection K as <- _.
        eapply KT_key; eauto.
    + apply (G _ H); auto. intros (_ & X & _). apply Z.eqb_neq in CK. contradiction.
  - change REPLY_ACK with 64 in RA. rewrite RA in G.
    assert (NK : ~ (SOnline = SOnline /\ cmd_id p1 = 117 /\ reply_id p1 = 64)) by (intros (_ & _ & X); apply Z.eqb_neq in RA; contradiction).
    change REPLY_NAK with 65 in H. change REPLY_INVALID with 0 in H. change CMD_POLL with 96 in H.
    destruct ((reply_id p1 =? 65) || (reply_id p1 =? 0)); [apply (G _ H); auto|].
    destruct (cmd_id p1 =? 96); apply (G _ H); auto.
Qed.

(** What the entry is when an exchange is over, compared with the start of the refresh. *)
Record pre_fx (p p1 : pd) : Prop := {
  px_b : cbinv p1;
  px_idx : idx p1 = idx p;
  px_state : state p1 = state p;
  px_retry : retry p1 = retry p;
  px_wait : wait_ms p1 = wait_ms p;
  px_enf : enforce (fl p1) = enforce (fl p);
  px_inst : install (fl p1) = install (fl p);
  px_has : has_scbk (fl p1) = has_scbk (fl p);
  px_dis : sc_disabled (fl p1) = sc_disabled (fl p);
  px_rq : rq_restart p1 = false;
  px_scbkd : use_scbkd (fl p1) = true -> use_scbkd (fl p) = true \/ install (fl p) = true;
  px_scbkd1 : use_scbkd (fl p) = true -> use_scbkd (fl p1) = true;
  px_act : sc_active (fl p1) = true -> sc_active (fl p) = true;
  px_scbk : scbk (sc p1) = scbk (sc p);
  px_rnd : cp_random (sc p1) = cp_random (sc p);
  px_key : kcore (sc p1) = kcore (sc p) \/ (sc_active (fl p) = false /\ cmd_id p = 118);
  px_chan : chan_id p1 = chan_id p;
  px_shared : chn_shared (fl p1) = chn_shared (fl p)
}.

Inductive reason (e : env) (p p1 : pd) : bool -> Prop :=
| R_idle : phy_state p = PIdle -> state p = SOnline \/ state p = SOffline -> tstamp p1 = tstamp p -> kcore (sc p1) = kcore (sc p) ->
    fl p1 = fl p -> rq_offline p1 = rq_offline p -> seqn p1 = seqn p -> reason e p p1 true
| R_unsent o : sending e p -> cmd_sent e (set_phy_state PSend p) p1 false o -> reason e p p1 false
| R_dead : phy_state p = PReplyWait -> reply_case e p p1 CNoData [] -> RESP_TOUT < e_now e - phy_tstamp p -> retry p = 8 ->
    reason e p p1 false
| R_bad r o : phy_state p = PReplyWait -> reply_case e p p1 r o -> r = CGeneric \/ r = CUnknown -> reason e p p1 false
| R_good r o p0 : phy_state p = PReplyWait -> reply_case e p p0 r o -> p1 = stamped e r p0 ->
    r = CNone \/ r = CUnknown /\ cmd_id p = 96 /\ ign_unsol (fl p) = true -> reason e p p1 true.

(* the refresh goes on with the exchange, or starts one *)
Record held (e : env) (p q : pd) : Prop := {
  hd_state : state q = state p;
  hd_run : phy_running q = true;
  hd_enf : enforce (fl q) = enforce (fl p);
  hd_inst : install (fl q) = install (fl p);
  hd_has : has_scbk (fl q) = has_scbk (fl p);
  hd_dis : sc_disabled (fl q) = sc_disabled (fl p);
  hd_scbkd : use_scbkd (fl q) = true -> use_scbkd (fl p) = true \/ install (fl p) = true;
  hd_scbkd1 : use_scbkd (fl p) = true -> use_scbkd (fl q) = true;
  hd_act : sc_active (fl q) = sc_active (fl p);
  hd_key : kcore (sc q) = kcore (sc p);
  hd_idx : idx q = idx p;
  hd_chan : chan_id q = chan_id p;
  hd_shared : chn_shared (fl q) = chn_shared (fl p)
}.

Inductive upd_sum (e : env) (p q : pd) : Prop :=
| US_held : held e p q -> upd_sum e p q
| US_idle p1 : reason e p p1 true -> pre_fx p p1 -> phy_state p = PIdle -> fin_pre p1 -> fin_rel e p1 q true -> upd_sum e p q
| US_end p1 p3 ok st : reason e p p1 ok -> phy_running p = true -> pre_fx p p1 -> checked p1 p3 st -> fin_pre p3 -> fin_rel e p3 q (ok && st) -> upd_sum e p q.

(* reply codes other than the challenge answer leave the session alone *)
Lemma reply_key e p q r o : cbinv p -> 0 <= seqn p -> reply_case e p q r o ->
  kcore (sc q) = kcore (sc p) \/ (sc_active (fl p) = false /\ cmd_id p = 118 /\ (r = CNone \/ r = CGeneric)).
Proof.
  intros I SQ H. destruct H as [k N K S|k N K C|p1 r o G S F].
  - left. destruct N as (R & _). assert (X : sc q = sc p) by exact (f_equal (fun x => sc x) R). congruence.
  - left. destruct N as (R & _). assert (X : sc q = sc p) by exact (f_equal (fun x => sc x) R). congruence.
  - pose proof G as (R & W & _ & _ & PL & _).
    assert (X : sc p1 = sc p) by exact (f_equal (fun x => sc x) R).
    assert (XA : sc_active (fl p1) = sc_active (fl p)) by exact (f_equal (fun x => sc_active (fl x)) R).
    assert (XC : cmd_id p1 = cmd_id p) by exact (f_equal (fun x => cmd_id x) R).
    assert (I1 : cbinv p1) by (eapply cbinv_rx; eauto; apply W).
    rewrite <- X, <- XA, <- XC. clear X XA XC.
    destruct F as [B ->|A B C ->|A B C D ->|k A B C D H|p2 l r o A B C D H1 H2]; auto.
    + left. destruct (cp_decode_packet _ _ _ I1 ltac:(destruct (got_full _ _ _ G) as ((x & y & _) & _); lia) H) as (_ & DC & _).
      exact (f_equal (fun x => kcore (sc x)) DC).
    + destruct (cp_decode_packet _ _ _ I1 ltac:(destruct (got_full _ _ _ G) as ((x & y & _) & _); lia) H1) as (_ & DC & _ & _ & _ & BL & NE & L & RI & EP & SA).
      assert (L1 : 1 <= zlen l) by (destruct l; [congruence|]; rewrite zlen_cons; pose proof (zlen_nonneg l); lia).
      assert (K : kcore (sc p2) = kcore (sc p1)) by exact (f_equal (fun x => kcore (sc x)) DC).
      assert (XC : cmd_id p2 = cmd_id p1) by exact (f_equal (fun x => cmd_id x) DC).
      destruct (rr_sc _ _ _ _ _ _ (decode_response_rel _ _ _ _ _ _ H2 L1)) as [Y|[(Y1 & Y2 & Y3 & Y4 & Y5 & Y6)|(Y1 & Y2 & Y3 & Y4 & Y5 & Y6)]].
      * left. congruence.
      * right. split; [congruence|]. split; [congruence|]. tauto.
      * left. rewrite Y6. rewrite <- K. reflexivity.
Qed.

Lemma checked_phy x p1 p3 st : checked (set_phy_state x p1) p3 st -> checked p1 p3 st.
Proof.
  intros H. destruct H as [N ->|p2 K T ->].
  - change (reply_fits (set_phy_state x p1)) with (reply_fits p1). apply CK_plain; auto.
  - destruct T as [U ->|ty n k d U E T ->].
    + apply (CK_key p1 _ (set_rq_restart true (set_sc_active false (set_use_scbkd false p1)))); auto. apply KT_default; auto.
    + apply (CK_key p1 _ (set_rq_restart true (set_sc_active false (set_scbk d p1)))); auto. eapply KT_key; eauto.
Qed.

Lemma reply_pre e p p1 r o : cpi p -> phy_state p = PReplyWait -> reply_case e p p1 r o -> pre_fx p p1.
Proof.
  intros C P RC. destruct (ci_rx _ C P) as (W & Y & Q). pose proof (ci_b _ C) as I.
  pose proof (reply_key _ _ _ _ _ I Q RC) as K.
  apply reply_case_fx in RC; auto. destruct RC as [c1 c2 c3 c4 c5 c6 c7 c8 c9 c10].
  pose proof (wcore_fields _ _ c1) as (v1 & v2 & v3 & v4 & v5 & v6 & v7 & v8 & v9 & v10 & v11 & v12 & v13 & v14 & v15 & v16 & v17 & v18 & v19 & v20 & v21 & v22 & v23 & v24).
  constructor; auto.
  - rewrite v8. apply C.
  - tauto.
Qed.

Lemma sent_pre e p p1 ok o : cpi p -> sending e p -> fread_typed e -> cmd_sent e (set_phy_state PSend p) p1 ok o -> pre_fx p p1 /\ kcore (sc p1) = kcore (sc p).
Proof.
  intros C SD FT CS. assert (I1 : cbinv (set_phy_state PSend p)) by (apply cbinv_phy; apply C).
  apply cmd_sent_fx in CS; auto. destruct CS as [s1 s2 s3 s4 s5].
  pose proof (tcore_fields _ _ s1) as (t1 & t2 & t3 & t4 & t5 & t6 & t7 & t8 & t9 & t10 & t11 & t12 & t13 & t14 & t15 & t16 & t17 & t18 & t19 & t20 & t21 & t22 & t23 & t24 & t25 & t26 & t27 & t28).
  assert (K : kcore (sc p1) = kcore (sc p)).
  { assert (X : cset_c_mac [] (cset_cp_crypt [] (sc p1)) = cset_c_mac [] (cset_cp_crypt [] (sc p))) by exact (f_equal (fun x => sc x) s1).
    unfold kcore. rewrite X. reflexivity. }
  split; auto. destruct (kcore_fields _ _ K) as (k1 & _ & _ & _ & k5 & _).
  constructor; auto.
  - exact (f_equal (fun x => has_scbk (fl x)) s1).
  - rewrite t9. apply C.
  - intros X. left. rewrite <- X. symmetry. exact t20.
  - intros X. rewrite <- X. exact t20.
  - intros X. rewrite <- X. symmetry. exact t21.
  - exact (f_equal (fun x => chn_shared (fl x)) s1).
Qed.

Lemma pre_stamped e r p p1 : pre_fx p p1 -> pre_fx p (stamped e r p1).
Proof.
  intros P. destruct (stamped_fx e r p1) as (a & b & ->). destruct P. constructor; auto. cbgi px_b0.
Qed.

Lemma reply_phy e p p1 r o : cpi p -> phy_state p = PReplyWait -> reply_case e p p1 r o -> phy_tstamp p1 = phy_tstamp p /\ retry p1 = retry p /\
   cmd_id p1 = cmd_id p /\ ign_unsol (fl p1) = ign_unsol (fl p).
Proof.
  intros C P RC. destruct (ci_rx _ C P) as (W & Y & Q). pose proof (ci_b _ C) as I.
  apply reply_case_fx in RC; auto. destruct RC as [c1 c2 c3 c4 c5 c6 c7 c8 c9 c10].
  pose proof (wcore_fields _ _ c1) as (v1 & v2 & v3 & v4 & v5 & v6 & v7 & v8 & v9 & v10 & v11 & v12 & v13 & v14 & v15 & v16 & v17 & v18 & v19 & v20 & _). auto.
Qed.

Lemma checked_state p1 p3 st : checked p1 p3 st -> state p3 = state p1.
Proof. intros [N ->|p2 K T ->]; [reflexivity|]. destruct T as [U ->|ty n k d U E T ->]; reflexivity. Qed.

(* the exchange ends: from the raw description *)
Lemma ended_sum e p p1 ok o1 q o x : ended e (state p) ok (set_phy_state x p1) o1 q o -> pre_fx p p1 -> 0 <= retry p <= 8 ->
  (sc_active (fl p) = true -> state p = SOnline \/ state p = SSetScbk) -> (state p = SSetScbk -> use_scbkd (fl p) = true) ->
  exists p3 st, checked p1 p3 st /\ fin_pre p3 /\ fin_rel e p3 q (ok && st).
Proof.
  intros (p2 & st & o2 & C & F) P R A S.
  pose proof C as C0. apply check_checked in C0 as (CK & _). apply checked_phy in CK.
  assert (I1 : cbinv (set_phy_state x p1)) by (apply cbinv_phy; apply P).
  assert (RQ1 : rq_restart (set_phy_state x p1) = false) by exact (px_rq _ _ P).
  apply check_reply_fx in C as (c1 & c2 & c3 & c4 & c5 & c6 & c7 & c8); auto.
  exists (state_reset false p2), st. split; auto.
  simpl in c4. assert (S2 : state p2 = state p) by (rewrite c4; apply P).
  assert (FP : fin_pre (state_reset false p2)).
  { constructor.
    - apply cbinv_reset; auto.
    - reflexivity.
    - change (0 <= retry p2 <= 8). rewrite c3. simpl. rewrite (px_retry _ _ P). auto.
    - intros X. change (state p2 = SOnline \/ state p2 = SSetScbk). rewrite S2. apply A. apply (px_act _ _ P). apply c6. exact X.
    - intros X. change (state p2 = SOnline /\ sc_active (fl p2) = false). rewrite S2.
      destruct (c7 X) as (X1 & X2 & _). split; auto. rewrite <- (px_state _ _ P). exact X1. }
  split; auto.
  rewrite <- S2 in F. change (state p2) with (state (state_reset false p2)) in F.
  eapply finish_rel; eauto. change (state (state_reset false p2)) with (state p2). change (use_scbkd (fl (state_reset false p2))) with (use_scbkd (fl p2)).
  rewrite S2. intros X. destruct c8 as [->|c8]; [apply (px_scbkd1 _ _ P); auto|]. destruct (c7 c8) as (Y & _). simpl in Y. rewrite (px_state _ _ P) in Y. congruence.
Qed.

(** * Choice of the next command *)
(* the wire code of an application command *)
Definition wire_code (act : bool) (k : cmd) (c : Z) : Prop :=
  match k with
  | COutput _ _ _ => c = 104 | CLed _ _ _ _ => c = 105 | CBuzzer _ _ _ _ _ => c = 106 | CText _ _ _ _ _ _ _ => c = 107
  | CComset _ _ => c = 110 | CKeyset ty _ _ => c = (if (ty =? 1) && act then 117 else -1) | CMfg _ _ _ _ => c = 128
  | CStatus ty _ _ => c = (if ty =? 0 then 101 else if ty =? 1 then 102 else if ty =? 2 then 100 else if ty =? 3 then 103 else -1)
  | _ => False
  end.

Inductive picked (e : env) (p p1 : pd) (c : Z) (o : list out) : Prop :=
| PK_queue k cq : state p = SOnline -> cmdq p = k :: cq -> p1 = set_eph (EphCmd k) (set_cmdq cq p) -> wire_code (sc_active (fl p)) k c -> o = [] -> picked e p p1 c o
| PK_file f : state p = SOnline -> cmdq p = [] -> p1 = set_file f p -> c = 162 \/ c = 96 \/ c = 124 \/ c = -1 -> picked e p p1 c o
| PK_poll f : state p = SOnline -> cmdq p = [] -> p1 = set_tstamp (e_now e) (set_file f p) -> c = 96 -> 50 < e_now e - tstamp p -> picked e p p1 c o
| PK_none f : state p = SOnline -> cmdq p = [] -> p1 = set_file f p -> c = -1 -> e_now e - tstamp p <= 50 -> picked e p p1 c o
| PK_state : match state p with SInit => c = 97 | SCapdet => c = 98 | SChlng => c = 118 | SScrypt => c = 119 | SSetScbk => c = 117
     | SOnline => False | SOffline => c = -1 end -> p1 = p -> o = [] -> picked e p p1 c o.

Lemma file_tx_keep e p q c o : file_tx_get_command e p = (q, c, o) -> (exists f, q = set_file f p) /\
  (c = 0 \/ c = -1 \/ c = 162 \/ c = 96 \/ c = 124).
Proof.
  intros H. assert (E0 : exists f, p = set_file f p) by (exists (file p); destruct p; reflexivity).
  unfold file_tx_get_command in H. destruct (file p) as [f|] eqn:FP; [|inv H; auto].
  assert (G : forall b : bool, (if b then let (p1, o) := file_tx_abort p in (p1, 162, o)
                 else if negb (f_wait f =? 0) && (e_now e - f_tstamp f <? f_wait f) then (p, if Z.testbit (f_flags f) FB_EXCLUSIVE then -1 else 0, [])
                 else if Z.testbit (f_flags f) FB_POLL then (p, 96, []) else (p, 124, [])) = (q, c, o) ->
           (exists f, q = set_file f p) /\ (c = 0 \/ c = -1 \/ c = 162 \/ c = 96 \/ c = 124)).
  { intros [|] X.
    - unfold file_tx_abort in X. rewrite FP in X. destruct (in_progress f); inv X; (split; [eauto|auto 6]).
    - destruct (negb (f_wait f =? 0) && _); [|destruct (Z.testbit _ _)]; inv X; (split; [eauto|]); auto 6.
      match goal with |- (if ?b then _ else _) = _ \/ _ => destruct b end; auto. }
  destruct (f_state f); try (eapply G; eauto; fail); inv H; auto.
Qed.

Lemma get_cmd_picked e p p1 c o : state_get_cmd e p = Ok (p1, c, o) -> picked e p p1 c o.
Proof.
  intros H. unfold state_get_cmd in H. destruct (state p) eqn:S; try (injection H as <- <- <-; apply PK_state; rewrite ?S; auto; fail).
  unfold get_online_command in H. destruct (cmdq p) as [|k cq] eqn:CQ.
  - destruct (file_tx_get_command e p) as [[p2 c2] o2] eqn:FT. apply file_tx_keep in FT as ((f & ->) & C2).
    destruct (c2 =? 0) eqn:Z; cbn [negb] in H.
    + unfold POLL_TIMEOUT, CMD_POLL in H. change (tstamp (set_file f p)) with (tstamp p) in H.
      destruct (e_now e - tstamp p >? 50) eqn:T; injection H as <- <- <-.
      * eapply PK_poll; eauto. lia.
      * eapply PK_none; eauto. lia.
    + injection H as <- <- <-. eapply PK_file; eauto. lia.
  - unfold translate_cmd in H. cbv zeta in H.
    assert (T : forall m, Ok (fst (set_eph (EphCmd k) (set_cmdq cq p), m), snd (set_eph (EphCmd k) (set_cmdq cq p), m), []) = Ok (p1, c, o) ->
         wire_code (sc_active (fl p)) k m -> picked e p p1 c o).
    { intros m X M. simpl in X. injection X as <- <- <-. eapply PK_queue; eauto. }
    destruct k; cbn [bind] in H; try discriminate; eapply T; try exact H; simpl; try reflexivity.
    destruct (ktype =? 1), (sc_active (fl p)); reflexivity.
Qed.

Lemma upd_summary e p q rc o : cpi p -> env_typed e -> state_update e p = Ok (q, rc, o) -> upd_sum e p q.
Proof.
  intros C T H. pose proof (cpi_case _ _ _ _ _ C T H) as U. destruct T as (T1 & T2 & T3). clear H.
  pose proof (ci_b _ C) as I. pose proof (ci_retry _ C) as RT. pose proof (ci_act _ C) as AC.
  assert (SS : state p = SSetScbk -> use_scbkd (fl p) = true) by (intros X; apply (ci_set _ C X)).
  assert (HR : forall p1, phy_state p = PReplyWait -> reply_case e p p1 CNoData [] \/ (exists o, reply_case e p p1 CRetry o) ->
     forall q, phy_running q = true -> (exists a b c d f, q = set_phy_tstamp a (set_retry b (set_phy_state c (set_wait_ms d (set_tstamp f p1))))) -> held e p q).
  { intros p1 P R q1 RN (a & b & c & d & f & ->). destruct (ci_rx _ C P) as (W & Y & Q).
    assert (X : exists r o, reply_case e p p1 r o /\ r <> CGeneric /\ r <> CNone).
    { destruct R as [R|(o0 & R)]; eexists; eexists; (split; [exact R|]); split; discriminate. }
    destruct X as (r & o0 & R0 & N1 & N2).
    pose proof (reply_pre _ _ _ _ _ C P R0) as F. pose proof (reply_key _ _ _ _ _ I Q R0) as K. apply reply_case_fx in R0; auto. destruct F.
    constructor; auto; simpl.
    - apply R0. auto.
    - destruct K as [K|(_ & _ & [K|K])]; congruence. }
  destruct U as [P L ->|p1 c o P G K ->|p1 c o1 o P G K F|p1 o SD CS ->|p1 o1 o SD CS E|P RC L|p1 P RC L RT1 ->
                |p1 o P RC L RT1 E|p1 o P RC ->|p1 r o1 o P RC K E|p1 r o1 o P RC K E].
  - apply US_held. constructor; auto. unfold phy_running. rewrite P. auto.
  - apply US_held. destruct (get_cmd_fx _ _ _ _ _ G I) as [g1 g2 g3 g4 g5 g6 g7 g8 g9 g10].
    apply get_cmd_picked in G.
    constructor; simpl; rewrite ?g6, ?g9; auto; destruct G; subst; auto.
  - destruct (get_cmd_fx _ _ _ _ _ G I) as [g1 g2 g3 g4 g5 g6 g7 g8 g9 g10].
    apply get_cmd_picked in G.
    assert (I1 : cbinv (set_cmd_id c p1)) by (cbgi g1).
    assert (FP : fin_pre (set_cmd_id c p1)).
    { constructor; auto; simpl; rewrite ?g2, ?g3, ?g4, ?g5, ?g6; auto; try apply C. rewrite (ci_rq _ C). discriminate. }
    rewrite <- g4 in F. change (state p1) with (state (set_cmd_id c p1)) in F. 
    apply finish_rel in F; [|auto|intros X; change (state (set_cmd_id c p1)) with (state p1) in X; change (use_scbkd (fl (set_cmd_id c p1))) with (use_scbkd (fl p1)); rewrite g6; apply SS; congruence].
    apply (US_idle e p q (set_cmd_id c p1)); auto.
    + apply R_idle; simpl; rewrite ?g6, ?g9; auto.
      * destruct G as [k cq S _ _ _ _|f S _ _ _|f S _ _ _ _|f S _ _ _ _|S _ _]; auto. destruct (state p); auto; lia.
      * destruct G; subst; auto. lia.
      * destruct G; subst; auto.
    + constructor; simpl; rewrite ?g6, ?g9; auto; try (rewrite g5; apply C); destruct G; subst; auto.
  - apply US_held. destruct (sent_pre _ _ _ _ _ C SD T3 CS) as (F & KC).
    assert (I1 : cbinv (set_phy_state PSend p)) by (apply cbinv_phy; apply C).
    apply cmd_sent_fx in CS; auto. pose proof (sx_core _ _ _ _ _ CS) as s1.
    assert (A1 : sc_active (fl p1) = sc_active (fl p)) by exact (f_equal (fun x => sc_active (fl x)) s1).
    destruct F. constructor; auto.
  - destruct (sent_pre _ _ _ _ _ C SD T3 CS) as (F & KC).
    destruct (ended_sum _ _ _ _ _ _ _ _ E F RT AC SS) as (p3 & st & CK & FP & FR).
    apply (US_end e p q p1 p3 false st); auto; [econstructor; eauto|apply sending_phy in SD; auto].
  - apply US_held. apply (HR q); auto. { destruct (ci_rx _ C P) as (W & Y & Q). apply reply_case_fx in RC; auto.
      unfold phy_running. destruct (wcore_fields _ _ (rx_core _ _ _ _ _ RC)) as (v1 & v2 & v3 & _). rewrite v3, P. auto. }
    exists (phy_tstamp q), (retry q), (phy_state q), (wait_ms q), (tstamp q). destruct q; reflexivity.
  - apply US_held. apply (HR p1); auto. exists (e_now e), (retry p1 + 1), PWait, CMD_RETRY_WAIT, (tstamp p1). destruct p1; reflexivity.
  - pose proof (reply_pre _ _ _ _ _ C P RC) as F. destruct (reply_phy _ _ _ _ _ C P RC) as (y1 & y2 & _).
    destruct (ended_sum _ _ _ _ _ _ _ _ E F RT AC SS) as (p3 & st & CK & FP & FR).
    apply (US_end e p q p1 p3 false st); auto; [|unfold phy_running; rewrite P; auto]. apply R_dead; auto; lia.
  - apply US_held. apply (HR p1); auto; [eauto|]. exists (e_now e), (retry p1), PWait, CMD_RETRY_WAIT, (tstamp p1). destruct p1; reflexivity.
  - pose proof (reply_pre _ _ _ _ _ C P RC) as F. destruct (reply_phy _ _ _ _ _ C P RC) as (y1 & y2 & y3 & y4).
    destruct (ended_sum _ _ _ _ _ _ _ _ E (pre_stamped e r _ _ F) RT AC SS) as (p3 & st & CK & FP & FR).
    apply (US_end e p q (stamped e r p1) p3 true st); auto; [|unfold phy_running; rewrite P; auto|apply pre_stamped; auto].
    eapply R_good; eauto. rewrite <- y3, <- y4. auto.
  - pose proof (reply_pre _ _ _ _ _ C P RC) as F.
    destruct (ended_sum _ _ _ _ _ _ _ _ E F RT AC SS) as (p3 & st & CK & FP & FR).
    apply (US_end e p q p1 p3 false st); auto; [|unfold phy_running; rewrite P; auto]. eapply R_bad; eauto. tauto.
Qed.
