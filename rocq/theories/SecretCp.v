(** C64: a panel hands over a key only inside a session. *)
From Verif Require Import Base ListLemmas Crc SpecCrc Aes Rb RbProofs Types Sc Phy File Pd Cp CpCtx CpApi SpecRx SpecFrame
  SpecSec SpecSession SpecReply SpecPd SpecCp SpecCpRun RxProofs PdRx PdCore PhyTx PdTx PdReply PdStep PdHist2 CpTx CpRx CpStep CpInv CpEdge CpFacts
  CpSum CpWire.
From Coq Require Import ZifyBool ZifyNat.
Ltac Zify.zify_post_hook ::= Z.div_mod_to_equations.
Local Opaque RB_SIZE aes_ecb_encrypt enc1 osdp_mac.

(* without a session no KEYSET packet is built *)
Lemma keyset_silent e p smb m p2 pay ss o : cmd_id p = 117 -> sc_active (fl p) = false ->
  build_cmd_switch e p smb m = Ok (p2, pay, ss, o) -> pay = None.
Proof.
  intros C A. unfold build_cmd_switch, build_app_cmd. rewrite C, A. cbn. intros H. inversion H. reflexivity.
Qed.

Lemma sent_keyset e p q ok o d : cmd_sent e p q ok o -> In (OTx d) o -> cmd_id p = 117 -> sc_active (fl p) = true.
Proof.
  intros S IN C. destruct (sc_active (fl p)) eqn:A; [reflexivity|exfalso].
  destruct S as [(_ & _ & _ & ->) | (TB & p2 & pay & ss & ob & B & RM & TY & CP & CR & NT & S)]; [destruct IN|].
  pose proof (keyset_silent e (cp_init p) _ _ _ _ _ _ C A B) as ->.
  destruct S as [(_ & _ & _ & ->) | (dd & X & _)]; [destruct (NT d IN)|discriminate].
Qed.

Lemma upd_sent e p q rc o d : cpi p -> env_typed e -> state_update e p = Ok (q, rc, o) -> In (OTx d) o ->
  exists p1 ok o1, cmd_sent e (set_phy_state PSend p) p1 ok o1 /\ In (OTx d) o1.
Proof.
  intros I ET U IN. pose proof (cpi_case e p q rc o I ET U) as C. assert (I0 := I). destruct I as [i1 i2 i3 i4 i5 i6 i7 i8].
  assert (RC : forall p1 r o1, phy_state p = PReplyWait -> reply_case e p p1 r o1 -> cbinv p1 /\ rq_restart p1 = false /\ no_tx o1).
  { intros p1 r o1 P R. destruct (i3 P) as (W & _ & S0). destruct (reply_case_fx e p p1 r o1 i1 S0 W R) as [c1 c2 c3 c4].
    split; auto. split; auto. rewrite <- i8. apply (wcore_fields _ _ c1). }
  destruct C as [ | p1 c o P G C0 -> | p1 c o1 o P G C0 F | p1 o S CS -> | p1 o1 o S CS E | | | p1 o P R T L E
     | p1 o P R -> | p1 r o1 o P R K E | p1 r o1 o P R K E ]; try (destruct IN; fail).
  - destruct (get_cmd_fx e p p1 c o G i1) as [_ _ _ _ _ _ _ _ _ N]. destruct (N _ IN).
  - destruct (get_cmd_fx e p p1 c o1 G i1) as [_ _ _ _ _ _ _ _ _ N]. destruct (finish_out _ _ _ _ _ _ _ _ F) as (o9 & -> & N9).
    apply in_app_or in IN. destruct IN as [IN|IN]; exfalso; [apply (N _ IN)|apply (N9 _ IN)].
  - eauto.
  - assert (CB : cbinv (set_phy_state PSend p)) by (apply cbinv_phy; auto).
    destruct (cmd_sent_fx e _ _ _ _ CB CS) as [x1 x2 x3 x4 x5].
    do 3 eexists. split; [exact CS|]. apply (ended_tx _ _ _ _ _ _ _ _ E); auto. apply cbinv_phy; auto.
    change (rq_restart p1 = false). rewrite <- i8. change (rq_restart p) with (rq_restart (set_phy_state PSend p)). apply (tcore_fields _ _ x1).
  - exfalso. destruct (RC _ _ _ P R) as (c1 & c2 & c3). apply (ended_tx _ _ _ _ _ _ _ d E) in IN; auto. apply cbinv_phy; auto.
  - exfalso. destruct (RC _ _ _ P R) as (c1 & c2 & c3). apply (c3 _ IN).
  - exfalso. destruct (RC _ _ _ P R) as (c1 & c2 & c3). destruct (stamped_fx e r p1) as (a & b & ST). rewrite ST in E. apply (ended_tx _ _ _ _ _ _ _ d E) in IN; auto.
    + apply (c3 _ IN).
    + apply cbinv_phy. cbgi c1.
  - exfalso. destruct (RC _ _ _ P R) as (c1 & c2 & c3). apply (ended_tx _ _ _ _ _ _ _ d E) in IN; auto.
    + apply (c3 _ IN).
    + apply cbinv_phy; auto.
Qed.

Lemma panel_says e p q rc o d : cpi p -> env_typed e -> state_update e p = Ok (q, rc, o) -> In (OTx d) o ->
  exists w k code data, d = firstn k (255 :: w) /\ cmd_frame p code data w /\ (sc_active (fl p) = false -> code <> 117).
Proof.
  intros I T U IN. destruct (upd_sent e p q rc o d I T U IN) as (p1 & ok & o1 & CS & IN1).
  destruct (upd_tx e p q rc o d I T U IN) as (_ & _ & [(w & k & code & data & X1 & _ & _ & _ & _ & _ & _ & _ & _ & XA & _ & XC)]).
  exists w, (Z.to_nat k), code, data. split; [exact X1|]. split; [exact XC|]. intros A E.
  destruct XA as [XA|(_ & XA)]; [|unfold CMD_ABORT in XA; congruence].
  pose proof (sent_keyset e _ _ _ _ d CS IN1) as Y. change (cmd_id (set_phy_state PSend p)) with (cmd_id p) in Y.
  change (sc_active (fl (set_phy_state PSend p))) with (sc_active (fl p)) in Y. rewrite Y in A by congruence. discriminate.
Qed.
