(** PD: what one refresh does to the application-visible state, and which calls it makes. *)
From Verif Require Import Base ListLemmas Crc SpecCrc CrcProofs CrcBurst Aes AesProofs Rb RbProofs
  Types Sc ScProofs Phy PhyCheck File Pd SpecRx SpecFrame SpecSec SpecCmd MacProofs RxProofs RxFwd PdRx PdCore PhyTx PdTx PdReply
  PdStep PdWire PdFwd SpecPd PdRun PdSpeak PdPlain PdSec PdRefuse PdFacts PdKinds PdCase.
From Coq Require Import ZifyBool ZifyNat.
Ltac Zify.zify_post_hook ::= Z.div_mod_to_equations.
Lemma enc1_def k b : enc1 k b = aes_ecb_encrypt k b.
Proof. reflexivity. Qed.
Local Opaque aes_ecb_encrypt aes_cbc_encrypt aes_cbc_decrypt mac_of RB_SIZE osdp_mac enc1 cap_entries.

Lemma build_switch_outs e p smb m p2 pay ss o : build_switch e p smb m = Ok (p2, pay, ss, o) -> o = [] \/ (reply_id p = 122 /\ o = [OFClose]).
Proof.
  unfold build_switch. cbv zeta.
  assert (AL : forall need have (k : res built) x, assert_len need have k = Ok x -> k = Ok x) by (intros; eapply assert_len_ok; eauto).
  assert (FI : forall l x, @Ok built (p, Some l, None, []) = Ok (p2, pay, ss, x) -> x = []) by (intros ? ? H; inv H; auto).
  dif; [intros H; apply AL in H; inv H; auto|].
  dif; [intros H; apply AL in H; inv H; auto|].
  dif; [intros H; apply AL in H; inv H; auto|].
  dif; [intros H; apply bind_inv in H as (? & _ & H); inv H; auto|].
  dif; [intros H; apply bind_inv in H as (? & _ & H); inv H; auto|].
  dif; [intros H; apply AL in H; apply bind_inv in H as (? & _ & H); inv H; auto|].
  dif; [intros H; apply AL in H; apply bind_inv in H as (? & _ & H); inv H; auto|].
  dif; [destruct (eph p) as [| | |[]|]; try discriminate; intros H; apply AL in H; apply bind_inv in H as (? & _ & H); inv H; auto|].
  dif; [destruct (eph p) as [| | |[]|]; try discriminate; intros H; apply AL in H; apply bind_inv in H as (? & _ & H); inv H; auto|].
  dif; [destruct (eph p) as [| |[]| |]; try discriminate; intros H; apply AL in H; inv H; auto|].
  dif; [destruct (eph p) as [| | |[]|]; try discriminate; intros H; apply AL in H; inv H; auto|].
  dif; [destruct (eph p) as [| | |[]|]; try discriminate; intros H; apply AL in H; apply bind_inv in H as (? & _ & H); inv H; auto|].
  dif. { intros H. apply bind_inv in H as ([[p1 l] o1] & F & H). apply Z.eqb_eq in Heqb11.
         assert (o = o1) by (destruct l; inv H; auto). subst o1. clear H.
         unfold file_stat_build in F. destruct (file p); [|inv F; auto]. match type of F with (if ?b then _ else _) = _ => destruct b eqn:? end. 1: inv F; auto. 
         match type of F with (if ?b then _ else _) = _ => destruct b eqn:? end. 1: inv F; auto. cbv zeta in F. match type of F with (if ?b then _ else _) = _ => destruct b eqn:? end. 1: discriminate. match type of F with (if ?b then _ else _) = _ => destruct b eqn:? end.
         - match type of F with (if ?b then _ else _) = _ => destruct b eqn:? end; inv F; auto.
         - inv F; auto. }
  dif. { unfold build_ccrypt. dif; [intros H; inv H; auto|]. intros H; apply AL in H; inv H; auto. }
  dif. { unfold build_rmac. dif; [intros H; inv H; auto|]. intros H; apply AL in H. cbv zeta in H. destruct (verify_cp_cryptogram _) in H; inv H; auto. }
  intros H; inv H; auto.
Qed.

(* the calls of the second half of a refresh: transmissions and closing a received file *)
Definition quiet_out (x : out) : Prop := (exists d, x = OTx d) \/ x = OFClose.

Lemma reply_phase_outs e p q o : env_ok e -> binv p -> reply_phase e p = Ok (q, o) -> Forall quiet_out o.
Proof.
  intros K I H. destruct (reply_phase_cases e p q o K I H) as (q1 & ok & RS & _ & _ & _).
  destruct RS as [(_ & _ & _ & ->)|(_ & p2 & pay & ss & m & smb & ob & ot & BS & _ & _ & _ & _ & _ & _ & -> & S)]; [constructor|].
  apply Forall_app. split.
  - destruct (build_switch_outs _ _ _ _ _ _ _ _ BS) as [->|(_ & ->)]; [constructor|apply Forall_cons; [right; auto|constructor]].
  - destruct S as [(-> & _)|(_ & S & _)]; [constructor|].
    destruct S as [(-> & _)|[(k & _ & -> & _)|(-> & _)]]; [constructor|apply Forall_cons; [left; eauto|constructor]..].
Qed.

(* fields of the device that an answer never touches *)
Definition anscore (p : pd) :=
  ((evq p, caps p, peer_rx p, has_cb p), (pid p, pool p, cmd_id p, reply_id p), (eph p, enforce (fl p), seqn p),
   (cp_random (sc p), cp_crypt (sc p), client_uid (sc p))).

(* what an answer does to the address, the key, the session keys and the file *)
Record ans_rel (e : env) (p q : pd) : Prop := {
  ar_core : anscore q = anscore p;
  ar_addr : (address q = address p /\ baud q = baud p /\ (reply_id p = 84 -> tx_buf_size p < 69)) \/
            (reply_id p = 84 /\ 69 <= tx_buf_size p /\ exists a b, eph p = EphCmd (CComset a b) /\ address q = a /\ baud q = b);
  ar_key : (scbk (sc q) = scbk (sc p) /\ install (fl q) = install (fl p) /\ use_scbkd (fl q) = use_scbkd (fl p)) \/
           (cmd_id p = 117 /\ reply_id p = 64 /\ eph p = EphKey (scbk (sc q)) /\ install (fl q) = false /\ use_scbkd (fl q) = false /\
            sc_active (fl q) = false);
  ar_file : file q = file p \/ reply_id p = 122;
  ar_sess : (s_enc (sc q) = s_enc (sc p) /\ s_mac1 (sc q) = s_mac1 (sc p) /\ s_mac2 (sc q) = s_mac2 (sc p) /\ pd_random (sc q) = pd_random (sc p)) \/
            (reply_id p = 118 /\ pd_random (sc q) = firstn 8 (e_rand e ++ zeros 8) /\
             s_enc (sc q) = enc1 (if use_scbkd (fl p) then scbk_default else scbk (sc p)) (session_block 1 130 (cp_random (sc p))));
  ar_act : sc_active (fl q) = true -> (sc_active (fl p) = true /\ (sc_tstamp q = sc_tstamp p \/ sc_tstamp q = e_now e)) \/
             (reply_id p = 120 /\ cp_crypt (sc p) = enc1 (s_enc (sc p)) (firstn 8 (pd_random (sc p)) ++ firstn 8 (cp_random (sc p))) /\ sc_tstamp q = e_now e);
  ar_stamp : sc_tstamp q = sc_tstamp p \/ (reply_id p = 120 /\ sc_tstamp q = e_now e)
}.

(* a COM answer that is built applies the new settings *)
Lemma build_com e p smb m x : reply_id p = 84 -> build_switch e p smb m = Ok x ->
  exists a b, eph p = EphCmd (CComset a b) /\ fst (fst (fst x)) = set_baud b (set_address a p).
Proof.
  intros R. unfold build_switch. rewrite R. cbv zeta. change (84 =? REPLY_ACK) with false. change (84 =? REPLY_PDID) with false.
  change (84 =? REPLY_PDCAP) with false. change (84 =? REPLY_OSTATR) with false. change (84 =? REPLY_ISTATR) with false.
  change (84 =? REPLY_LSTATR) with false. change (84 =? REPLY_RSTATR) with false. change (84 =? REPLY_KEYPAD) with false.
  change (84 =? REPLY_RAW) with false. change (84 =? REPLY_COM) with true. cbv iota.
  destruct (eph p) as [| |c| |]; try discriminate. destruct c; try discriminate. intros H. apply assert_len_ok in H as [_ H]. inv H. eauto.
Qed.

Lemma ans_refl e p q : rxcore q = rxcore p -> (reply_id p = 84 -> tx_buf_size p < 69) -> ans_rel e p q.
Proof.
  intros R C. 
  pose proof (f_equal (fun x => anscore x) R) as R1. 
  assert (F : fl (rxcore q) = fl (rxcore p)) by congruence.
  assert (F1 : install (fl q) = install (fl p)) by exact (f_equal (fun x => install x) F).
  assert (F2 : use_scbkd (fl q) = use_scbkd (fl p)) by exact (f_equal (fun x => use_scbkd x) F).
  assert (F3 : sc_active (fl q) = sc_active (fl p)) by exact (f_equal (fun x => sc_active x) F).
  assert (S : sc q = sc p) by exact (f_equal (fun x => sc x) R).
  assert (T : sc_tstamp q = sc_tstamp p) by exact (f_equal (fun x => sc_tstamp x) R).
  constructor.
  - exact R1.
  - left. split; [exact (f_equal (fun x => address x) R)|]. split; [exact (f_equal (fun x => baud x) R)|auto].
  - left. rewrite S, F1, F2. auto.
  - left. exact (f_equal (fun x => file x) R).
  - left. rewrite S. auto.
  - rewrite F3. auto.
  - auto.
Qed.

Lemma tx_ans e p p2 q : txcore q = txcore p2 -> ans_rel e p p2 -> ans_rel e p q.
Proof.
  intros R [A1 A2 A3 A4 A5 A6 A7].
  assert (F : fl q = fl p2) by exact (f_equal (fun x => fl x) R).
  assert (C : anscore q = anscore p2) by exact (f_equal (fun x => anscore x) R).
  assert (T : sc_tstamp q = sc_tstamp p2) by exact (f_equal (fun x => sc_tstamp x) R).
  assert (S1 : scbk (sc q) = scbk (sc p2)) by exact (f_equal (fun x => scbk (sc x)) R).
  assert (S2 : s_enc (sc q) = s_enc (sc p2)) by exact (f_equal (fun x => s_enc (sc x)) R).
  assert (S3 : s_mac1 (sc q) = s_mac1 (sc p2)) by exact (f_equal (fun x => s_mac1 (sc x)) R).
  assert (S4 : s_mac2 (sc q) = s_mac2 (sc p2)) by exact (f_equal (fun x => s_mac2 (sc x)) R).
  assert (S5 : pd_random (sc q) = pd_random (sc p2)) by exact (f_equal (fun x => pd_random (sc x)) R).
  assert (X1 : address q = address p2) by exact (f_equal (fun x => address x) R).
  assert (X2 : baud q = baud p2) by exact (f_equal (fun x => baud x) R).
  assert (X3 : file q = file p2) by exact (f_equal (fun x => file x) R).
  constructor.
  - congruence.
  - rewrite X1, X2. exact A2.
  - rewrite S1, F. exact A3.
  - rewrite X3. exact A4.
  - rewrite S2, S3, S4, S5. exact A5.
  - rewrite F, T. exact A6.
  - rewrite T. exact A7.
Qed.

Lemma keys_form r p : exists x1 x2 x3 x4,
  compute_pd_cryptogram (compute_session_keys (set_pd_random r p)) =
    set_pd_crypt x1 (set_s_mac2 x4 (set_s_mac1 x3 (set_s_enc x2 (set_pd_random r p)))) /\
  x2 = enc1 (if use_scbkd (fl p) then scbk_default else scbk (sc p)) (session_block 1 130 (cp_random (sc p))).
Proof.
  eexists. eexists. eexists. eexists. split; [unfold compute_pd_cryptogram, compute_session_keys; cbv zeta; reflexivity|].
  unfold session_base_key. simpl. symmetry. apply enc1_def.
Qed.

Lemma build_ans e p p2 pay ss ob smb m : build_switch e (after_init p) smb m = Ok (p2, pay, ss, ob) -> build_rel e (after_init p) p2 ->
  69 <= tx_buf_size p -> ans_rel e p p2.
Proof.
  intros BS BR TX.
  assert (COM : reply_id p = 84 -> exists a b, eph p = EphCmd (CComset a b) /\ p2 = set_baud b (set_address a (after_init p))).
  { intros R. destruct (build_com e (after_init p) smb m _ R BS) as (a & b & E1 & E2). simpl in E2. eauto. }
  clear BS.
  destruct (Z.eq_dec (reply_id p) 84) as [R|R].
  - destruct (COM R) as (a & b & E1 & ->). constructor; try (left; auto; fail); auto.
    + right. split; auto. split; auto. exists a, b. auto.
  - clear COM.
    assert (N : address p2 = address p -> baud p2 = baud p ->
      (address p2 = address p /\ baud p2 = baud p /\ (reply_id p = 84 -> tx_buf_size p < 69)) \/
            (reply_id p = 84 /\ 69 <= tx_buf_size p /\ exists a b, eph p = EphCmd (CComset a b) /\ address p2 = a /\ baud p2 = b)).
    { intros. left. split; auto. split; auto. intros; lia. }
    destruct BR as [->|[(E & a & b & _ & ->)|[(E & x & ->)|[(E & ->)|[(E & C & ->)|(E & C & ->)]]]]].
    + constructor; try (left; auto; fail); auto.
    + simpl in E. contradiction.
    + constructor; try (left; auto; fail); auto.
    + destruct (keys_form (firstn 8 (e_rand e ++ zeros 8)) (after_init p)) as (x1 & x2 & x3 & x4 & -> & EZ).
      constructor; try (left; auto; fail); auto.
    + unfold compute_rmac_i. match goal with |- ans_rel _ _ (set_r_mac ?x _) => generalize x end. intros x1.
      constructor; try (left; auto; fail); auto.
    + unfold compute_rmac_i. match goal with |- context [set_r_mac ?x _] => generalize x end. intros x1.
      assert (C' : cp_crypt (sc p) = enc1 (s_enc (sc p)) (firstn 8 (pd_random (sc p)) ++ firstn 8 (cp_random (sc p)))) by (rewrite enc1_def; exact C). clear C.
      constructor; try (left; auto; fail); auto.
Qed.

(* ... and the whole answering phase *)
Lemma reply_ans e p q o : env_ok e -> binv p -> reply_phase e p = Ok (q, o) -> ans_rel e p q.
Proof.
  intros K I H. destruct (reply_phase_cases e p q o K I H) as (q1 & ok & RS & _ & _ & Q).
  assert (A : ans_rel e p q1).
  { destruct RS as [(TX & -> & _)|(TX & p2 & pay & ss & m & smb & ob & ot & BS & _ & _ & BR & _ & T & _)].
    - apply ans_refl; auto.
    - eapply tx_ans; [exact T|]. eapply build_ans; eauto. }
  clear RS. destruct Q as [(-> & _)|(_ & C1 & C2 & k & E & ->)].
  - destruct A as [A1 A2 A3 A4 A5 A6 A7]. constructor; assumption.
  - destruct A as [A1 A2 A3 A4 A5 A6 A7]. constructor; try assumption.
    + right. split; [exact C1|]. split; [exact C2|]. split; [exact E|]. split; [reflexivity|]. split; reflexivity.
    + intros X. discriminate X.
Qed.
