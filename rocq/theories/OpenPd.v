(** The device opens, writes and closes the file of the application in this order. *)
From Verif Require Import Base ListLemmas Crc SpecCrc CrcProofs CrcBurst Aes AesProofs Rb RbProofs
  Types Sc ScProofs Phy PhyCheck File Pd SpecRx SpecFrame SpecSec SpecCmd SpecApp MacProofs RxProofs RxFwd PdRx PdCore PhyTx PdTx PdReply
  PdStep PdWire PdFwd SpecPd PdRun PdSpeak PdPlain PdSec PdRefuse PdFacts PdKinds PdCase PdApp PdTrace SpecLink SpecHand SpecFile SpecOpen.
From Coq Require Import ZifyBool ZifyNat.
Ltac Zify.zify_post_hook ::= Z.div_mod_to_equations.
Local Opaque aes_ecb_encrypt aes_cbc_encrypt aes_cbc_decrypt mac_of RB_SIZE osdp_mac enc1 cap_entries.

(* a transfer is in progress *)
Definition busy (p : pd) : bool := match file p with Some f => in_progress f | None => false end.

Lemma uses_app e a b x y : forall c, uses e a x b -> uses e b y c -> uses e a (x ++ y) c.
Proof. intros c H. induction H; intros Y; simpl; auto. econstructor; eauto. Qed.
Lemma uses_none e b o : (forall x, In x o -> ~ file_call x) -> uses e b o b.
Proof. induction o as [|x t IH]; intros H; [constructor|]. eapply us_cons; [apply u_other; apply H; simpl; auto|]. apply IH. intros; apply H; simpl; auto. Qed.
Lemma busy_file p q : file q = file p -> busy q = busy p.
Proof. unfold busy. intros ->. reflexivity. Qed.

Lemma rx_open_uses e p f ty size r o : file_rx_open e p f ty size = (r, o) ->
  uses e (in_progress f) o (match r with Some g => in_progress g | None => in_progress f end).
Proof.
  unfold file_rx_open. cbv zeta.
  assert (O1 : uses e false (if has_cb p then [OCmd (CFileTx ty (f_flags f))] else []) false) by (apply uses_none; destruct (has_cb p); simpl; intros x X; intuition; subst; auto).
  assert (M : in_progress f = false ->
    (if has_cb p && (fst (e_cb e O (CFileTx ty (f_flags f))) <? 0) then (None, if has_cb p then [OCmd (CFileTx ty (f_flags f))] else [])
     else if fst (e_fopen e ty size) <? 0 then (None, (if has_cb p then [OCmd (CFileTx ty (f_flags f))] else []) ++ [OFOpen ty size])
     else (Some (ff_set_f_state FInprog (ff_set_f_size size (ff_set_f_id ty file_reset))), (if has_cb p then [OCmd (CFileTx ty (f_flags f))] else []) ++ [OFOpen ty size])) = (r, o) ->
    uses e (in_progress f) o (match r with Some g => in_progress g | None => in_progress f end)).
  { intros B. rewrite B. destruct (_ && _); [intros H; injection H as <- <-; exact O1|].
    destruct (fst (e_fopen e ty size) <? 0) eqn:E; intros H; injection H as <- <-; (eapply uses_app; [exact O1|]); (eapply us_cons; [|constructor]).
    - apply u_fail. lia.
    - apply u_open. lia. }
  destruct (f_state f) eqn:S; try (intros H; injection H as <- <-; constructor); intros H; (apply M; [unfold in_progress; rewrite S; reflexivity|exact H]).
Qed.

Lemma tx_decode_uses e p d q b o : file_tx_decode e p d = Ok (q, b, o) -> uses e (busy p) o (busy q).
Proof.
  unfold file_tx_decode. destruct (file p) as [f|] eqn:F.
  2: { intros H. injection H as <- <- <-. constructor. }
  assert (B : busy p = in_progress f) by (unfold busy; rewrite F; reflexivity).
  destruct (zlen d <=? FT_HDR); [intros H; injection H as <- <- <-; constructor|]. cbv zeta.
  destruct (negb _); [discriminate|].
  destruct (file_rx_open e p f _ _) as [r o1] eqn:RO. apply rx_open_uses in RO.
  destruct r as [g|].
  2: { intros H. injection H as <- <- <-. rewrite B. exact RO. }
  rewrite B. destruct (in_progress g) eqn:G; cbn [negb].
  - destruct (negb _); intros H; injection H as <- <- <-; (eapply uses_app; [exact RO|]); (eapply us_cons; [apply u_write|]);
      match goal with |- uses _ _ [] (busy ?q) => replace (busy q) with true by (symmetry; exact G) end; constructor.
  - intros H. injection H as <- <- <-. match goal with |- uses _ _ _ (busy ?q) => replace (busy q) with false by (symmetry; exact G) end. exact RO.
Qed.

Lemma abort_uses e p q o : file_tx_abort p = (q, o) -> uses e (busy p) o (busy q).
Proof.
  unfold file_tx_abort. destruct (file p) as [f|] eqn:F; [destruct (in_progress f) eqn:G|]; intros H; injection H as <- <-; try constructor.
  replace (busy p) with true by (unfold busy; rewrite F; auto). eapply us_cons; [apply u_close|constructor].
Qed.

Lemma stat_uses e p n q l o : file_stat_build e p n = Ok (q, l, o) -> uses e (busy p) o (busy q).
Proof.
  unfold file_stat_build. destruct (file p) as [f|] eqn:F.
  2: { intros H. injection H as <- <- <-. constructor. }
  destruct (in_progress f) eqn:G; cbn [negb].
  2: { intros H. injection H as <- <- <-. constructor. }
  assert (B : busy p = true) by (unfold busy; rewrite F; exact G). rewrite B.
  destruct (n <? FT_STAT); [intros H; injection H as <- <- <-; rewrite B; constructor|]. cbv zeta.
  match goal with |- (if ?c then _ else _) = _ -> _ => destruct c end; [discriminate|].
  match goal with |- (if ?c then _ else _) = _ -> _ => destruct c end.
  - destruct (e_fclose e <? 0) eqn:C; intros H; injection H as <- <- <-.
    + eapply us_cons; [apply u_stay; lia|]. match goal with |- uses _ _ [] (busy ?q) => replace (busy q) with true by (symmetry; exact G) end. constructor.
    + eapply us_cons; [apply u_close|constructor].
  - intros H; injection H as <- <- <-. match goal with |- uses _ _ [] (busy ?q) => replace (busy q) with true by (symmetry; exact G) end. constructor.
Qed.

Lemma records_uses e l n p q o : do_records e n p l = (q, o) -> uses e (busy p) o (busy q).
Proof.
  intros H. apply records_outs in H as [H1 H2]. replace (busy q) with (busy p) by (destruct H2 as [->|(k & ->)]; reflexivity).
  apply uses_none. intros x X. destruct (H1 _ X) as (c & -> & _). exact (fun F => F).
Qed.

Lemma case_uses e p c d q r o : dec_case e p c d q r o -> uses e (busy p) o (busy q).
Proof.
  intros H. inversion H; subst; try (match goal with |- uses _ ?a _ ?b => change b with a end; apply uses_none; simpl; intros x X; intuition; subst; auto; fail).
  - match goal with |- uses _ _ _ (busy (translate_event ?a ?b)) => replace (busy (translate_event a b)) with (busy p) by (unfold translate_event, nak; destruct b; try destruct (_ =? _); reflexivity) end. constructor.
  - match goal with Y : do_records _ _ _ _ = _ |- _ => apply records_uses in Y; exact Y end.
  - match goal with Y : file_tx_abort _ = _ |- _ => apply (abort_uses e) in Y; exact Y end.
  - match goal with Y : file_tx_decode _ _ _ = _ |- _ => apply tx_decode_uses in Y; exact Y end.
  - match goal with Y : file_tx_decode _ _ _ = _ |- _ => apply tx_decode_uses in Y; exact Y end.
Qed.

Lemma command_uses e p l q r o : l <> [] -> decode_command e p l = Ok (q, r, o) -> uses e (busy p) o (busy q).
Proof.
  intros NL H. destruct (cons_of _ NL) as (c & d & ->). destruct (command_case _ _ _ _ _ _ _ H) as (_ & CC).
  destruct CC as [(k & _ & -> & _ & ->)|[(q1 & D & _ & -> & _)|(_ & D)]].
  - constructor.
  - apply case_uses in D. exact D.
  - apply case_uses in D. exact D.
Qed.

Lemma switch_uses e p smb m p2 pay ss o : build_rel e p p2 -> build_switch e p smb m = Ok (p2, pay, ss, o) -> uses e (busy p) o (busy p2).
Proof.
  intros BR H. destruct (Z.eq_dec (reply_id p) 122) as [R|R].
  - unfold build_switch in H. cbv zeta in H. rewrite R in H.
    match type of H with ?a = _ => let b := eval cbv [Z.eqb Pos.eqb REPLY_ACK REPLY_PDID REPLY_PDCAP REPLY_OSTATR REPLY_ISTATR REPLY_LSTATR REPLY_RSTATR REPLY_KEYPAD REPLY_RAW REPLY_COM REPLY_NAK REPLY_MFGREP REPLY_FTSTAT] in a in change (b = Ok (p2, pay, ss, o)) in H end.
    cbv iota in H. apply bind_inv in H as ([[p1 l] o1] & F & H). apply stat_uses in F. destruct l; inv H; exact F.
  - destruct (build_switch_outs _ _ _ _ _ _ _ _ H) as [->|(X & _)]; [|contradiction].
    replace (busy p2) with (busy p); [constructor|].
    destruct BR as [->|[(_ & a & b & _ & ->)|[(X & fx & ->)|[(_ & ->)|[(_ & _ & ->)|(_ & _ & ->)]]]]]; try reflexivity. destruct (R X).
Qed.

Lemma reply_uses e p q o : env_ok e -> binv p -> reply_phase e p = Ok (q, o) -> uses e (busy p) o (busy q).
Proof.
  intros K I H. destruct (reply_phase_cases e p q o K I H) as (q1 & ok & RS & _ & _ & Q).
  assert (BQ : busy q = busy q1) by (destruct Q as [(-> & _)|(_ & _ & _ & k & _ & ->)]; reflexivity). rewrite BQ.
  destruct RS as [(_ & -> & _ & ->)|(_ & p2 & pay & ss & m & smb & ob & ot & BS & _ & _ & BR & _ & T & _ & -> & S)]; [constructor|].
  assert (B1 : busy q1 = busy p2) by (apply busy_file; exact (f_equal (fun x => file x) T)). rewrite B1.
  apply (uses_app e _ (busy p2)).
  - apply switch_uses in BS; auto. 
  - apply uses_none. destruct S as [(-> & _)|(_ & S & _)]; [intros x []|].
    destruct S as [(-> & _)|[(k & _ & -> & _)|(-> & _)]]; simpl; intros x X; intuition; subst; auto.
Qed.

Lemma refresh_uses e p q o : env_ok e -> pd_inv p -> pd_refresh e p = Ok (q, o) -> uses e (busy p) o (busy q).
Proof.
  intros K I H.
  assert (BN : forall pr, near (sc_timeout e p) pr -> busy pr = busy p).
  { intros pr N. apply busy_file. destruct (near_fields _ _ N) as (_ & _ & _ & _ & _ & _ & F & _). rewrite F.
    pose proof (timeout_fields e p) as T. cbv zeta in T. apply T. }
  destruct (refresh_kinds e p q o K I H) as [(-> & p2 & N & _ & _ & Q)|[(f & rest & pr & HF & AN & N & _ & RP)|
     (f & rest & p1 & ps & p2 & l & p3 & r & oc & HF & SQ & RC & FO & -> & BS & FS & AN & DP & BL & NL & B2 & N2 & DC & B3 & C)]].
  - replace (busy q) with (busy p); [constructor|]. rewrite <- (BN _ N). destruct Q as [->|[->| ->]]; reflexivity.
  - rewrite <- (BN _ N). apply reply_uses; auto. apply AN.
  - apply command_uses in DC; auto. rewrite (BN _ N2) in DC.
    destruct C as [(_ & -> & Q)|[(_ & o2 & RP & ->)|(_ & o2 & RP & ->)]].
    + replace (busy q) with (busy p3); auto. destruct Q as [->| ->]; reflexivity.
    + eapply uses_app; [exact DC|]. replace (busy p3) with (busy (bumped e p3)) by (unfold bumped; destruct (sc_active _); reflexivity).
      apply reply_uses; auto. apply binv_bumped; auto.
    + eapply uses_app; [exact DC|]. apply reply_uses; auto.
Qed.

(* a whole run *)
Lemma device_files i n h p : pd_runs i n h p -> filed h (busy p).
Proof.
  intros R. induction R as [p T S|h p c q o R IH T D].
  - replace (busy p) with false; [constructor|]. unfold busy. replace (file p) with (@None filest); auto.
    unfold pd_setup in S. cbv zeta in S. destruct (i_scbk i); [|destruct (enforce _); [discriminate|]]; injection S as <-; reflexivity.
  - destruct c; cbn [pd_do] in D.
    + econstructor; [exact IH|]. apply refresh_uses; auto; [apply PdRun.env_typed; auto|apply (runs_inv i n h); auto].
    + injection D as <- <-. replace (busy (fst _)) with (busy p) by (unfold pd_notify_event; destruct (_ <? _); reflexivity). apply fd_other; auto; discriminate.
    + injection D as <- <-. apply fd_other; auto; discriminate.
    + injection D as <- <-. apply fd_other; auto; discriminate.
    + injection D as <- <-. apply fd_other; auto; discriminate.
    + injection D as <- <-. eapply fd_register. exact IH.
Qed.
