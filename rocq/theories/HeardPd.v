(** PD: every command the application is called with was asked for by the packet received in the same call. *)
From Verif Require Import Base ListLemmas Crc SpecCrc CrcProofs CrcBurst Aes AesProofs Rb RbProofs
  Types Sc ScProofs Phy PhyCheck File Pd SpecRx SpecFrame SpecSec SpecReply SpecCmd SpecApp MacProofs RxProofs RxFwd PdRx PdCore PhyTx PdTx PdReply
  PdStep PdWire PdFwd SpecPd PdRun PdSpeak PdPlain PdSec PdRefuse PdFacts PdKinds PdCase PdApp PdTrace PdHist2 WireSec SaysProofs PdMore SpecHeard.
From Coq Require Import ZifyBool ZifyNat.
Ltac Zify.zify_post_hook ::= Z.div_mod_to_equations.
Local Opaque aes_ecb_encrypt aes_cbc_encrypt aes_cbc_decrypt mac_of RB_SIZE osdp_mac enc1 cap_entries.

Lemma asked_app a b : asked (a ++ b) = asked a ++ asked b.
Proof. induction a as [|x t IH]; auto. destruct x; simpl; rewrite ?IH; auto. Qed.
Lemma asked_in o : asked o <> [] -> exists c, In (OCmd c) o.
Proof.
  induction o as [|x t IH]; [intros H; destruct (H eq_refl)|]. destruct x; intros H; try (destruct (IH H) as (c0 & X); exists c0; right; exact X).
  exists c. left. auto.
Qed.
Lemma quiet_asked o : Forall quiet_out o -> asked o = [].
Proof.
  intros F. destruct (asked o) as [|c t] eqn:E; auto. destruct (asked_in o) as (x & X); [congruence|]. destruct (quiet_no_cmd o x F X).
Qed.

Lemma records_asked e l : forall n p q o, do_records e n p l = (q, o) -> exists k, asked o = firstn k l.
Proof.
  induction l as [|c t IH]; intros n p q o H; simpl in H.
  - inv H. exists 0%nat. auto.
  - destruct (rec_ok p c); simpl in H; [|inv H; exists 0%nat; auto].
    destruct (do_callback e n p c) as [[[p3 bb] c1] o1] eqn:E.
    apply do_callback_eq in E as (-> & -> & [(-> & E & ->)|(-> & E & ->)]).
    + destruct (do_records e (S n) p t) as [q2 o2] eqn:D. inv H. destruct (IH _ _ _ _ D) as (k & K). exists (S k). simpl. rewrite K. auto.
    + inv H. exists 1%nat. auto.
Qed.

Lemma chunks_concat k : forall n d, 0 <= n -> zlen d = n * Z.of_nat k -> concat (chunks k n d) = d /\ Forall (fun r => zlen r = n) (chunks k n d).
Proof.
  induction k as [|k IH]; intros n d N L; simpl chunks.
  - assert (d = []) by (destruct d; auto; rewrite zlen_cons in L; pose proof (zlen_nonneg d); lia). subst d. split; [auto|constructor].
  - assert (LF : zlen (from d n) = n * Z.of_nat k).
    { unfold from, zlen in *. rewrite skipn_length. lia. }
    destruct (IH n (from d n) N LF) as [A B]. split.
    + simpl. rewrite A. unfold sub, from. simpl. apply firstn_skipn.
    + constructor; auto. unfold sub, zlen in *. simpl. rewrite firstn_length. lia.
Qed.

Lemma len_zero {A} (d : list A) : zlen d = 0 -> d = [].
Proof. destruct d; auto. rewrite zlen_cons. pose proof (zlen_nonneg d). lia. Qed.
Lemma len_succ {A} (d : list A) n : zlen d = n -> 0 < n -> exists x t, d = x :: t /\ zlen t = n - 1.
Proof. destruct d as [|x t]; intros H K; [simpl in H; unfold zlen in H; simpl in H; lia|]. rewrite zlen_cons in H. exists x, t. split; auto; lia. Qed.
Lemma len_ge {A} (d : list A) n : n <= zlen d -> 0 < n -> exists x t, d = x :: t /\ n - 1 <= zlen t.
Proof. destruct d as [|x t]; intros H K; [unfold zlen in H; simpl in H; lia|]. rewrite zlen_cons in H. exists x, t. split; auto; lia. Qed.
Lemma out_rec_of b : zlen b = 4 -> rec_out b (dec_out b).
Proof.
  intros H. do 4 (apply len_succ in H as (? & ? & -> & H); [|lia]). assert (Hz : zlen _ = 0) by (etransitivity; [exact H|lia]); apply len_zero in Hz. subst. constructor.
Qed.
Lemma led_rec_of b : zlen b = 14 -> rec_led b (dec_led b).
Proof.
  intros H. do 14 (apply len_succ in H as (? & ? & -> & H); [|lia]). assert (Hz : zlen _ = 0) by (etransitivity; [exact H|lia]); apply len_zero in Hz. subst. constructor.
Qed.
Lemma buz_rec_of b : zlen b = 5 -> rec_buz b (dec_buz b).
Proof.
  intros H. do 5 (apply len_succ in H as (? & ? & -> & H); [|lia]). assert (Hz : zlen _ = 0) by (etransitivity; [exact H|lia]); apply len_zero in Hz. subst. constructor.
Qed.

Lemma recs_of (R : list Z -> cmd -> Prop) dec n l : (forall b, zlen b = n -> R b (dec b)) -> Forall (fun r => zlen r = n) l -> Forall2 R l (map dec l).
Proof. intros H F. induction F; simpl; constructor; auto. Qed.

Lemma multi_asks c n dec d : multi_cmd c n dec -> zlen d mod n = 0 -> asks (c :: d) (map dec (chunks (Z.to_nat (zlen d / n)) n d)).
Proof.
  intros M Z. assert (N : n = 4 \/ n = 14 \/ n = 5) by (destruct M as [(_ & -> & _)|[(_ & -> & _)|(_ & -> & _)]]; auto).
  pose proof (zlen_nonneg d) as P.
  destruct (chunks_concat (Z.to_nat (zlen d / n)) n d) as [A B]; [lia| |].
  { destruct N as [N|[N|N]]; subst n; lia. }
  remember (chunks (Z.to_nat (zlen d / n)) n d) as l eqn:El. clear El. subst d.
  destruct M as [(-> & -> & ->)|[(-> & -> & ->)|(-> & -> & ->)]].
  - apply As_out. apply (recs_of _ _ 4); auto. apply out_rec_of.
  - apply As_led. apply (recs_of _ _ 14); auto. apply led_rec_of.
  - apply As_buz. apply (recs_of _ _ 5); auto. apply buz_rec_of.
Qed.

Lemma file_asked e p d q b o : file_tx_decode e p d = Ok (q, b, o) ->
  asked o = [] \/ exists id t fl, d = id :: t /\ asked o = [CFileTx id fl].
Proof.
  unfold file_tx_decode. destruct (file p) as [f|]; [|intros H; inv H; auto].
  dif; [intros H; inv H; auto|]. cbv zeta. dif; [discriminate|].
  destruct d as [|id t]; [discriminate|]. 
  destruct (file_rx_open e p f _ _) as [fo o1] eqn:O.
  assert (A : asked o1 = [] \/ exists fl, asked o1 = [CFileTx id fl]).
  { unfold file_rx_open in O. destruct (f_state f); try (inv O; auto; fail);
    (cbv zeta in O; destruct (has_cb p); simpl in O;
      repeat (match type of O with (if ?b then _ else _) = _ => destruct b end); inv O; simpl; eauto). }
  assert (G : forall o2, asked o2 = asked o1 -> asked o2 = [] \/ exists id' t' fl, id :: t = id' :: t' /\ asked o2 = [CFileTx id' fl]).
  { intros o2 E. rewrite E. destruct A as [A|(fl & A)]; auto. right. exists id, t, fl. auto. }
  destruct fo as [f1|].
  - dif; [intros H; inv H; auto|]. dif; intros H; inv H; apply G; rewrite asked_app; simpl; apply app_nil_r.
  - intros H; inv H. auto.
Qed.

Lemma text_asks d : bytes d -> 6 <= zlen d -> getb d 5 <= 32 -> getb d 5 <= zlen d - 6 -> asks (107 :: d) [text_of d].
Proof.
  intros B H L M. pose proof (bytes_getb d 5 B) as BB. unfold byte in BB.
  apply len_ge in H as (a0 & d0 & -> & H); [|lia]. apply len_ge in H as (a1 & d1 & -> & H); [|lia]. apply len_ge in H as (a2 & d2 & -> & H); [|lia].
  apply len_ge in H as (a3 & d3 & -> & H); [|lia]. apply len_ge in H as (a4 & d4 & -> & H); [|lia]. apply len_ge in H as (n & s & -> & H); [|lia].
  change (getb _ 5) with n in *. rewrite !zlen_cons in M. clear B H.
  change (text_of _) with (CText a0 a1 a2 a3 a4 n (firstn (Z.to_nat n) s)).
  rewrite <- (firstn_skipn (Z.to_nat n) s) at 1. apply As_text; auto.
  unfold zlen in *. rewrite firstn_length. lia.
Qed.
Lemma mfg_asks d : 4 <= zlen d <= 68 -> asks (128 :: d) [mfg_of d].
Proof.
  intros [H L].
  apply len_ge in H as (a0 & d0 & -> & H); [|lia]. apply len_ge in H as (a1 & d1 & -> & H); [|lia]. apply len_ge in H as (a2 & d2 & -> & H); [|lia].
  apply len_ge in H as (a3 & s & -> & H); [|lia]. rewrite !zlen_cons in L.
  change (mfg_of _) with (CMfg (a0 + 256 * a1 + 65536 * a2) a3 (zlen (a0 :: a1 :: a2 :: a3 :: s) - 4) s).
  rewrite !zlen_cons. match goal with |- context [CMfg _ _ ?n _] => replace n with (zlen s) by lia end. apply As_mfg. lia.
Qed.
Lemma comset_asks d : zlen d = 5 -> getb d 0 < 127 -> asks (110 :: d) [comset_of d].
Proof.
  intros H L. do 5 (apply len_succ in H as (? & ? & -> & H); [|lia]). assert (Hz : zlen _ = 0) by (etransitivity; [exact H|lia]); apply len_zero in Hz. subst. apply As_comset. exact L.
Qed.
Lemma keyset_asks d : zlen d = 18 -> getb d 0 = 1 -> getb d 1 = 16 -> asks (117 :: d) [keyset_of d].
Proof.
  intros H A B. do 2 (apply len_succ in H as (? & ? & -> & H); [|lia]). unfold getb in A, B. simpl in A, B. subst. apply As_keyset. lia.
Qed.

Lemma case_asks e p c d q r o : bytes d -> dec_case e p c d q r o -> asked o = [] \/ exists cs k, asks (c :: d) cs /\ asked o = firstn k cs.
Proof.
  intros BD H. inversion H; subst; try (left; reflexivity);
    try (right; match goal with |- context [asked [OCmd ?x]] => exists [x], 1%nat; split; [|reflexivity] end).
  - match goal with X : status_cmd _ _ _ |- _ => destruct X as [(-> & -> & _)|[(-> & -> & _)|[(-> & -> & _)|(-> & -> & _)]]] end; constructor.
  - match goal with X : status_cmd _ _ _ |- _ => destruct X as [(-> & -> & _)|[(-> & -> & _)|[(-> & -> & _)|(-> & -> & _)]]] end; constructor.
  - right. match goal with X : do_records _ _ _ _ = _ |- _ => apply records_asked in X; destruct X as (k & X) end.
    eexists _, k. split; [|eassumption]. apply multi_asks; auto.
  - apply text_asks; auto.
  - apply text_asks; auto.
  - apply mfg_asks; auto.
  - apply mfg_asks; auto.
  - apply comset_asks; auto.
  - apply comset_asks; auto.
  - left. match goal with X : file_tx_abort _ = _ |- _ => unfold file_tx_abort in X; destruct (file p) as [f|]; [destruct (in_progress f)|]; inv X end; reflexivity.
  - match goal with X : file_tx_decode _ _ _ = _ |- _ => apply file_asked in X; destruct X as [X|(id & t & fl & -> & X)]; auto end.
    right. exists [CFileTx id fl], 1%nat. split; [constructor|auto].
  - match goal with X : file_tx_decode _ _ _ = _ |- _ => apply file_asked in X; destruct X as [X|(id & t & fl & -> & X)]; auto end.
    right. exists [CFileTx id fl], 1%nat. split; [constructor|auto].
  - apply keyset_asks; auto.
  - apply keyset_asks; auto.
Qed.

Lemma decode_asks e p l q r o : l <> [] -> bytes l -> decode_command e p l = Ok (q, r, o) -> asked o = [] \/ exists cs k, asks l cs /\ asked o = firstn k cs.
Proof.
  intros NL B H. destruct (cons_of l NL) as (c & d & ->). assert (BD : bytes d) by (inversion B; auto).
  destruct (command_case _ _ _ _ _ _ _ H) as (_ & [(k & _ & _ & _ & ->)|[(q1 & D & _)|(_ & D)]]).
  - left; auto.
  - apply (case_asks _ _ _ _ _ _ _ BD D).
  - apply (case_asks _ _ _ _ _ _ _ BD D).
Qed.

(* f arrived for this device in this call: intact, addressed to it (or to all), with an acceptable number, and says l; a
   packet with number 0 ends the session before it is read *)
Definition heard_command (e : env) (p : pd) (l : list Z) : Prop :=
  exists f rest, heard_frame e p f rest /\ seq_ok (seqn p) (f_seq f) /\
    f_says (session_open e p && negb (f_seq f =? 0)) (s_enc (sc p)) (r_mac (sc p)) f l.

Lemma refresh_asked e p q o : env_ok e -> pd_inv p -> pd_refresh e p = Ok (q, o) -> asked o <> [] ->
  exists l cs k, heard_command e p l /\ asks l cs /\ asked o = firstn k cs.
Proof.
  intros K I H NE. destruct (asked_in o NE) as (x & IN).
  assert (NQ : ~ quiet_out (OCmd x)) by (intros [(d & E)|E]; discriminate).
  pose proof (iv_b p I) as IB.
  destruct (refresh_kinds e p q o K I H) as [(-> & _)|[(f & rest & pr & HF & AN & _ & _ & RP)|
     (f & rest & p1 & ps & p2 & l & p3 & r & oc & HF & SQ & RX & FO & -> & BS & FS & AN & DP & BL & NL & B2 & N2 & DC & B3 & C)]].
  - destruct IN.
  - pose proof (reply_phase_outs e pr q o K (proj1 AN) RP) as Q. rewrite Forall_forall in Q. destruct (NQ (Q _ IN)).
  - assert (C2 : asked o = asked oc).
    { destruct C as [(_ & -> & _)|[(_ & o2 & RP & ->)|(_ & o2 & RP & ->)]]; auto.
      - rewrite asked_app, (quiet_asked o2), app_nil_r; auto. apply (reply_phase_outs e (bumped e p3) q o2 K); auto. apply binv_bumped; auto.
      - rewrite asked_app, (quiet_asked o2), app_nil_r; auto. apply (reply_phase_outs e p3 q o2 K); auto. }
    rewrite C2 in *. destruct (decode_asks e p2 l p3 r oc NL BL DC) as [E|(cs & k & A & E)]; [destruct (NE E)|].
    exists l, cs, k. split; [|auto]. exists f, rest. split; auto. split; auto.
    assert (FE : frame_of (pd_seen f p1) = f). { rewrite <- FO at 2. unfold pd_seen. cbv zeta. destruct (f_addr f =? 127), (f_seq f =? 0); reflexivity. }
    destruct (core_view _ _ RX) as (_ & R2 & R3 & _). destruct (seen_view f p1) as (_ & V2 & V3 & _).
    assert (SC : sc (pd_seen f p1) = sc p). { rewrite V2, R2. apply (timeout_fields e p). }
    pose proof (decode_says _ _ _ DP (iv_rxb _ BS) FS ltac:(intros _; apply (iv_ty _ BS))) as X.
    unfold last_in in X. rewrite (iv_mode _ BS), FE, SC, V3, R3, session_open_eq in X.
    exact X.
Qed.
