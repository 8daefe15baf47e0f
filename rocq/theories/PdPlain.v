(** PD: processing of plain and of secure frames, forward direction. *)
From Verif Require Import Base ListLemmas Crc SpecCrc CrcProofs CrcBurst Aes AesProofs Rb RbProofs
  Types Sc ScProofs Phy PhyCheck File Pd SpecRx SpecFrame SpecSec MacProofs RxProofs RxFwd PdRx PdCore PhyTx PdTx PdReply
  PdStep PdWire PdFwd SpecPd PdRun PdSpeak.
From Coq Require Import ZifyBool ZifyNat.
Ltac Zify.zify_post_hook ::= Z.div_mod_to_equations.
Local Opaque aes_ecb_encrypt aes_cbc_encrypt aes_cbc_decrypt mac_of RB_SIZE osdp_mac enc1.

(* what the application can tell about a device: settings, queued events, file transfer, base key *)
Definition app_view (p : pd) :=
  ((address p, baud p, evq p, caps p), (pid p, file p, peer_rx p, has_cb p), (scbk (sc p), install (fl p), use_scbkd (fl p))).

(* outputs: transmissions only, no call of the application *)
Definition only_tx (o : list out) : Prop := forall x, In x o -> exists d, x = OTx d.

(* address byte of an answer to f *)
Definition answer_addr (p : pd) (f : list Z) : Z :=
  if (f_addr f =? 127) || broadcast (fl p) then 255 else address p mod 128 + 128.

(* the outputs are one plain frame, with or without mark *)
Definition answers (o : list out) (addr seq : Z) (pay : list Z) : Prop :=
  exists mk, (mk = [] \/ mk = [255]) /\ o = [OTx (mk ++ plain_frame addr seq pay)].

Lemma only_tx_nil : only_tx [].
Proof. intros x []. Qed.

Lemma only_tx_one d : only_tx [OTx d].
Proof. intros x [<-|[]]. eauto. Qed.

Lemma sent_only e f ok o : sent e f ok o -> only_tx o.
Proof. intros [(-> & _)|[(k & _ & -> & _)|(-> & _)]]; auto using only_tx_nil, only_tx_one. Qed.

Lemma devcore_view p q : devcore q = devcore p -> app_view q = app_view p /\ sc q = sc p /\ sc_active (fl q) = sc_active (fl p) /\ seqn q = seqn p.
Proof.
  intros H. split; [exact (f_equal (fun x => app_view x) H)|]. split; [exact (f_equal (fun x => sc x) H)|].
  split; [exact (f_equal (fun x => sc_active (fl x)) H)|exact (f_equal (fun x => seqn x) H)].
Qed.

(* a NAK reply never changes more than the answer chain *)
Lemma nak_reply e p c q o : env_ok e -> binv (nak c p) -> reply_phase e (nak c p) = Ok (q, o) ->
  only_tx o /\ app_view q = app_view p /\ sc_active (fl q) = sc_active (fl p) /\ seqn q = seqn p /\ rb q = rb p /\ pblen q = 0.
Proof.
  intros K I H. destruct (reply_phase_cases e _ q o K I H) as (q1 & ok & RS & I1 & _ & Q).
  destruct Q as [(-> & _)|(_ & _ & X & _)]; [|discriminate].
  change (app_view (state_reset false q1)) with (app_view q1). change (fl (state_reset false q1)) with (fl q1).
  change (seqn (state_reset false q1)) with (seqn q1). change (rb (state_reset false q1)) with (rb q1).
  destruct RS as [(_ & -> & _ & ->)|(_ & p2 & pay & ss & m & smb & ob & ot & BS & Hm & _ & BR & NT & T & TY & -> & S)].
  { split; [apply only_tx_nil|]. auto. }
  assert (P2 : p2 = after_init (nak c p) /\ ob = []).
  { unfold build_switch in BS. change (reply_id (after_init (nak c p))) with REPLY_NAK in BS. cbv zeta in BS.
    change (eph (after_init (nak c p))) with (EphNak c) in BS. unfold assert_len in BS.
    simpl in BS. destruct (2 <? m); inv BS. auto. }
  destruct P2 as [-> ->]. cbn [app].
  split. { cbv zeta in S. destruct S as [(-> & _)|(_ & S & _)]; [apply only_tx_nil|]. eapply sent_only; eauto. }
  assert (SB : scbk (sc q1) = scbk (sc p)) by exact (f_equal (fun x => scbk (sc x)) T).
  assert (F1 : fl q1 = fl (after_init (nak c p))) by exact (f_equal (fun x => fl x) T).
  split. { exact (f_equal (fun x => app_view x) T). }
  split; [rewrite F1; reflexivity|].
  split; [exact (f_equal (fun x => seqn x) T)|]. split; [exact (f_equal (fun x => rb x) T)|]. reflexivity.
Qed.

Lemma timeout_view e p : app_view (sc_timeout e p) = app_view p /\ broadcast (fl (sc_timeout e p)) = broadcast (fl p) /\
  tx_buf_size (sc_timeout e p) = tx_buf_size p /\ evq (sc_timeout e p) = evq p.
Proof. unfold sc_timeout. dif; auto. Qed.

Lemma seen_view f p : app_view (pd_seen f p) = app_view p /\ sc (pd_seen f p) = sc p /\
  sc_active (fl (pd_seen f p)) = (sc_active (fl p) && negb (f_seq f =? 0)) /\
  tx_buf_size (pd_seen f p) = tx_buf_size p /\ rb (pd_seen f p) = rb p.
Proof.
  unfold pd_seen. destruct (f_seq f =? 0), (f_addr f =? 127); simpl; rewrite ?andb_true_r, ?andb_false_r; repeat split.
Qed.

Lemma seq_after_ok last s : seq_ok last s -> seq_after last s = s.
Proof. unfold seq_ok, seq_after. destruct (s =? 0) eqn:?, (s =? last) eqn:?; lia. Qed.

Lemma core_view p q : rxcore q = rxcore p ->
  app_view q = app_view p /\ sc q = sc p /\ sc_active (fl q) = sc_active (fl p) /\ tx_buf_size q = tx_buf_size p /\
  broadcast (fl q) = broadcast (fl p) /\ address q = address p /\ seqn q = seqn p /\ evq q = evq p /\ fl (rxcore q) = fl (rxcore p).
Proof.
  intros H. split; [exact (f_equal (fun x => app_view x) H)|]. split; [exact (f_equal (fun x => sc x) H)|].
  split; [exact (f_equal (fun x => sc_active (fl x)) H)|]. split; [exact (f_equal (fun x => tx_buf_size x) H)|].
  split; [exact (f_equal (fun x => broadcast (fl x)) H)|]. split; [exact (f_equal (fun x => address x) H)|].
  split; [exact (f_equal (fun x => seqn x) H)|]. split; [exact (f_equal (fun x => evq x) H)|exact (f_equal (fun x => fl x) H)].
Qed.

(* the address and number with which an answering device speaks *)
Lemma answer_addr_eq p f pr : answering p f pr -> pd_addr pr = answer_addr p f.
Proof.
  intros (_ & A & B & _). rewrite pd_addr_eq, A, B. unfold answer_addr.
  destruct ((f_addr f =? 127) || broadcast (fl p)); lia.
Qed.

Lemma answer_seq_eq p f pr : -1 <= seqn p <= 3 -> answering p f pr -> seqn pr mod 4 = seq_after (seqn p) (f_seq f).
Proof.
  intros R (_ & _ & _ & ->). apply Z.mod_small. apply seq_after_range; auto. apply f_seq_range.
Qed.

(* NAK answer to f by a device whose channel takes the packet *)
Lemma nak_answer e p f pr c : env_ok e -> -1 <= seqn p <= 3 -> answering p f pr -> byte c ->
  sc_active (fl pr) = false -> 69 <= tx_buf_size pr -> 256 <= e_tx e ->
  exists q o, reply_phase e (nak c pr) = Ok (q, o) /\ answers o (answer_addr p f) (seq_after (seqn p) (f_seq f)) [65; c].
Proof.
  intros K R A Bc SA T X. pose proof A as (I & _).
  destruct (reply_nak e pr c K I Bc SA T X) as (q & E & _).
  rewrite (answer_addr_eq p f pr A), (answer_seq_eq p f pr R A) in E.
  exists q. eexists. split; [exact E|]. exists (mk_of pr). split; auto. unfold mk_of. dif; auto.
Qed.

(* ---- plain frames ---- *)

(* a frame without security block, received outside a session, reaches the command decoder *)
Lemma plain_command e p f rest c d : env_ok e -> pd_inv p -> next_frame e p f rest ->
  f_intact f -> f_mine (address p) f -> seq_ok (seqn p) (f_seq f) -> f_scb f = false ->
  sc_active (fl (sc_timeout e p)) = false \/ f_seq f = 0 ->
  f_payload f = c :: d ->
  exists ps, answering p f ps /\ full ps /\ sc_active (fl ps) = false /\ app_view ps = app_view p /\
    enforce (fl ps) = enforce (fl p) /\ sc ps = sc p /\
    rb_contents (rb ps) = rest /\ bytes (c :: d) /\ (tstamp ps = tstamp p \/ tstamp ps = e_now e) /\
    pd_refresh e p = bind (decode_command e ps (c :: d)) (pd_finish e).
Proof.
  intros K I N V M S SB SA PY.
  destruct (frame_verdict e p f rest K I N) as (p1 & R & Ef & Rr & Sy & I1 & F1 & Bf & TS & _ & _ & _ & X).
  specialize (X V M S).
  destruct (core_view _ _ R) as (R1 & R2 & R3 & R4 & R5 & R6 & R7 & R8 & R9).
  destruct (timeout_view e p) as (T1 & T2 & T3 & T4). destruct (timeout_ids e p) as (U1 & U2 & U3 & U4).
  destruct (seen_view f p1) as (V1 & V2 & V3 & V4 & V5).
  destruct (seen_buffers f p1) as (W1 & W2 & W3 & W4 & W5 & W6).
  exists (pd_seen f p1).
  assert (A : answering p f (pd_seen f p1)) by (apply (answering_timeout e); apply answering_seen; auto).
  split; auto. split; [apply full_seen; auto|].
  assert (SA2 : sc_active (fl (pd_seen f p1)) = false).
  { rewrite V3, R3. destruct SA as [-> | ->]; [reflexivity|]. apply andb_false_r. }
  split; auto. split; [congruence|].
  assert (EN : enforce (fl (pd_seen f p1)) = enforce (fl p)).
  { transitivity (enforce (fl p1)); [unfold pd_seen; destruct (f_seq f =? 0), (f_addr f =? 127); reflexivity|].
    transitivity (enforce (fl (sc_timeout e p))); [exact (f_equal enforce R9)|unfold sc_timeout; dif; reflexivity]. }
  split; auto. split; [congruence|]. split; [rewrite V5; auto|].
  assert (Bp : bytes (f_payload f)) by (unfold f_payload; apply bytes_firstn, bytes_skipn; auto).
  rewrite PY in Bp. split; auto.
  split. { destruct TS as [TS|TS]; [left|right]; rewrite <- TS; unfold pd_seen; destruct (f_seq f =? 0), (f_addr f =? 127); reflexivity. }
  rewrite X. unfold rap_k.
  assert (L6 : 6 <= zlen f) by (destruct N as ((_ & _ & _ & L) & _); lia).
  assert (LP : 1 <= zlen f - 5 - (if f_crc f then 2 else 1)).
  { apply (f_equal (@length Z)) in PY. unfold f_payload in PY. rewrite firstn_length in PY. simpl in PY. unfold zlen.
    destruct (f_crc f); lia. }
  rewrite (decode_plain (pd_seen f p1) f); auto; try (apply A); try (apply full_seen; auto); try (rewrite W5; auto).
  rewrite SA2, bind_Ok.
  destruct (zlen f - 5 - (if f_crc f then 2 else 1) <=? 0) eqn:E; [lia|]. rewrite PY. reflexivity.
Qed.

Lemma answering_nak p f pr c : byte c -> answering p f pr -> answering p f (nak c pr).
Proof. intros Bc (I & A). split; auto. apply binv_nak; auto. Qed.

Lemma answering_id p f pr r : byte r -> answering p f pr -> answering p f (set_cmd_id (cmd_id pr) (set_reply_id r pr)).
Proof.
  intros Bc (I & A). split; [|exact A]. destruct I as [x1 x2 x3 x4 x5 x6 x7 x8 x9]. constructor; auto.
  destruct x5 as (E1 & E2 & E3 & E4 & E5 & E6). apply mk_typed; auto.
Qed.

Lemma answering_cmdid p f pr c r : byte r -> answering p f pr -> answering p f (set_cmd_id c (set_reply_id r pr)).
Proof.
  intros Bc (I & A). split; [|exact A]. destruct I as [x1 x2 x3 x4 x5 x6 x7 x8 x9]. constructor; auto.
  destruct x5 as (E1 & E2 & E3 & E4 & E5 & E6). apply mk_typed; auto.
Qed.

(* a command that the decoder refuses without looking further *)
Lemma plain_refused e p f rest c d k : env_ok e -> pd_inv p -> next_frame e p f rest ->
  f_intact f -> f_mine (address p) f -> seq_ok (seqn p) (f_seq f) -> f_scb f = false ->
  sc_active (fl (sc_timeout e p)) = false \/ f_seq f = 0 ->
  f_payload f = c :: d -> byte k ->
  (forall ps, answering p f ps -> sc_active (fl ps) = false -> app_view ps = app_view p -> enforce (fl ps) = enforce (fl p) ->
     decode_command e ps (c :: d) = Ok (nak k (set_cmd_id c (set_reply_id 0 ps)), RReply, [])) ->
  (forall q o, pd_refresh e p = Ok (q, o) -> only_tx o /\ app_view q = app_view p /\ pending q = rest) /\
  (69 <= tx_buf_size p -> 256 <= e_tx e ->
   exists q o, pd_refresh e p = Ok (q, o) /\ answers o (answer_addr p f) (f_seq f) [65; k]).
Proof.
  intros K I N V M S SB SA PY Bk D.
  destruct (plain_command e p f rest c d K I N V M S SB SA PY) as (ps & A & F & SA2 & AV & EN & SC & RB & Bp & _ & X).
  rewrite (D ps A SA2 AV EN), bind_Ok in X.
  assert (B0 : byte 0) by (unfold byte; lia).
  pose proof (answering_cmdid p f ps c 0 B0 A) as A1.
  set (px := set_cmd_id c (set_reply_id 0 ps)) in *.
  assert (X2 : pd_refresh e p = reply_phase e (nak k px)).
  { rewrite X. unfold pd_finish. destruct (reply_phase e (nak k px)) as [[? ?]| |]; reflexivity. }
  assert (TB : tx_buf_size px = tx_buf_size p).
  { change (tx_buf_size px) with (tx_buf_size ps). unfold tx_buf_size.
    assert (Y : peer_rx ps = peer_rx p) by (unfold app_view in AV; congruence). rewrite Y. reflexivity. }
  split.
  - intros q o H. rewrite X2 in H. pose proof (nak_reply e px k q o K (proj1 (answering_nak p f px k Bk A1)) H) as (H1 & H2 & H3 & H4 & H5 & H6).
    split; auto. split; [rewrite H2; exact AV|]. unfold pending. rewrite H6, H5. exact RB.
  - intros H1 H2. rewrite X2. rewrite <- (seq_after_ok _ _ S).
    apply nak_answer; auto; [apply I|]. rewrite TB. auto.
Qed.
