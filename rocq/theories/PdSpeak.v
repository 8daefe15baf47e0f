(** PD: when it transmits and what. *)
From Verif Require Import Base ListLemmas Crc SpecCrc CrcProofs CrcBurst Aes AesProofs Rb RbProofs
  Types Sc ScProofs Phy PhyCheck File Pd SpecRx SpecFrame RxProofs RxFwd PdRx PdCore PhyTx PdTx PdReply
  PdStep PdWire PdFwd SpecPd PdRun.
From Coq Require Import ZifyBool ZifyNat.
Ltac Zify.zify_post_hook ::= Z.div_mod_to_equations.
Local Opaque aes_ecb_encrypt aes_cbc_encrypt aes_cbc_decrypt mac_of RB_SIZE.

(* pr is about to answer frame f received from p *)
Definition answering (p : pd) (f : list Z) (pr : pd) : Prop :=
  binv pr /\ address pr = address p /\
  broadcast (fl pr) = ((f_addr f =? 127) || broadcast (fl p)) /\
  seqn pr = seq_after (seqn p) (f_seq f).

Lemma seen_ids f p : address (pd_seen f p) = address p /\
  broadcast (fl (pd_seen f p)) = ((f_addr f =? 127) || broadcast (fl p)) /\
  seqn (pd_seen f p) = seq_after (seqn p) (f_seq f).
Proof. unfold pd_seen. destruct (f_seq f =? 0), (f_addr f =? 127); repeat split. Qed.

Lemma answering_seen p p1 f : rxcore p1 = rxcore p -> binv p1 -> answering p f (pd_seen f p1).
Proof.
  intros R I. destruct (core_ids _ _ R) as (R1 & R2 & _).
  assert (R3 : broadcast (fl p1) = broadcast (fl p)) by exact (f_equal (fun x => broadcast (fl x)) R).
  destruct (seen_ids f p1) as (S1 & S2 & S3).
  split; [apply binv_seen; auto|]. rewrite S1, S2, S3, R1, R2, R3. auto.
Qed.

Lemma answering_timeout e p f pr : answering (sc_timeout e p) f pr -> answering p f pr.
Proof. unfold sc_timeout. dif; auto. Qed.

Lemma answering_cmd p f pr q : answering p f pr -> binv q -> cmdcore q = cmdcore pr -> answering p f q.
Proof.
  intros (A & B & C & D) I R. split; auto.
  assert (R1 : address q = address pr) by exact (f_equal (fun x => address x) R).
  assert (R2 : broadcast (fl q) = broadcast (fl pr)) by exact (f_equal (fun x => broadcast (fl x)) R).
  assert (R3 : seqn q = seqn pr) by exact (f_equal (fun x => seqn x) R).
  rewrite R1, R2, R3. auto.
Qed.

Lemma answering_dec p f pr q r : answering p f pr -> binv q -> decode_packet pr = Ok (q, r) -> answering p f q.
Proof.
  intros (A & B & C & D) I R. split; auto.
  destruct (decode_packet_core _ _ _ (iv_mode _ A) R) as (X & _ & _ & Y & Z & _).
  assert (R1 : address q = address pr) by exact (f_equal (fun x => address x) X).
  rewrite R1, Y, Z. auto.
Qed.

(* either a refresh is silent, or it answers the frame it received *)
Lemma refresh_shape e p q o : env_ok e -> pd_inv p -> pd_refresh e p = Ok (q, o) ->
  no_tx o \/
  exists f rest pr oc o2, (exists noise mk, arrived e p = noise ++ mk ++ f ++ rest /\ ~ In 83 noise /\ (mk = [] \/ zlen mk = 1)) /\
    f_shape false f /\ bytes f /\ f_intact f /\ f_mine (address p) f /\
    answering p f pr /\ reply_phase e pr = Ok (q, o2) /\ o = oc ++ o2 /\ no_tx oc.
Proof.
  intros K I H. apply refresh_cases in H; auto.
  pose proof (inv_timeout e p I) as I0. destruct (timeout_ids e p) as (T1 & T2 & _ & T3).
  destruct H as [(p1 & k & _ & _ & _ & -> & _)|(p1 & G & I1 & Bf & C)]; [left; auto with notx|].
  cbv zeta in C. pose proof G as (R & _ & _ & _ & _ & (noise & mk & A & Lm & N & _) & S & _).
  rewrite arrived_timeout in A. rewrite T3, (iv_mode p (iv_b p I)) in S. cbn [negb] in S.
  assert (MK : mk = [] \/ zlen mk = 1).
  { destruct (mark_len_cases p1) as [X|X]; rewrite X in Lm; [left|right; auto].
    destruct mk; auto. rewrite zlen_cons in Lm. pose proof (zlen_nonneg mk). lia. }
  set (f := frame_of p1) in *.
  pose proof (answering_seen _ _ f R I1) as AS. apply answering_timeout in AS.
  destruct C as [(_ & -> & _)|[(_ & _ & -> & _)|[(F1 & F2 & _ & C)|(F1 & F2 & _ & Is & _ & p2 & r & DP & I2 & _ & C)]]];
    [left; auto with notx|left; auto with notx| |].
  - right. rewrite T1 in F2. exists f, (rb_contents (rb p1)), (nak 4 (pd_seen f p1)), [], o.
    split; [exists noise, mk; auto|]. split; auto. split; auto. split; auto. split; auto.
    split; [|auto with notx]. destruct AS as (A1 & A2). split; [apply binv_nak; auto; unfold byte; lia|exact A2].
  - rewrite T1 in F2. pose proof (answering_dec _ _ _ _ _ AS I2 DP) as A2.
    destruct C as [(_ & C)|[(c & _ & _ & -> & _)|(l & p3 & o1 & _ & Bl & _ & I3 & C)]]; [| left; auto with notx|].
    + right. exists f, (rb_contents (rb p1)), p2, [], o. split; [exists noise, mk; auto|]. auto 12 with notx.
    + destruct C as [(DC & o2 & C & ->)|[(DC & o2 & C & ->)|(DC & -> & _)]];
        destruct (decode_command_core e p2 l _ _ _ DC) as (CC & _ & NT & _); [| |left; auto].
      * right. exists f, (rb_contents (rb p1)), (bumped e p3), o1, o2. split; [exists noise, mk; auto|].
        split; auto. split; auto. split; auto. split; auto. split; auto.
        pose proof (answering_cmd _ _ _ _ A2 I3 CC) as (A3 & A4). split; [apply binv_bumped; auto|].
        unfold bumped. dif; exact A4.
      * right. exists f, (rb_contents (rb p1)), p3, o1, o2. split; [exists noise, mk; auto|].
        split; auto. split; auto. split; auto. split; auto. split; auto.
        eapply answering_cmd; eauto.
Qed.

Lemma reset_tx_buf p q : peer_rx q = peer_rx p -> tx_buf_size q = tx_buf_size p.
Proof. intros E. unfold tx_buf_size. rewrite E. reflexivity. Qed.

Lemma reply_sent_peer e p q ok o : reply_sent e p q ok o -> peer_rx q = peer_rx p.
Proof.
  intros [(_ & -> & _)|(_ & p2 & pay & ss & m & smb & ob & ot & _ & _ & _ & BR & _ & T & _)]; auto.
  assert (H1 : peer_rx q = peer_rx p2) by exact (f_equal (fun x => peer_rx x) T). rewrite H1.
  destruct BR as [->|[(_ & a & b & _ & ->)|[(_ & fx & ->)|[(_ & ->)|[(_ & _ & ->)|(_ & _ & ->)]]]]]; auto.
Qed.

(* a packet a device may put on the line in answer to f: mark, frame, address, number, size *)
Definition good_packet (p q : pd) (f F : list Z) : Prop :=
  exists mk w, F = mk ++ w /\ (mk = [] \/ mk = [255]) /\ bytes w /\ f_shape true w /\ f_crc w = true /\ crc_valid w /\
    f_seq w = seq_after (seqn p) (f_seq f) /\
    nth 1 w 0 = (if (f_addr f =? 127) || broadcast (fl p) then 255 else address p mod 128 + 128) /\
    zlen F <= 256 /\ (peer_rx q <> 0 -> zlen F <= peer_rx q).

Lemma reply_phase_tx e p f pr q o : env_ok e -> -1 <= seqn p <= 3 -> answering p f pr -> reply_phase e pr = Ok (q, o) ->
  exists ob ot, o = ob ++ ot /\ no_tx ob /\
    (ot = [] \/ exists F k, good_packet p q f F /\ 0 < k <= zlen F /\ ot = [OTx (firstn (Z.to_nat k) F)]).
Proof.
  intros K Sq (I & A1 & A2 & A3) H.
  destruct (reply_phase_cases e pr q o K I H) as (q1 & ok & RS & _ & _ & Q).
  assert (PX : peer_rx q = peer_rx pr).
  { rewrite <- (reply_sent_peer _ _ _ _ _ RS). destruct Q as [(-> & _)|(_ & _ & _ & k & _ & ->)]; reflexivity. }
  destruct (reply_sent_frame e pr q1 ok o K I RS) as (ob & ot & -> & NT & X).
  exists ob, ot. split; auto. split; auto. destruct X as [->|(w & F & k & -> & Hk & -> & _ & Bw & Sw & Vw & Cw & Aw & Nw & Zw)]; auto.
  right. exists (mk_of pr ++ w), k. split; auto.
  exists (mk_of pr), w. split; auto. split; [unfold mk_of; dif; auto|]. split; auto. split; auto. split; auto. split; auto.
  split.
  { rewrite Nw, A3. pose proof (f_seq_range f). unfold seq_after, seq_next.
    destruct (f_seq f =? 0) eqn:E0; [reflexivity|]. destruct (f_seq f =? seqn p) eqn:E1; [rewrite Z.mod_small; lia|].
    destruct (seqn p =? 3) eqn:E2; [reflexivity|]. rewrite Z.mod_small; lia. }
  split; [rewrite Aw, pd_addr_eq, A1, A2; destruct ((f_addr f =? 127) || broadcast (fl p)); lia|].
  pose proof (tx_buf_le pr). split; [lia|]. intros NP. rewrite PX in *. unfold tx_buf_size in Zw.
  destruct (peer_rx pr =? 0) eqn:E; lia.
Qed.

Lemma refresh_tx e p q o : env_ok e -> pd_inv p -> pd_refresh e p = Ok (q, o) ->
  no_tx o \/
  exists f rest oc F k, (exists noise mk, arrived e p = noise ++ mk ++ f ++ rest /\ ~ In 83 noise /\ (mk = [] \/ zlen mk = 1)) /\
    f_shape false f /\ f_intact f /\ f_mine (address p) f /\
    good_packet p q f F /\ 0 < k <= zlen F /\ o = oc ++ [OTx (firstn (Z.to_nat k) F)] /\ no_tx oc.
Proof.
  intros K I H. destruct (refresh_shape e p q o K I H) as [N|(f & rest & pr & oc & o2 & A & S & Bf & V & M & AN & RP & -> & NT)]; auto.
  destruct (reply_phase_tx e p f pr q o2 K (iv_seq _ (iv_b _ I)) AN RP) as (ob & ot & -> & NB & [->|(F & k & G & Hk & ->)]).
  - left. rewrite app_nil_r. auto with notx.
  - right. exists f, rest, (oc ++ ob), F, k. split; auto. split; auto. split; auto. split; auto. split; auto. split; auto.
    rewrite app_assoc. auto with notx.
Qed.

Lemma seq_after_range last s : -1 <= last <= 3 -> 0 <= s < 4 -> 0 <= seq_after last s < 4.
Proof. intros. unfold seq_after, seq_next. destruct (s =? 0) eqn:?, (s =? last) eqn:?, (last =? 3) eqn:?; lia. Qed.

(* number of transmissions in a list of outputs *)
Fixpoint tx_count (o : list out) : nat :=
  match o with [] => 0 | OTx _ :: t => S (tx_count t) | _ :: t => tx_count t end.

Lemma tx_count_none o : no_tx o -> tx_count o = 0%nat.
Proof.
  induction o as [|x o IH]; intros H; auto. destruct x; simpl; try (apply IH; intros b X; apply (H b); right; exact X).
  exfalso. eapply H. left. reflexivity.
Qed.

Lemma tx_count_app a b : tx_count (a ++ b) = (tx_count a + tx_count b)%nat.
Proof. induction a as [|x a IH]; auto. destruct x; simpl; rewrite IH; reflexivity. Qed.
