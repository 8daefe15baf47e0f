(** What the device writes comes from the fragment it received. *)
From Verif Require Import Base ListLemmas Crc SpecCrc CrcProofs CrcBurst Aes AesProofs Rb RbProofs
  Types Sc ScProofs Phy PhyCheck File Pd SpecRx SpecFrame SpecSec SpecCmd SpecApp MacProofs RxProofs RxFwd PdRx PdCore PhyTx PdTx PdReply
  PdStep PdWire PdFwd SpecPd PdRun PdSpeak PdPlain PdSec PdRefuse PdFacts PdKinds PdCase PdApp PdTrace SpecReply WireSec SaysProofs SpecLink SpecHand SpecFile SpecFrag.
From Coq Require Import ZifyBool ZifyNat.
Ltac Zify.zify_post_hook ::= Z.div_mod_to_equations.
Local Opaque aes_ecb_encrypt aes_cbc_encrypt aes_cbc_decrypt mac_of RB_SIZE osdp_mac enc1 cap_entries.

Lemma writes_in d i o : In (d, i) (writes o) <-> In (OFWrite d i) o.
Proof.
  unfold writes. rewrite in_flat_map. split.
  - intros (x & I & H). destruct x; try contradiction. destruct H as [H|[]]. injection H as -> ->. exact I.
  - intros I. exists (OFWrite d i). split; [exact I|left; reflexivity].
Qed.
Lemma open_no_write e p f ty size r o : file_rx_open e p f ty size = (r, o) -> forall d i, ~ In (OFWrite d i) o.
Proof.
  unfold file_rx_open. intros O d i. destruct (f_state f); try (inv O; intros []; fail);
  (cbv zeta in O; destruct (has_cb p); simpl in O;
    repeat (match type of O with (if ?b then _ else _) = _ => destruct b end; try discriminate);
    inv O; simpl; intros HX; repeat destruct HX as [HX|HX]; try contradiction; discriminate).
Qed.
Lemma decode_write e p d q b o x i : file_tx_decode e p d = Ok (q, b, o) -> In (OFWrite x i) o ->
  x = from d 11 /\ i = le32 (getb d 5) (getb d 6) (getb d 7) (getb d 8) /\ 11 < zlen d /\ zlen x = le16 (getb d 9) (getb d 10).
Proof.
  unfold file_tx_decode. destruct (file p) as [f|]; [|intros H; inv H; intros []]. change FT_HDR with 11.
  destruct (zlen d <=? 11) eqn:L; [intros H; inv H; intros []|]. cbv zeta. destruct (negb _) eqn:LE; [discriminate|].
  destruct (file_rx_open e p f _ _) as [[f1|] o1] eqn:O; [|intros H; inv H; intros X; destruct (open_no_write _ _ _ _ _ _ _ O _ _ X)].
  assert (G : forall z, In (OFWrite x i) (o1 ++ [OFWrite (from d 11) z]) -> x = from d 11 /\ i = z).
  { intros z X. apply in_app_or in X. destruct X as [X|[X|[]]]; [destruct (open_no_write _ _ _ _ _ _ _ O _ _ X)|]. injection X as <- <-. auto. }
  assert (LX : zlen (from d 11) = le16 (getb d 9) (getb d 10)) by (unfold from, zlen in *; rewrite skipn_length; lia).
  dif; [intros H; inv H; intros X; destruct (open_no_write _ _ _ _ _ _ _ O _ _ X)|].
  dif; intros H; inv H; intros X; destruct (G _ X) as (-> & ->); repeat split; auto; lia.
Qed.
Lemma case_write e p c d q r o x i : dec_case e p c d q r o -> In (OFWrite x i) o ->
  c = 124 /\ exists q2 b o2, file_tx_decode e p d = Ok (q2, b, o2) /\ In (OFWrite x i) o2.
Proof.
  intros H X. inversion H; subst; try contradiction; try (repeat destruct X as [X|X]; try contradiction; discriminate); try (split; [reflexivity|]; eauto 8; fail).
  - match goal with Y : do_records _ _ _ _ = _ |- _ => apply records_outs in Y as [Y _]; destruct (Y _ X) as (c0 & E & _) end. discriminate E.
  - match goal with Y : file_tx_abort _ = _ |- _ => unfold file_tx_abort in Y; destruct (file p) as [f|]; [destruct (in_progress f)|]; inv Y end; simpl in X; intuition discriminate.
Qed.
Lemma refresh_write e p q o x i : env_ok e -> pd_inv p -> pd_refresh e p = Ok (q, o) -> In (x, i) (writes o) ->
  exists f rest pay, heard_frame e p f rest /\ says_to e p f pay /\ fragment pay x i.
Proof.
  intros K I H W. apply writes_in in W.
  destruct (refresh_call e p q o K I H (OFWrite x i)) as (f & rest & p1 & p2 & l & p3 & r & oc & o2 & HF & SQ & FO & RC & BS & FS & DP & NL & BL & N2 & DC & HX2 & _); auto.
  { intros [(d & E)|E]; discriminate. }
  exists f, rest, l. split; [exact HF|].
  assert (FO2 : frame_of (pd_seen f p1) = f) by (destruct (seen_buffers f p1) as (_ & _ & _ & _ & X & _); rewrite X; exact FO).
  assert (SY : says_to e p f l).
  { assert (KO : sc_keys_ok (sc (pd_seen f p1))) by (destruct (iv_ty _ BS) as (_ & _ & _ & (KO & _) & _); exact KO).
    pose proof (decode_says _ p2 l DP (iv_rxb _ BS) FS (fun _ => KO)) as SA. destruct (seen_view f p1) as (_ & V2 & V3 & _).
    assert (T1 : sc p1 = sc (sc_timeout e p)) by exact (f_equal (fun z => sc z) RC).
    assert (T2 : sc_active (fl p1) = sc_active (fl (sc_timeout e p))) by exact (f_equal (fun z => sc_active (fl z)) RC).
    assert (T3 : sc (sc_timeout e p) = sc p) by (unfold sc_timeout; repeat match goal with |- context [if ?b then _ else _] => destruct b end; reflexivity).
    unfold last_in in SA. rewrite (iv_mode _ BS), V3, V2, T1, T2, T3, FO2, session_open_eq in SA. exact SA. }
  split; [exact SY|]. clear SY.
  destruct (cons_of _ NL) as (c & d & E). rewrite E in *. destruct (command_case _ _ _ _ _ _ _ DC) as (_ & CC).
  assert (CW : exists qa qb ra, dec_case e qa c d qb ra oc).
  { destruct CC as [(k & _ & _ & _ & ->)|[(q1 & D & _)|(_ & D)]]; [destruct HX2|eauto|eauto]. }
  destruct CW as (qa & qb & ra & D). destruct (case_write _ _ _ _ _ _ _ _ _ D HX2) as (-> & q2 & b & o3 & DW & X3).
  destruct (decode_write _ _ _ _ _ _ _ _ DW X3) as (-> & -> & L & LX). unfold fragment. cbn [nth].
  split; [reflexivity|]. split; [reflexivity|]. split; [reflexivity|exact LX].
Qed.
