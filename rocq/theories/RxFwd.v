(** Receive path, forward direction: a frame that has arrived completely is the frame that is
    handed on, however it was cut into pieces. *)
From Verif Require Import Base ListLemmas Crc SpecCrc CrcProofs Rb RbProofs Types Phy PhyCheck SpecRx
  SpecFrame RxProofs PdRx.
From Coq Require Import ZifyBool ZifyNat.
Ltac Zify.zify_post_hook ::= Z.div_mod_to_equations.
Local Opaque RB_SIZE.

Lemma first_som n1 m1 t1 n2 m2 t2 : ~ In 83 n1 -> ~ In 83 m1 -> ~ In 83 n2 -> ~ In 83 m2 ->
  n1 ++ m1 ++ 83 :: t1 = n2 ++ m2 ++ 83 :: t2 -> t1 = t2 /\ n1 ++ m1 = n2 ++ m2.
Proof.
  intros A B C D H. rewrite !app_assoc in H.
  assert (X : split_som ((n1 ++ m1) ++ 83 :: t1) = Some (n1 ++ m1, t1))
    by (apply split_som_app; rewrite in_app_iff; tauto).
  assert (Y : split_som ((n2 ++ m2) ++ 83 :: t2) = Some (n2 ++ m2, t2))
    by (apply split_som_app; rewrite in_app_iff; tauto).
  rewrite H, Y in X. injection X as -> ->. auto.
Qed.

Lemma mark_no_som (b : bool) : ~ In 83 (if b then [255] else []).
Proof. destruct b; simpl; intuition lia. Qed.

Lemma shape_som d f : f_shape d f -> exists t, f = 83 :: t.
Proof. intros (A & _ & _ & L). destruct f; [unfold zlen in L; simpl in L; lia|]. simpl in A. subst. eauto. Qed.

Lemma app_inv_length {A} (a b c d : list A) : length a = length c -> a ++ b = c ++ d -> a = c /\ b = d.
Proof.
  revert c. induction a as [|x a IH]; intros [|y c] L H; simpl in *; try lia; auto.
  injection H as -> H. destruct (IH c) as [-> ->]; auto.
Qed.

Lemma nth_byte l i : bytes l -> byte (nth i l 0).
Proof.
  intros B. destruct (Nat.lt_ge_cases i (length l)).
  - apply (proj1 (Forall_forall _ _) B). apply nth_In. auto.
  - rewrite nth_overflow by auto. unfold byte. lia.
Qed.

(* the five header bytes decide as the frame says *)
Lemma check_header_sync q f rest : rx_base q -> 5 <= pblen q <= 256 ->
  pending q = (if has_mark (fl q) then [255] else []) ++ f ++ rest ->
  f_shape (negb (pd_mode (fl q))) f ->
  check_header_bytes q = inr (zlen f + mark_len q).
Proof.
  intros (_ & _ & L & B) R P (F0 & F1 & F2 & F3).
  assert (G : forall i, 0 <= i < 4 -> getb (pbuf q) (mark_len q + i) = nth (Z.to_nat i) f 0).
  { intros i Hi. unfold getb.
    assert (M : mark_len q = if has_mark (fl q) then 1 else 0) by reflexivity.
    rewrite <- (nth_firstn (Z.to_nat (pblen q)) (Z.to_nat (mark_len q + i)) (pbuf q)) by (destruct (has_mark (fl q)); lia).
    rewrite <- (app_nth1 _ (rb_contents (rb q))) by (rewrite firstn_length; destruct (has_mark (fl q)); lia).
    fold (pending q). rewrite P. rewrite M. destruct (has_mark (fl q)).
    - rewrite app_nth2 by (simpl; lia). simpl length. rewrite app_nth1 by (unfold zlen in *; lia). f_equal. lia.
    - simpl app. rewrite app_nth1 by (unfold zlen in *; lia). reflexivity. }
  unfold check_header_bytes. cbv zeta. rewrite !G by lia.
  change (Z.to_nat 0) with 0%nat. change (Z.to_nat 1) with 1%nat. change (Z.to_nat 2) with 2%nat. change (Z.to_nat 3) with 3%nat.
  rewrite F0. change (83 =? PKT_SOM) with true. cbn [negb].
  assert (T : Z.testbit (nth 1 f 0) 7 = negb (pd_mode (fl q))).
  { unfold f_reply in F1. rewrite <- F1. rewrite testbit_div by lia. change (2 ^ 7) with 128.
    assert (Bq : byte (nth 1 f 0)).
    { change 1%nat with (Z.to_nat 1). rewrite <- (G 1) by lia. apply nth_byte; auto. }
    unfold byte in Bq. lia. }
  rewrite T. unfold f_len in F2. unfold PBUF_SIZE.
  assert (((negb (pd_mode (fl q)) && negb (negb (pd_mode (fl q)))) || (pd_mode (fl q) && negb (pd_mode (fl q)))) = false) as ->
    by (destruct (pd_mode (fl q)); reflexivity).
  assert (((nth 3 f 0 * 256 + nth 2 f 0 >? 256) || (nth 3 f 0 * 256 + nth 2 f 0 <? 6)) = false) as -> by lia.
  f_equal. lia.
Qed.

Lemma receive_frame e p noise mk f rest : rx_wf p -> rx_sync p -> Forall bytes (e_rx e) ->
  arrived e p = noise ++ mk ++ f ++ rest -> ~ In 83 noise -> mk = [] \/ mk = [255] ->
  f_shape (negb (pd_mode (fl p))) f -> zlen f <= 255 ->
  exists q, check_packet e p = Ok (check_packet_bytes q f) /\ frame_of q = f /\ got_frame e p q /\
            rb_contents (rb q) = rest /\ rx_sync q.
Proof.
  intros W Y He A N M F L.
  destruct (shape_som _ _ F) as (ft & Ef).
  assert (NM : ~ In 83 mk) by (destruct M; subst mk; simpl; intuition lia).
  assert (K : forall noise' q, rxcore q = rxcore p -> rx_sync q -> 0 < pblen q -> arrived e p = noise' ++ pending q -> ~ In 83 noise' ->
     pending q = (if has_mark (fl q) then [255] else []) ++ f ++ rest /\ f_shape (negb (pd_mode (fl q))) f).
  { intros noise' q C S P E N'. destruct (S P) as (S1 & t & S2). rewrite A, S2, Ef in E. cbn [app] in E.
    apply first_som in E as [E _]; auto using mark_no_som.
    split; [rewrite S2, Ef; cbn [app]; congruence|]. rewrite (rxcore_pd_mode p q C). auto. }
  destruct (check_packet_cases e p W He) as
    [(X & q & C & P & HM & H & Pq & (noise' & E & _ & N' & _) & S & P5 & Bq)|[(q & k & X & G & S & HK)|(q & X & G & S & noise' & E & N' & _)]].
  - destruct (K noise' q C (S Y) ltac:(lia) E N') as [K1 K2].
    rewrite (check_header_sync q f rest Bq ltac:(lia) K1 K2) in H. injection H as H. unfold mark_len in H. rewrite HM in H. lia.
  - exfalso. destruct G as (C & W2 & T & (noise' & E & N' & _) & G).
    assert (W3 : rx_base q) by apply W2.
    destruct k; try contradiction.
    + destruct (K noise' q C (S Y) ltac:(lia) E N') as [K1 K2].
      rewrite (check_header_sync q f rest W3 ltac:(lia) K1 K2) in HK. specialize (HK (or_introl eq_refl)). discriminate.
    + destruct G as (G1 & G2 & G3).
      destruct (K noise' q C (S Y) G1 E N') as [K1 K2].
      assert (PL : zlen (pending q) <= pblen q).
      { unfold pending. rewrite G2, app_nil_r. unfold zlen. rewrite firstn_length. lia. }
      rewrite K1, !zlen_app in PL. pose proof (zlen_nonneg rest) as Zr.
      assert (ML : zlen (if has_mark (fl q) then [255] else []) = mark_len q) by (unfold mark_len; destruct (has_mark (fl q)); reflexivity).
      destruct F as (_ & _ & _ & F).
      destruct W2 as [_ [[F1 F2]|(F1 & F2 & F3)]]; [destruct G3; unfold mark_len in ML; destruct (has_mark (fl q)); lia|].
      rewrite (check_header_sync q f rest W3 ltac:(lia) K1 K2) in F3. injection F3 as F3. lia.
    + destruct (K noise' q C (S Y) ltac:(lia) E N') as [K1 K2].
      rewrite (check_header_sync q f rest W3 ltac:(lia) K1 K2) in HK. specialize (HK (or_intror eq_refl)). discriminate.
    + destruct G as [G1 _]. rewrite G1, app_nil_r in E. rewrite <- E, A, Ef in N'.
      apply N'. apply in_app_iff. right. apply in_app_iff. right. left. auto.
  - exists q. pose proof G as (C & W2 & T & E1 & E2 & _ & G1 & G2).
    destruct (K noise' q C (S Y) ltac:(lia) E N') as [K1 K2].
    destruct (frame_in_pending q (proj1 W2) E1 E2) as (m2 & P & P1 & P2).
    rewrite K1 in P.
    assert (H : zlen f + mark_len q = plen q).
    { destruct W2 as [B [F1|(_ & F2 & F3)]]; [lia|].
      rewrite (check_header_sync q f rest B ltac:(lia) K1 K2) in F3. congruence. }
    assert (Lm : length (if has_mark (fl q) then [255] else []) = length m2).
    { unfold mark_len, zlen in P1. destruct (has_mark (fl q)); simpl; lia. }
    apply app_inv_length in P as [_ P]; auto.
    apply app_inv_length in P as [P3 P4]; [|unfold zlen in *; lia].
    rewrite <- P3 in X. split; [auto|]. split; [auto|]. split; [auto|]. split; auto.
Qed.
