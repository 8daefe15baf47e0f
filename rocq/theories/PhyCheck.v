(** The integrity test of the packet layer expressed with the specifications of SpecCrc.v. *)
From Verif Require Import Base ListLemmas Crc SpecCrc CrcProofs CrcBurst Aes Rb Types Sc Phy.
Ltac Zify.zify_post_hook ::= Z.div_mod_to_equations.

Lemma split_last2 (b : list Z) : (2 <= length b)%nat ->
  b = firstn (length b - 2) b ++ [nth (length b - 2) b 0; nth (length b - 1) b 0].
Proof.
  intros H. rewrite <- (firstn_skipn (length b - 2) b) at 1. f_equal.
  apply (list_eq_nth 0).
  - rewrite skipn_length. simpl. lia.
  - intros i Hi. rewrite skipn_length in Hi. rewrite nth_skipn.
    destruct i as [|[|i]]; [| |lia]; simpl; f_equal; lia.
Qed.

Lemma check_crc_crc b : bytes b -> (2 <= length b)%nat -> ctl_crc (getb b 4) = true ->
  (check_crc b <> None <-> crc_valid b).
Proof.
  intros B Hl Hc. unfold check_crc. rewrite Hc. cbv zeta.
  assert (En : Z.to_nat (zlen b - 2) = (length b - 2)%nat) by (unfold zlen; lia).
  rewrite En. unfold getb. rewrite En.
  replace (Z.to_nat (zlen b - 2 + 1)) with (length b - 1)%nat by (unfold zlen; lia).
  assert (Bf : bytes (firstn (length b - 2) b)) by (apply bytes_firstn; auto).
  rewrite compute_crc16_textbook by auto.
  destruct (Z.eqb_spec (textbook_crc 7439 (firstn (length b - 2) b))
              (nth (length b - 1) b 0 * 256 + nth (length b - 2) b 0)) as [E|E].
  - split; [intros _|congruence].
    eexists _, _, _. split; [apply split_last2; auto|]. lia.
  - split; [congruence|]. intros (body & lo & hi & Eb & Ev) _. apply E.
    assert (El : length b = (length body + 2)%nat) by (rewrite Eb, app_length; simpl; lia).
    replace (length b - 2)%nat with (length body) by lia.
    replace (length b - 1)%nat with (length body + 1)%nat by lia.
    rewrite Eb. destruct (nth_app_at body 0 lo hi) as [-> ->].
    rewrite firstn_app_exact by auto. lia.
Qed.

Lemma bsum_foldr l : bsum l = fold_right Z.add 0 l.
Proof.
  induction l as [|x l IH]; [reflexivity|].
  change (x :: l) with ([x] ++ l). rewrite bsum_app, IH. unfold bsum. simpl. lia.
Qed.

Lemma split_last1 (b : list Z) : (1 <= length b)%nat ->
  b = firstn (length b - 1) b ++ [nth (length b - 1) b 0].
Proof.
  intros H. rewrite <- (firstn_skipn (length b - 1) b) at 1. f_equal.
  apply (list_eq_nth 0).
  - rewrite skipn_length. simpl. lia.
  - intros i Hi. rewrite skipn_length in Hi. rewrite nth_skipn.
    destruct i as [|i]; [|lia]; simpl; f_equal; lia.
Qed.

Lemma check_crc_sum b : bytes b -> (1 <= length b)%nat -> ctl_crc (getb b 4) = false ->
  (check_crc b <> None <-> sum_valid b).
Proof.
  intros B Hl Hc. unfold check_crc. rewrite Hc. cbv zeta.
  assert (En : Z.to_nat (zlen b - 1) = (length b - 1)%nat) by (unfold zlen; lia).
  rewrite En. unfold getb. rewrite En.
  rewrite checksum_eq.
  assert (Bl : byte (nth (length b - 1) b 0)) by (apply bytes_nth; auto).
  assert (Es : fold_right Z.add 0 b = bsum (firstn (length b - 1) b) + nth (length b - 1) b 0).
  { rewrite <- bsum_foldr. rewrite (split_last1 b Hl) at 1. rewrite bsum_app.
    reflexivity. }
  unfold sum_valid. rewrite Es.
  destruct (Z.eqb_spec ((- bsum (firstn (length b - 1) b)) mod 256) (nth (length b - 1) b 0)) as [E|E].
  - split; [intros _|congruence]. split; [destruct b; simpl in *; [lia|discriminate]|].
    rewrite <- E. lia.
  - split; [congruence|]. intros [_ H] _. apply E. unfold byte in Bl. lia.
Qed.

Lemma checksum_completes b : bytes b -> b <> [] -> sum_valid (b ++ [compute_checksum b]).
Proof.
  intros B Hne. split; [destruct b; discriminate|].
  rewrite <- bsum_foldr, bsum_app, checksum_eq. unfold bsum at 2. simpl. lia.
Qed.

Lemma sum_one_off m1 m2 : bytes m1 -> bytes m2 -> sum_valid m1 -> one_byte_off m1 m2 -> ~ sum_valid m2.
Proof.
  intros B1 B2 [_ H1] (pre & x & y & post & -> & -> & Hne) [_ H2].
  apply bytes_app in B1, B2. destruct B1 as [_ B1], B2 as [_ B2].
  apply Forall_cons_iff in B1, B2. destruct B1 as [X _], B2 as [Y _].
  rewrite <- bsum_foldr in H1, H2. rewrite bsum_app in H1, H2.
  change (x :: post) with ([x] ++ post) in H1. change (y :: post) with ([y] ++ post) in H2.
  rewrite bsum_app in H1, H2. unfold bsum at 2 in H1. unfold bsum at 2 in H2. simpl in H1, H2.
  unfold byte in *. lia.
Qed.

Lemma sum_one_off_packet b1 b2 : bytes b1 -> bytes b2 ->
  ctl_crc (getb b1 4) = false -> ctl_crc (getb b2 4) = false ->
  check_crc b1 <> None -> one_byte_off b1 b2 -> check_crc b2 = None.
Proof.
  intros B1 B2 C1 C2 V1 O.
  assert (L1 : (1 <= length b1)%nat).
  { destruct O as (pre & x & y & post & -> & _). rewrite app_length. simpl. lia. }
  assert (L2 : (1 <= length b2)%nat).
  { destruct O as (pre & x & y & post & _ & -> & _). rewrite app_length. simpl. lia. }
  apply check_crc_sum in V1; auto.
  destruct (check_crc b2) eqn:E; auto. exfalso.
  apply (sum_one_off b1 b2); auto. apply check_crc_sum; auto. congruence.
Qed.

Lemma crc_burst_packet b1 b2 pos len : bytes b1 -> bytes b2 -> (2 <= length b1)%nat ->
  ctl_crc (getb b1 4) = true -> ctl_crc (getb b2 4) = true ->
  check_crc b1 <> None -> b1 <> b2 -> burst pos len b1 b2 ->
  (len <= 14 \/ (len <= 16 /\ pos + len <= 8 * (length b1 - 2)) \/ 8 * (length b1 - 2) <= pos)%nat ->
  check_crc b2 = None.
Proof.
  intros B1 B2 L1 C1 C2 V1 Hne Hb Hc.
  assert (L2 : (2 <= length b2)%nat) by (destruct Hb as [<- _]; auto).
  apply check_crc_crc in V1; auto.
  destruct (check_crc b2) eqn:E; auto. exfalso. apply Hne.
  assert (V2 : crc_valid b2) by (apply check_crc_crc; auto; congruence).
  destruct Hc as [Hc|[[Hc1 Hc2]|Hc]].
  - eapply (burst_main pos len); eauto; lia.
  - eapply (burst_main pos len); eauto.
  - eapply (burst_trailer pos len); eauto.
Qed.
