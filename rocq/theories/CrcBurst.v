(** Burst error detection (C03) and checksum (C04). *)
From Verif Require Import Base ListLemmas XorLin Crc SpecCrc CrcProofs.
From Coq Require Import Btauto.
Ltac Zify.zify_post_hook ::= Z.div_mod_to_equations.

Lemma nth_bits_wire b j : (j < 8)%nat -> nth j (bits_wire b) false = Z.testbit b (Z.of_nat j).
Proof. intros. do 8 (destruct j as [|j]; [reflexivity|]). lia. Qed.

Lemma nth_wire m : forall k j, (j < 8)%nat ->
  nth (8 * k + j) (wire m) false = Z.testbit (nth k m 0) (Z.of_nat j).
Proof.
  unfold wire. induction m as [|b m IH]; intros k j Hj.
  - cbn [flat_map]. destruct k; destruct (8 * _ + j)%nat; simpl nth; now rewrite Z.bits_0.
  - cbn [flat_map]. destruct k.
    + rewrite app_nth1; [|simpl; lia]. replace (8 * 0 + j)%nat with j by lia.
      rewrite nth_bits_wire by auto. reflexivity.
    + rewrite app_nth2; [|simpl length; lia].
      change (length (bits_wire b)) with 8%nat.
      replace (8 * S k + j - 8)%nat with (8 * k + j)%nat by lia.
      rewrite IH by auto. reflexivity.
Qed.

Lemma nth_xorl a b k : length a = length b ->
  nth k (xorl a b) 0 = Z.lxor (nth k a 0) (nth k b 0).
Proof.
  revert b k. induction a as [|x a IH]; intros [|y b] k E; simpl in E; try lia.
  - destruct k; reflexivity.
  - destruct k; simpl; auto.
Qed.

Lemma byte_zero_bits x : byte x -> (forall j, (j < 8)%nat -> Z.testbit x (Z.of_nat j) = false) -> x = 0.
Proof.
  intros Hx H. apply Z.bits_inj'; intros n Hn. rewrite Z.bits_0.
  destruct (Z.lt_ge_cases n 8).
  - rewrite <- (Z2Nat.id n) by lia. apply H. lia.
  - apply (bits_above x 8); [lia|exact Hx].
Qed.

(* the error bytes a b c, in this order, stay inside a window of len bits that starts in a *)
Definition fits (r len : nat) (a b c : Z) : bool :=
  forallb (fun j => negb (Z.testbit a (Z.of_nat j)) || negb (Nat.ltb j r)) (seq 0 8) &&
  forallb (fun j => negb (Z.testbit b (Z.of_nat j)) || Nat.ltb (8 + j) (r + len)) (seq 0 8) &&
  forallb (fun j => negb (Z.testbit c (Z.of_nat j)) || Nat.ltb (16 + j) (r + len)) (seq 0 8).

Lemma burst_fits pos len m1 m2 : (len <= 16)%nat -> burst pos len m1 m2 -> bytes m1 -> bytes m2 ->
  let e := xorl m1 m2 in let i := (pos / 8)%nat in
  (forall k, (k < i \/ i + 3 <= k)%nat -> nth k e 0 = 0) /\
  fits (pos mod 8) len (nth i e 0) (nth (i + 1) e 0) (nth (i + 2) e 0) = true.
Proof.
  intros Hl [E Hb] B1 B2 e i.
  assert (Be : bytes e) by (apply bytes_xorl; auto).
  assert (Hbit : forall k j, (j < 8)%nat -> (8 * k + j < pos \/ pos + len <= 8 * k + j)%nat ->
            Z.testbit (nth k e 0) (Z.of_nat j) = false).
  { intros k j Hj Ho. specialize (Hb _ Ho). rewrite !nth_wire in Hb by auto.
    subst e. rewrite nth_xorl by auto. rewrite Z.lxor_spec, Hb. apply xorb_nilpotent. }
  pose proof (Nat.div_mod pos 8 ltac:(lia)) as Hd. pose proof (Nat.mod_upper_bound pos 8 ltac:(lia)).
  fold i in Hd. split.
  - intros k Hk. apply byte_zero_bits; [apply bytes_nth; auto|].
    intros j Hj. apply Hbit; auto. lia.
  - unfold fits. rewrite !andb_true_iff, !forallb_forall. repeat split; intros j Hj; apply in_seq in Hj.
    + destruct (Nat.ltb_spec j (pos mod 8)); [|now rewrite orb_true_r].
      rewrite Hbit by lia. reflexivity.
    + destruct (Nat.ltb_spec (8 + j) (pos mod 8 + len)); [now rewrite orb_true_r|].
      rewrite Hbit by lia. reflexivity.
    + destruct (Nat.ltb_spec (16 + j) (pos mod 8 + len)); [now rewrite orb_true_r|].
      rewrite Hbit by lia. reflexivity.
Qed.

Lemma fits_mono r len len' a b c : (len <= len')%nat -> fits r len a b c = true -> fits r len' a b c = true.
Proof.
  unfold fits. rewrite !andb_true_iff, !forallb_forall. intros Hl [[H1 H2] H3].
  repeat split; intros j Hj; auto.
  - specialize (H2 j Hj). rewrite orb_true_iff in *. destruct H2 as [H2|H2]; auto.
    right. apply Nat.ltb_lt in H2. apply Nat.ltb_lt. lia.
  - specialize (H3 j Hj). rewrite orb_true_iff in *. destruct H3 as [H3|H3]; auto.
    right. apply Nat.ltb_lt in H3. apply Nat.ltb_lt. lia.
Qed.

(* CRC register on error patterns *)
Definition L (e : list Z) : Z := crc16_itu_t 0 e.

Lemma crc_step_0_0 : crc_step 0 0 = 0.
Proof. reflexivity. Qed.

Lemma crc_step_s0 s : w16 s -> crc_step s 0 = 0 -> s = 0.
Proof.
  intros Hs H. rewrite crc_step_eq, Z.lxor_0_r in H by auto.
  assert (Hc : cswap s = 0).
  { rewrite <- (cG_cF (cswap s)) by (apply w16_cswap; auto). rewrite H. reflexivity. }
  unfold cswap in Hc. rewrite land65535, Z.shiftr_div_pow2, Z.shiftl_mul_pow2 in Hc by lia.
  apply lxor_eq_0 in Hc. change (2 ^ 8) with 256 in Hc. unfold w16 in Hs.
  assert (s / 256 < 256) by lia.
  assert ((s * 256) mod 65536 = 256 * (s mod 256)).
  { rewrite Z.mul_comm. change 65536 with (256 * 256). rewrite Z.mul_mod_distr_l by lia. reflexivity. }
  lia.
Qed.

Lemma crc_zeros t : forall s, w16 s -> (forall k, nth k t 0 = 0) -> crc16_itu_t s t = 0 -> s = 0.
Proof.
  induction t as [|x t IH]; intros s Hs Hz H; [exact H|].
  assert (x = 0) by (exact (Hz 0%nat)). subst x.
  unfold crc16_itu_t in *. cbn [fold_left] in H.
  apply IH in H; [apply crc_step_s0; auto| |intros k; exact (Hz (S k))].
  apply w16_crc_step; auto. apply byte_0.
Qed.

Lemma L_skip l : forall i, (forall k, (k < i)%nat -> nth k l 0 = 0) -> L l = L (skipn i l).
Proof.
  unfold L. induction l as [|x l IH]; intros i H.
  - now rewrite skipn_nil.
  - destruct i; [reflexivity|]. assert (x = 0) by (apply (H 0%nat); lia). subst x.
    cbn [skipn]. unfold crc16_itu_t. cbn [fold_left]. rewrite crc_step_0_0. apply IH.
    intros k Hk. apply (H (S k)). lia.
Qed.

Definition T (a : Z) : Z := crc_step 0 a.

(* finite sweeps over single byte errors *)
Definition zrange (n : nat) : list Z := map Z.of_nat (seq 0 n).

Lemma in_zrange x n : 0 <= x < Z.of_nat n -> In x (zrange n).
Proof.
  intros. unfold zrange. apply in_map_iff. exists (Z.to_nat x). split; [lia|]. apply in_seq. lia.
Qed.

Definition sweep3 : bool :=
  forallb (fun a => (a =? 0) || forallb (fun r => negb (fits r 16 a (T a / 256) (T a mod 256)))
                                         (seq 0 8)) (zrange 256).
Lemma sweep3_ok : sweep3 = true.
Proof. vm_compute. reflexivity. Qed.

Definition sweep1 : bool :=
  forallb (fun a => (a =? 0) || forallb (fun r => negb (fits r 14 a (T a mod 256) (T a / 256)))
                                         (seq 0 8)) (zrange 256).
Lemma sweep1_ok : sweep1 = true.
Proof. vm_compute. reflexivity. Qed.

(* errors a, b in the last two covered bytes and c in the low CRC byte, window of 14 bits *)
Definition sweep2 : bool :=
  forallb (fun r =>
    forallb (fun k => let a := k * 2 ^ Z.of_nat r in
      let h := cswap (T a) / 256 in
      forallb (fun c => ((a =? 0) && (c =? 0)) || negb (cG c / 256 =? h))
              (zrange (2 ^ (r - 2))))
      (zrange (2 ^ (8 - r)))) (seq 0 8).
Lemma sweep2_ok : sweep2 = true.
Proof. vm_compute. reflexivity. Qed.

Lemma lxor_div256 x b : byte b -> Z.lxor x b / 256 = x / 256.
Proof.
  intros. change 256 with (2 ^ 8). rewrite <- !Z.shiftr_div_pow2 by lia. rewrite shiftr_lxor.
  replace (Z.shiftr b 8) with 0; [apply Z.lxor_0_r|].
  rewrite Z.shiftr_div_pow2 by lia. change (2 ^ 8) with 256. unfold byte in *. lia.
Qed.

Lemma lxor_mod256 x b : (Z.lxor x b) mod 256 = Z.lxor (x mod 256) (b mod 256).
Proof. change 256 with (2 ^ 8). apply mod_lxor. lia. Qed.

Lemma le_lxor lo hi : byte lo -> byte hi -> lo + 256 * hi = Z.lxor lo (Z.shiftl hi 8).
Proof.
  intros H1 H2. rewrite Z.lxor_lor, <- Z.add_nocarry_lxor || idtac.
  - rewrite <- Z.add_nocarry_lxor.
    + rewrite Z.shiftl_mul_pow2 by lia. change (2 ^ 8) with 256. lia.
    + apply Z.bits_inj'; intros n Hn. rewrite Z.land_spec, Z.bits_0, Z.shiftl_spec by lia.
      destruct (Z.lt_ge_cases n 8).
      * rewrite (Z.testbit_neg_r hi) by lia. apply andb_false_r.
      * rewrite (bits_above lo 8) by (auto; lia). reflexivity.
Qed.

Lemma le_lxor2 a b c d : byte a -> byte b -> byte c -> byte d ->
  Z.lxor (a + 256 * b) (c + 256 * d) = Z.lxor a c + 256 * Z.lxor b d.
Proof.
  intros. rewrite !le_lxor by (auto using byte_lxor). rewrite Z.shiftl_lxor. xor_ac.
Qed.

Lemma w16_T a : byte a -> w16 (T a).
Proof. intros. apply w16_crc_step; auto using w16_0. Qed.

Lemma low_bits_zero r a : byte a -> (r <= 8)%nat ->
  (forall j, (j < r)%nat -> Z.testbit a (Z.of_nat j) = false) ->
  exists k, a = k * 2 ^ Z.of_nat r /\ 0 <= k < 2 ^ Z.of_nat (8 - r).
Proof.
  intros Ha Hr H. exists (a / 2 ^ Z.of_nat r).
  assert (Hp : 0 < 2 ^ Z.of_nat r) by (apply Z.pow_pos_nonneg; lia).
  assert (Hm : a mod 2 ^ Z.of_nat r = 0).
  { apply Z.bits_inj'; intros n Hn. rewrite Z.bits_0. destruct (Z.lt_ge_cases n (Z.of_nat r)).
    - rewrite Z.mod_pow2_bits_low by lia. rewrite <- (Z2Nat.id n) by lia. apply H. lia.
    - apply Z.mod_pow2_bits_high. lia. }
  pose proof (Z.div_mod a (2 ^ Z.of_nat r) ltac:(lia)).
  split; [lia|]. split; [apply Z.div_pos; unfold byte in Ha; lia|].
  apply Z.div_lt_upper_bound; [lia|].
  rewrite <- Z.pow_add_r by lia. replace (Z.of_nat r + Z.of_nat (8 - r)) with 8 by lia.
  unfold byte in Ha. change (2 ^ 8) with 256. lia.
Qed.

Lemma high_bits_zero n c : byte c -> (n <= 8)%nat ->
  (forall j, (n <= j < 8)%nat -> Z.testbit c (Z.of_nat j) = false) -> c < 2 ^ Z.of_nat n.
Proof.
  intros Hc Hn H.
  assert (Hp : 0 < 2 ^ Z.of_nat n) by (apply Z.pow_pos_nonneg; lia).
  assert (Hm : c = c mod 2 ^ Z.of_nat n).
  { apply Z.bits_inj'; intros k Hk. destruct (Z.lt_ge_cases k (Z.of_nat n)).
    - rewrite Z.mod_pow2_bits_low by lia. reflexivity.
    - rewrite Z.mod_pow2_bits_high by lia. destruct (Z.lt_ge_cases k 8).
      + rewrite <- (Z2Nat.id k) by lia. apply H. lia.
      + apply (bits_above c 8); [lia|exact Hc]. }
  rewrite Hm. apply Z.mod_pos_bound. lia.
Qed.

Lemma case1 r a b c : (r < 8)%nat -> byte a -> byte b -> byte c ->
  fits r 14 a b c = true -> T a = b + 256 * c -> a = 0 /\ b = 0 /\ c = 0.
Proof.
  intros Hr Ha Hb Hc Hf E.
  assert (Hb' : b = T a mod 256) by (unfold byte in *; lia).
  assert (Hc' : c = T a / 256) by (unfold byte in *; lia).
  pose proof sweep1_ok as S. unfold sweep1 in S. rewrite forallb_forall in S.
  specialize (S a (in_zrange a 256 Ha)). apply orb_true_iff in S. destruct S as [S|S].
  - apply Z.eqb_eq in S. subst a. change (T 0) with 0 in *. unfold byte in *. lia.
  - rewrite forallb_forall in S. specialize (S r ltac:(apply in_seq; lia)).
    rewrite <- Hb', <- Hc' in S. rewrite Hf in S. discriminate.
Qed.

Lemma case2 r a b c : (r < 8)%nat -> byte a -> byte b -> byte c ->
  fits r 14 a b c = true -> crc_step (T a) b = c -> a = 0 /\ b = 0 /\ c = 0.
Proof.
  intros Hr Ha Hb Hc Hf E.
  rewrite crc_step_eq in E by (apply w16_T; auto).
  assert (Hx : Z.lxor (cswap (T a)) b = cG c).
  { rewrite <- E, cG_cF; auto. apply w16_lxor; [apply w16_cswap, w16_T; auto|apply byte_w16; auto]. }
  assert (Hh : cswap (T a) / 256 = cG c / 256) by (rewrite <- Hx, lxor_div256; auto).
  unfold fits in Hf. rewrite !andb_true_iff, !forallb_forall in Hf. destruct Hf as [[F1 F2] F3].
  destruct (low_bits_zero r a) as (k & Hk & Hk2); auto; [lia| |].
  { intros j Hj. specialize (F1 j ltac:(apply in_seq; lia)).
    destruct (Nat.ltb_spec j r); [|lia]. simpl negb in F1. rewrite orb_false_r in F1.
    now apply negb_true_iff in F1. }
  assert (Hcb : c < 2 ^ Z.of_nat (r - 2)).
  { apply high_bits_zero; auto; [lia|]. intros j Hj.
    specialize (F3 j ltac:(apply in_seq; lia)).
    destruct (Nat.ltb_spec (16 + j) (r + 14)); [lia|]. rewrite orb_false_r in F3.
    now apply negb_true_iff in F3. }
  pose proof sweep2_ok as S. unfold sweep2 in S. rewrite forallb_forall in S.
  specialize (S r ltac:(apply in_seq; lia)). rewrite forallb_forall in S.
  specialize (S k ltac:(apply in_zrange; rewrite Nat2Z.inj_pow; exact Hk2)).
  cbv zeta in S. rewrite forallb_forall in S.
  specialize (S c ltac:(apply in_zrange; rewrite Nat2Z.inj_pow; unfold byte in Hc;
     change (Z.of_nat 2) with 2; lia)).
  rewrite <- Hk in S. apply orb_true_iff in S. destruct S as [S|S].
  - apply andb_true_iff in S. destruct S as [S1 S2]. apply Z.eqb_eq in S1, S2. rewrite S1, S2 in Hx.
    repeat split; auto.
  - apply negb_true_iff, Z.eqb_neq in S. congruence.
Qed.

Lemma crc_step_zero_inv s b : w16 s -> byte b -> crc_step s b = 0 -> s mod 256 = 0 /\ b = s / 256.
Proof.
  intros Hs Hb E. rewrite crc_step_eq in E by auto.
  assert (Hx : Z.lxor (cswap s) b = 0).
  { rewrite <- (cG_cF (Z.lxor (cswap s) b)) by
      (apply w16_lxor; [apply w16_cswap; auto|apply byte_w16; auto]). rewrite E. reflexivity. }
  apply lxor_eq_0 in Hx. unfold cswap in Hx.
  rewrite land65535, Z.shiftr_div_pow2, Z.shiftl_mul_pow2 in Hx by lia.
  change (2 ^ 8) with 256 in Hx. unfold w16 in Hs.
  assert (Hm : (s * 256) mod 65536 = 256 * (s mod 256)).
  { rewrite Z.mul_comm. change 65536 with (256 * 256). rewrite Z.mul_mod_distr_l by lia. reflexivity. }
  rewrite Hm in Hx.
  replace (256 * (s mod 256)) with (0 + 256 * (s mod 256)) in Hx by lia.
  replace (s / 256) with (s / 256 + 256 * 0) in Hx at 1 by lia.
  rewrite le_lxor2 in Hx by (unfold byte; lia).
  rewrite Z.lxor_0_r, Z.lxor_0_l in Hx. unfold byte in Hb. lia.
Qed.

Lemma case3 r a b c : (r < 8)%nat -> byte a -> byte b -> byte c ->
  fits r 16 a b c = true -> crc_step (crc_step (T a) b) c = 0 -> a = 0 /\ b = 0 /\ c = 0.
Proof.
  intros Hr Ha Hb Hc Hf E.
  apply crc_step_zero_inv in E; auto; [|apply w16_crc_step; auto; apply w16_T; auto].
  destruct E as [E1 E2].
  (* the register after two bytes is c in the high byte and 0 in the low byte *)
  set (s := crc_step (T a) b) in *.
  assert (Hs : w16 s) by (apply w16_crc_step; auto; apply w16_T; auto).
  assert (Hs' : s = 256 * c) by lia.
  assert (Hcf : cF (256 * c) = 256 * c).
  { clear -Hc. apply (additive_ext 8 (fun c => cF (256 * c)) (fun c => 256 * c)).
    - intros x y Hx Hy.
      assert (E : forall x, 256 * x = Z.shiftl x 8)
        by (intros; rewrite Z.shiftl_mul_pow2 by lia; change (2 ^ 8) with 256; lia).
      rewrite !E, Z.shiftl_lxor, cF_lxor. reflexivity.
    - intros x y Hx Hy.
      assert (E : forall x, 256 * x = Z.shiftl x 8)
        by (intros; rewrite Z.shiftl_mul_pow2 by lia; change (2 ^ 8) with 256; lia).
      rewrite !E, Z.shiftl_lxor. reflexivity.
    - reflexivity.
    - exact Hc. }
  unfold s in Hs'. rewrite crc_step_eq in Hs' by (apply w16_T; auto).
  assert (Hx : Z.lxor (cswap (T a)) b = 256 * c).
  { rewrite <- (cG_cF (Z.lxor (cswap (T a)) b)).
    - rewrite Hs'. rewrite <- Hcf at 1. apply cG_cF. unfold w16, byte in *; lia.
    - apply w16_lxor; [apply w16_cswap, w16_T; auto|apply byte_w16; auto]. }
  pose proof (w16_T a Ha) as Ht. unfold cswap in Hx.
  rewrite land65535, Z.shiftr_div_pow2, Z.shiftl_mul_pow2 in Hx by lia.
  change (2 ^ 8) with 256 in Hx. unfold w16 in Ht.
  assert (Hm : (T a * 256) mod 65536 = 256 * (T a mod 256)).
  { rewrite Z.mul_comm. change 65536 with (256 * 256). rewrite Z.mul_mod_distr_l by lia. reflexivity. }
  rewrite Hm in Hx.
  replace (256 * (T a mod 256)) with (0 + 256 * (T a mod 256)) in Hx by lia.
  replace (T a / 256) with (T a / 256 + 256 * 0) in Hx at 1 by lia.
  rewrite le_lxor2 in Hx by (unfold byte; lia).
  replace b with (b + 256 * 0) in Hx by lia.
  rewrite Z.lxor_0_r, Z.lxor_0_l in Hx.
  rewrite le_lxor2 in Hx by (unfold byte in *; lia).
  rewrite Z.lxor_0_r in Hx.
  assert (Hl : Z.lxor (T a / 256) b = 0).
  { assert (byte (Z.lxor (T a / 256) b)) by (apply byte_lxor; auto; unfold byte; lia).
    unfold byte in *; lia. }
  assert (Hc' : T a mod 256 = c) by lia.
  apply lxor_eq_0 in Hl.
  pose proof sweep3_ok as S. unfold sweep3 in S. rewrite forallb_forall in S.
  specialize (S a (in_zrange a 256 Ha)). apply orb_true_iff in S. destruct S as [S|S].
  - apply Z.eqb_eq in S. subst a. change (T 0) with 0 in *. lia.
  - rewrite forallb_forall in S. specialize (S r ltac:(apply in_seq; lia)).
    rewrite Hl, Hc' in S. rewrite Hf in S. discriminate.
Qed.

Lemma xorl_zero_eq a : forall b, length a = length b -> (forall k, nth k (xorl a b) 0 = 0) -> a = b.
Proof.
  induction a as [|x a IH]; intros [|y b] E H; simpl in E; try lia; auto.
  f_equal; [apply lxor_eq_0; exact (H 0%nat)|]. apply IH; [lia|]. intros k. exact (H (S k)).
Qed.

Lemma xorl_app a b c d : length a = length c -> xorl (a ++ b) (c ++ d) = xorl a c ++ xorl b d.
Proof.
  revert c; induction a as [|x a IH]; intros [|y c] E; simpl in E; try lia; auto.
  simpl. f_equal. apply IH. lia.
Qed.

(* the error pattern of two valid messages is a code word of the linear code *)
Lemma error_codeword body1 lo1 hi1 body2 lo2 hi2 :
  length body1 = length body2 ->
  bytes (body1 ++ [lo1; hi1]) -> bytes (body2 ++ [lo2; hi2]) ->
  textbook_crc 7439 body1 = lo1 + 256 * hi1 -> textbook_crc 7439 body2 = lo2 + 256 * hi2 ->
  L (xorl body1 body2) = Z.lxor lo1 lo2 + 256 * Z.lxor hi1 hi2.
Proof.
  intros E B1 B2 H1 H2. apply bytes_app in B1, B2. destruct B1 as [B1 T1], B2 as [B2 T2].
  inv T1. inv H4. inv T2. inv H7.
  rewrite <- le_lxor2, <- H1, <- H2 by auto.
  rewrite <- !crc_is_textbook by (auto; unfold w16; lia).
  rewrite <- crc_lxor by (auto; unfold w16; lia). reflexivity.
Qed.

Lemma nth_app_at {A} (l : list A) (d x y : A) :
  nth (length l) (l ++ [x; y]) d = x /\ nth (length l + 1) (l ++ [x; y]) d = y.
Proof.
  split; rewrite app_nth2 by lia; [rewrite Nat.sub_diag; reflexivity|].
  replace (length l + 1 - length l)%nat with 1%nat by lia. reflexivity.
Qed.

Lemma all_zero_skip i l : (forall k, (k < i)%nat -> nth k l 0 = 0) ->
  (forall k, nth k (skipn i l) 0 = 0) -> forall k, nth k l 0 = 0.
Proof.
  intros H1 H2 k. destruct (Nat.lt_ge_cases k i); auto.
  replace k with (i + (k - i))%nat by lia. rewrite <- nth_skipn. auto.
Qed.

(* code words that are a short burst are zero *)
Lemma codeword_zero ep lo hi i r : bytes ep -> byte lo -> byte hi -> (r < 8)%nat ->
  let e := ep ++ [lo; hi] in
  (forall k, (k < i \/ i + 3 <= k)%nat -> nth k e 0 = 0) ->
  fits r 16 (nth i e 0) (nth (i + 1) e 0) (nth (i + 2) e 0) = true ->
  fits r 14 (nth i e 0) (nth (i + 1) e 0) (nth (i + 2) e 0) = true \/ (lo = 0 /\ hi = 0) ->
  L ep = lo + 256 * hi ->
  forall k, nth k e 0 = 0.
Proof.
  intros Be Blo Bhi Hr e Hz Hf Hf14 HL.
  assert (Bee : bytes e) by (apply bytes_app; split; auto; bytes_cons; auto).
  assert (Hpre : forall k, (k < i)%nat -> nth k ep 0 = 0).
  { intros k Hk. destruct (Nat.lt_ge_cases k (length ep)).
    - pose proof (Hz k ltac:(lia)) as Hk0. unfold e in Hk0. now rewrite app_nth1 in Hk0 by lia.
    - apply nth_overflow; lia. }
  pose proof (nth_app_at ep 0 lo hi) as [Nlo Nhi]. fold e in Nlo, Nhi.
  rewrite (L_skip ep i Hpre) in HL.
  assert (Hn : forall j, (i + j < length ep)%nat -> nth (i + j) e 0 = nth j (skipn i ep) 0).
  { intros j Hj. rewrite nth_skipn. unfold e. now rewrite app_nth1 by lia. }
  assert (Hlen : length (skipn i ep) = (length ep - i)%nat) by apply skipn_length.
  assert (Fin : (forall k, nth k (skipn i ep) 0 = 0) -> lo = 0 -> hi = 0 -> forall k, nth k e 0 = 0).
  { intros H1 H2 H3 k. pose proof (all_zero_skip i ep Hpre H1) as Ha. unfold e. rewrite H2, H3.
    destruct (Nat.lt_ge_cases k (length ep)); [rewrite app_nth1 by lia; auto|].
    rewrite app_nth2 by lia. destruct (k - length ep)%nat as [|[|[|?]]]; reflexivity. }
  assert (Bs : bytes (skipn i ep)) by (apply bytes_skipn; auto).
  destruct (skipn i ep) as [|a [|b [|c t]]] eqn:Es; simpl in Hlen.
  - change (L []) with 0 in HL. apply Fin; [intros [|k]; reflexivity|unfold byte in *; lia..].
  - unfold L, crc16_itu_t in HL. cbn [fold_left] in HL. fold (T a) in HL.
    assert (Na : nth i e 0 = a) by (rewrite <- (Nat.add_0_r i); rewrite Hn by lia; reflexivity).
    assert (El : length ep = (i + 1)%nat) by lia.
    rewrite El in Nlo. rewrite El in Nhi. replace (i + 1 + 1)%nat with (i + 2)%nat in Nhi by lia.
    rewrite Na, Nlo, Nhi in Hf, Hf14. apply Forall_cons_iff in Bs. destruct Bs as [Ba Bs].
    assert (X : a = 0 /\ lo = 0 /\ hi = 0).
    { destruct Hf14 as [Hf14|[Hl0 Hh0]].
      - apply (case1 r); auto.
      - assert (a = 0); auto. rewrite Hl0, Hh0 in HL. change (0 + 256 * 0) with 0 in HL.
        unfold T in HL. apply crc_step_zero_inv in HL; auto using w16_0. apply HL. }
    destruct X as (Ha0 & Hlo & Hhi). apply Fin; auto. rewrite Ha0. intros [|[|k]]; reflexivity.
  - unfold L, crc16_itu_t in HL. cbn [fold_left] in HL. fold (T a) in HL.
    assert (Na : nth i e 0 = a) by (rewrite <- (Nat.add_0_r i); rewrite Hn by lia; reflexivity).
    assert (Nb : nth (i + 1) e 0 = b) by (rewrite Hn by lia; reflexivity).
    assert (El : length ep = (i + 2)%nat) by lia.
    rewrite El in Nlo. rewrite El in Nhi.
    rewrite (Hz (i + 2 + 1)%nat) in Nhi by lia. symmetry in Nhi.
    rewrite Na, Nb, Nlo in Hf, Hf14. apply Forall_cons_iff in Bs. destruct Bs as [Ba Bs].
    apply Forall_cons_iff in Bs. destruct Bs as [Bb Bs].
    rewrite Nhi in HL. replace (lo + 256 * 0) with lo in HL by lia.
    assert (X : a = 0 /\ b = 0 /\ lo = 0).
    { destruct Hf14 as [Hf14|[Hl0 _]].
      - apply (case2 r); auto.
      - rewrite Hl0 in Hf, HL. rewrite Hl0. apply (case3 r); auto using byte_0. rewrite HL. reflexivity. }
    destruct X as (Ha0 & Hb0 & Hlo). apply Fin; auto. rewrite Ha0, Hb0. intros [|[|[|k]]]; reflexivity.
  - assert (Na : nth i e 0 = a) by (rewrite <- (Nat.add_0_r i); rewrite Hn by lia; reflexivity).
    assert (Nb : nth (i + 1) e 0 = b) by (rewrite Hn by lia; reflexivity).
    assert (Nc : nth (i + 2) e 0 = c) by (rewrite Hn by lia; reflexivity).
    rewrite (Hz (length ep)) in Nlo by lia. rewrite (Hz (length ep + 1)%nat) in Nhi by lia.
    symmetry in Nlo, Nhi. rewrite Nlo, Nhi in HL. rewrite Na, Nb, Nc in Hf.
    assert (Ht : forall k, nth k t 0 = 0).
    { intros k. destruct (Nat.lt_ge_cases k (length t)); [|apply nth_overflow; lia].
      replace (nth k t 0) with (nth (3 + k) (a :: b :: c :: t) 0) by reflexivity.
      rewrite <- Hn by lia. apply Hz. lia. }
    apply Forall_cons_iff in Bs. destruct Bs as [Ba Bs]. apply Forall_cons_iff in Bs. destruct Bs as [Bb Bs].
    apply Forall_cons_iff in Bs. destruct Bs as [Bc Bs].
    unfold L, crc16_itu_t in HL. cbn [fold_left] in HL. fold (T a) in HL.
    apply (crc_zeros t) in HL; auto.
    2:{ repeat apply w16_crc_step; auto. apply w16_0. }
    apply (case3 r) in HL; auto. destruct HL as (Ha0 & Hb0 & Hc0).
    apply Fin; auto. rewrite Ha0, Hb0, Hc0. intros [|[|[|k]]]; simpl; auto.
Qed.

Lemma burst_main pos len m1 m2 : bytes m1 -> bytes m2 -> crc_valid m1 -> crc_valid m2 ->
  (len <= 16)%nat -> burst pos len m1 m2 ->
  (len <= 14)%nat \/ (pos + len <= 8 * (length m1 - 2))%nat ->
  m1 = m2.
Proof.
  intros B1 B2 (body1 & lo1 & hi1 & -> & V1) (body2 & lo2 & hi2 & -> & V2) Hl Hb Hc.
  pose proof Hb as [El _]. rewrite !app_length in El. simpl in El.
  assert (E : length body1 = length body2) by lia.
  pose proof (burst_fits pos len _ _ Hl Hb B1 B2) as [Hz Hf]. cbv zeta in Hz, Hf.
  pose proof (error_codeword _ _ _ _ _ _ E B1 B2 V1 V2) as HL.
  rewrite xorl_app in Hz, Hf by auto. cbn [xorl] in Hz, Hf.
  apply xorl_zero_eq; [rewrite !app_length; simpl; lia|].
  rewrite xorl_app by auto. cbn [xorl].
  bytes_inv.
  assert (Hlx : length (xorl body1 body2) = length body1) by (rewrite xorl_length; lia).
  eapply (codeword_zero (xorl body1 body2) (Z.lxor lo1 lo2) (Z.lxor hi1 hi2) (pos / 8) (pos mod 8));
    auto using byte_lxor, bytes_xorl.
  - apply Nat.mod_upper_bound. lia.
  - eapply fits_mono; eauto.
  - destruct Hc as [Hc|Hc]; [left; eapply fits_mono; eauto|right].
    rewrite app_length in Hc. simpl in Hc.
    assert (Hbit : forall k, (length body1 <= k)%nat ->
              nth k (body1 ++ [lo1; hi1]) 0 = nth k (body2 ++ [lo2; hi2]) 0).
    { intros k Hk. apply lxor_eq_0. rewrite <- nth_xorl by (rewrite !app_length; simpl; lia).
      apply byte_zero_bits.
      - apply bytes_nth, bytes_xorl; apply bytes_app; split; auto; bytes_cons; auto.
      - intros j Hj. destruct Hb as [_ Hb]. specialize (Hb (8 * k + j)%nat ltac:(lia)).
        rewrite !nth_wire in Hb by auto. rewrite nth_xorl by (rewrite !app_length; simpl; lia).
        rewrite Z.lxor_spec, Hb. apply xorb_nilpotent. }
    pose proof (nth_app_at body1 0 lo1 hi1) as [N1 N2].
    pose proof (nth_app_at body2 0 lo2 hi2) as [M1 M2].
    rewrite <- E in M1, M2.
    pose proof (Hbit (length body1) ltac:(lia)). pose proof (Hbit (length body1 + 1)%nat ltac:(lia)).
    assert (lo1 = lo2) by congruence. assert (hi1 = hi2) by congruence. subst.
    rewrite !Z.lxor_nilpotent. auto.
Qed.

Lemma burst_trailer pos len m1 m2 : crc_valid m1 -> crc_valid m2 -> bytes m1 -> bytes m2 ->
  burst pos len m1 m2 -> (8 * (length m1 - 2) <= pos)%nat -> m1 = m2.
Proof.
  intros (body1 & lo1 & hi1 & -> & V1) (body2 & lo2 & hi2 & -> & V2) B1 B2 [El Hb] Hp.
  rewrite !app_length in El. rewrite !app_length in Hp. simpl length in El, Hp.
  assert (Hbe : body1 = body2).
  { apply (list_eq_nth 0); [lia|]. intros k Hk.
    assert (X : nth k (body1 ++ [lo1; hi1]) 0 = nth k (body2 ++ [lo2; hi2]) 0).
    { apply lxor_eq_0. rewrite <- nth_xorl by (rewrite !app_length; simpl; lia).
      apply byte_zero_bits; [apply bytes_nth, bytes_xorl; auto|].
      intros j Hj. specialize (Hb (8 * k + j)%nat ltac:(lia)).
      rewrite !nth_wire in Hb by auto. rewrite nth_xorl by (rewrite !app_length; simpl; lia).
      rewrite Z.lxor_spec, Hb. apply xorb_nilpotent. }
    rewrite !app_nth1 in X by lia. exact X. }
  subst body2. rewrite V1 in V2.
  bytes_inv. unfold byte in *.
  assert (lo1 = lo2) by lia. assert (hi1 = hi2) by lia. subst. reflexivity.
Qed.

(** Checksum (C04) *)
Definition bsum (l : list Z) : Z := fold_left Z.add l 0.

Lemma fold_add l : forall s, fold_left Z.add l s = s + bsum l.
Proof.
  unfold bsum. induction l as [|x l IH]; intros s; simpl; [lia|].
  rewrite IH, (IH (0 + x)). lia.
Qed.

Lemma bsum_app a b : bsum (a ++ b) = bsum a + bsum b.
Proof. unfold bsum. rewrite fold_left_app, fold_add. reflexivity. Qed.

Lemma checksum_eq l : compute_checksum l = (- bsum l) mod 256.
Proof.
  destruct l as [|x l]; [reflexivity|].
  unfold compute_checksum, u8. fold (bsum (x :: l)).
  rewrite Z.land_comm, land255. unfold Z.lnot, Z.pred. lia.
Qed.

Lemma bsum_upd k v l : (k < length l)%nat -> bsum (upd k v l) = bsum l - nth k l 0 + v.
Proof.
  revert k; induction l as [|x l IH]; intros [|k] H; simpl in H; try lia; simpl upd; simpl nth.
  - change (v :: l) with ([v] ++ l). change (x :: l) with ([x] ++ l). rewrite !bsum_app.
    unfold bsum at 1 3. simpl. lia.
  - change (x :: upd k v l) with ([x] ++ upd k v l). change (x :: l) with ([x] ++ l).
    rewrite !bsum_app, IH by lia. lia.
Qed.
