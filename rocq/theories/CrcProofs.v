(** Proofs about the CRC and checksum models. *)
From Verif Require Import Base ListLemmas XorLin Crc SpecCrc.
From Coq Require Import Btauto.
Ltac Zify.zify_post_hook ::= Z.div_mod_to_equations.

Definition w16 (x : Z) : Prop := 0 <= x < 65536.

Lemma w16_lxor a b : w16 a -> w16 b -> w16 (Z.lxor a b).
Proof. unfold w16. change 65536 with (2 ^ 16). intros; apply lxor_lt_pow2; lia. Qed.

Lemma w16_land a : w16 (Z.land a 65535).
Proof. unfold w16. change 65535 with (Z.ones 16). rewrite Z.land_ones by lia. apply Z.mod_pos_bound. lia. Qed.

Lemma byte_w16 b : byte b -> w16 b.
Proof. unfold byte, w16; lia. Qed.

Lemma land255 a : Z.land a 255 = a mod 256.
Proof. change 255 with (Z.ones 8). rewrite Z.land_ones by lia. reflexivity. Qed.

Lemma land65535 a : Z.land a 65535 = a mod 65536.
Proof. change 65535 with (Z.ones 16). rewrite Z.land_ones by lia. reflexivity. Qed.

(* the linear part of one step *)
Definition cF (s2 : Z) : Z :=
  let s3 := Z.lxor s2 (Z.shiftr (Z.land s2 255) 4) in
  let s4 := Z.lxor s3 (Z.land (Z.shiftl s3 12) 65535) in
  Z.lxor s4 (Z.land (Z.shiftl (Z.land s4 255) 5) 65535).

Definition cswap (s : Z) : Z := Z.lxor (Z.shiftr s 8) (Z.land (Z.shiftl s 8) 65535).

Lemma cF_lxor a b : cF (Z.lxor a b) = Z.lxor (cF a) (cF b).
Proof.
  unfold cF. cbv zeta.
  repeat rewrite ?land_lxor_l, ?shiftr_lxor, ?Z.shiftl_lxor. xor_ac.
Qed.

Lemma cswap_lxor a b : cswap (Z.lxor a b) = Z.lxor (cswap a) (cswap b).
Proof. unfold cswap. rewrite shiftr_lxor, Z.shiftl_lxor, land_lxor_l. xor_ac. Qed.

Lemma crc_step_eq s b : w16 s -> crc_step s b = cF (Z.lxor (cswap s) b).
Proof.
  intros H. unfold crc_step, cF, cswap. rewrite <- (Z.lxor_lor (Z.shiftr s 8)); [reflexivity|].
  apply Z.bits_inj'; intros n Hn. rewrite Z.land_spec, Z.bits_0.
  rewrite Z.land_spec, Z.shiftr_spec, Z.shiftl_spec by lia.
  destruct (Z.le_gt_cases 8 n).
  - rewrite (bits_above s 16) by (unfold w16 in H; lia). reflexivity.
  - rewrite (Z.testbit_neg_r s (n - 8)) by lia. simpl. apply andb_false_r.
Qed.

Lemma w16_shiftr s k : 0 <= k -> w16 s -> w16 (Z.shiftr s k).
Proof.
  unfold w16; intros. rewrite Z.shiftr_div_pow2 by lia.
  assert (0 < 2 ^ k) by (apply Z.pow_pos_nonneg; lia).
  split; [apply Z.div_pos; lia|]. apply Z.div_lt_upper_bound; nia.
Qed.

Lemma w16_cswap s : w16 s -> w16 (cswap s).
Proof. intros. unfold cswap. apply w16_lxor; [apply w16_shiftr; [lia|auto]|apply w16_land]. Qed.

Lemma w16_cF s : w16 s -> w16 (cF s).
Proof.
  intros. unfold cF. cbv zeta.
  assert (w16 (Z.shiftr (Z.land s 255) 4)).
  { apply w16_shiftr; [lia|]. rewrite land255. unfold w16. pose proof (Z.mod_pos_bound s 256). lia. }
  repeat (apply w16_lxor || apply w16_land || assumption).
Qed.

Lemma w16_crc_step s b : w16 s -> byte b -> w16 (crc_step s b).
Proof.
  intros. rewrite crc_step_eq by auto. apply w16_cF, w16_lxor; [apply w16_cswap; auto|].
  apply byte_w16; auto.
Qed.

Lemma crc_step_lxor s1 s2 b1 b2 : w16 s1 -> w16 s2 ->
  crc_step (Z.lxor s1 s2) (Z.lxor b1 b2) = Z.lxor (crc_step s1 b1) (crc_step s2 b2).
Proof.
  intros. rewrite !crc_step_eq by (auto using w16_lxor).
  rewrite cswap_lxor, <- cF_lxor. f_equal. xor_ac.
Qed.

Lemma w16_0 : w16 0.
Proof. unfold w16; lia. Qed.

Lemma w16_crc l : forall s, w16 s -> bytes l -> w16 (crc16_itu_t s l).
Proof.
  unfold crc16_itu_t. induction l; intros s Hs Hl; simpl; auto.
  inv Hl. apply IHl; auto. apply w16_crc_step; auto.
Qed.

(* textbook side *)
Definition tb (s b : Z) : Z := fold_left crc_bit (bits_msb b) s.

Lemma crc_bit_lxor c d a b :
  crc_bit (Z.lxor c d) (xorb a b) = Z.lxor (crc_bit c a) (crc_bit d b).
Proof.
  unfold crc_bit.
  replace (2 * Z.lxor c d) with (Z.lxor (2 * c) (2 * d)).
  2:{ assert (E : forall x, 2 * x = Z.shiftl x 1)
        by (intros; rewrite Z.shiftl_mul_pow2 by lia; change (2 ^ 1) with 2; lia).
      rewrite !E. symmetry; apply Z.shiftl_lxor. }
  change 65536 with (2 ^ 16). rewrite mod_lxor by lia. rewrite Z.lxor_spec.
  destruct (Z.testbit c 15), (Z.testbit d 15), a, b; simpl xorb; cbv iota; xor_ac.
Qed.

Lemma tb_lxor c d a b : tb (Z.lxor c d) (Z.lxor a b) = Z.lxor (tb c a) (tb d b).
Proof.
  unfold tb, bits_msb. cbn [map fold_left]. rewrite !Z.lxor_spec, !crc_bit_lxor. reflexivity.
Qed.

Lemma step_eq_tb s b : w16 s -> byte b -> crc_step s b = tb s b.
Proof.
  intros Hs Hb.
  rewrite <- (Z.lxor_0_r s), <- (Z.lxor_0_l b).
  rewrite crc_step_lxor, tb_lxor by (auto using w16_0).
  f_equal.
  - apply (additive_ext 16 (fun s => crc_step s 0) (fun s => tb s 0)); [| |reflexivity|exact Hs].
    + intros x y Hx Hy. rewrite <- crc_step_lxor by auto. reflexivity.
    + intros x y Hx Hy. rewrite <- tb_lxor. reflexivity.
  - apply (additive_ext 8 (fun b => crc_step 0 b) (fun b => tb 0 b)); [| |reflexivity|exact Hb].
    + intros x y Hx Hy. rewrite <- crc_step_lxor by (auto using w16_0). reflexivity.
    + intros x y Hx Hy. rewrite <- tb_lxor. reflexivity.
Qed.

Lemma crc_is_textbook l : forall s, w16 s -> bytes l -> crc16_itu_t s l = textbook_crc s l.
Proof.
  unfold crc16_itu_t, textbook_crc.
  induction l as [|b l IH]; intros s Hs Hl; [reflexivity|].
  inv Hl. cbn [fold_left flat_map]. rewrite fold_left_app.
  change (fold_left crc_bit (bits_msb b) s) with (tb s b). rewrite <- step_eq_tb by auto.
  apply IH; auto. apply w16_crc_step; auto.
Qed.

Lemma compute_crc16_textbook l : bytes l -> compute_crc16 l = textbook_crc 7439 l.
Proof. intros. unfold compute_crc16. apply crc_is_textbook; auto. unfold w16; lia. Qed.

Lemma w16_compute l : bytes l -> w16 (compute_crc16 l).
Proof. intros. apply w16_crc; auto. unfold w16; lia. Qed.

(* Linearity of the whole CRC *)
Lemma crc_lxor a : forall b s t, length a = length b -> w16 s -> w16 t -> bytes a -> bytes b ->
  crc16_itu_t (Z.lxor s t) (xorl a b) = Z.lxor (crc16_itu_t s a) (crc16_itu_t t b).
Proof.
  unfold crc16_itu_t.
  induction a as [|x a IH]; intros [|y b] s t E Hs Ht Ha Hb; simpl in E; try lia; [reflexivity|].
  inv Ha; inv Hb. cbn [xorl fold_left]. rewrite crc_step_lxor by auto.
  apply IH; auto; apply w16_crc_step; auto.
Qed.

(* the register is empty iff it was empty before, for a zero byte *)
Definition cG (r : Z) : Z :=   (* inverse of cF *)
  let lo := Z.land r 255 in
  let lo4 := Z.lxor lo (Z.land (Z.shiftl lo 5) 255) in
  (* r = s4 xor ((s4 land 255) << 5): low byte first *)
  let l4 := lo4 in
  let s4 := Z.lxor r (Z.land (Z.shiftl l4 5) 65535) in
  let s3 := Z.lxor s4 (Z.land (Z.shiftl s4 12) 65535) in
  Z.lxor s3 (Z.shiftr (Z.land s3 255) 4).

Lemma cG_lxor a b : cG (Z.lxor a b) = Z.lxor (cG a) (cG b).
Proof.
  unfold cG. cbv zeta.
  repeat rewrite ?land_lxor_l, ?shiftr_lxor, ?Z.shiftl_lxor. xor_ac.
Qed.

Lemma cG_cF s : w16 s -> cG (cF s) = s.
Proof.
  intros H.
  apply (additive_ext 16 (fun s => cG (cF s)) (fun s => s)); [| |reflexivity|exact H].
  - intros x y _ _. rewrite cF_lxor, cG_lxor. reflexivity.
  - intros x y _ _. reflexivity.
Qed.

Lemma cF_cG s : w16 s -> cF (cG s) = s.
Proof.
  intros H.
  apply (additive_ext 16 (fun s => cF (cG s)) (fun s => s)); [| |reflexivity|exact H].
  - intros x y _ _. rewrite cG_lxor, cF_lxor. reflexivity.
  - intros x y _ _. reflexivity.
Qed.
