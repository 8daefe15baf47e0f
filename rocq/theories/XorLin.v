(** Bitwise exclusive or as addition of a vector space over GF(2); linear functions are determined
    by their values on powers of two. *)
From Verif Require Import Base ListLemmas.
From Coq Require Import Btauto.

Ltac xor_ac :=
  apply Z.bits_inj'; let n := fresh "n" in let H := fresh in
  intros n H; rewrite ?Z.lxor_spec, ?Z.bits_0; btauto.

Lemma land_lxor_l a b c : Z.land (Z.lxor a b) c = Z.lxor (Z.land a c) (Z.land b c).
Proof. apply Z.bits_inj'; intros n H; rewrite ?Z.lxor_spec, ?Z.land_spec, ?Z.lxor_spec; btauto. Qed.

Lemma shiftr_lxor a b n : Z.shiftr (Z.lxor a b) n = Z.lxor (Z.shiftr a n) (Z.shiftr b n).
Proof. unfold Z.shiftr. apply Z.shiftl_lxor. Qed.

Lemma lxor_split a b c d :
  Z.lxor (Z.lxor a b) (Z.lxor c d) = Z.lxor (Z.lxor a c) (Z.lxor b d).
Proof. xor_ac. Qed.

Lemma mod_lxor a b n : 0 <= n ->
  (Z.lxor a b) mod 2 ^ n = Z.lxor (a mod 2 ^ n) (b mod 2 ^ n).
Proof. intros. rewrite <- !Z.land_ones by auto. apply land_lxor_l. Qed.

Definition additive (n : nat) (f : Z -> Z) : Prop :=
  forall a b, 0 <= a < 2 ^ Z.of_nat n -> 0 <= b < 2 ^ Z.of_nat n ->
  f (Z.lxor a b) = Z.lxor (f a) (f b).

Lemma bits_above x n k : 0 <= n <= k -> 0 <= x < 2 ^ n -> Z.testbit x k = false.
Proof.
  intros Hn Hx. rewrite <- (Z.mod_small x (2 ^ n)) by auto.
  apply Z.mod_pow2_bits_high. lia.
Qed.

Lemma split_top n x : 0 <= x < 2 ^ Z.of_nat (S n) ->
  x = Z.lxor (x mod 2 ^ Z.of_nat n) (if Z.testbit x (Z.of_nat n) then 2 ^ Z.of_nat n else 0).
Proof.
  intros H. apply Z.bits_inj'; intros k Hk. rewrite Z.lxor_spec.
  assert (Hp : Z.testbit (if Z.testbit x (Z.of_nat n) then 2 ^ Z.of_nat n else 0) k
               = Z.testbit x (Z.of_nat n) && (Z.of_nat n =? k)).
  { destruct (Z.testbit x (Z.of_nat n)); [rewrite Z.pow2_bits_eqb by lia; reflexivity|].
    now rewrite Z.bits_0. }
  rewrite Hp. destruct (Z.lt_trichotomy k (Z.of_nat n)) as [L|[L|L]].
  - rewrite Z.mod_pow2_bits_low by lia. destruct (Z.eqb_spec (Z.of_nat n) k); [lia|]. btauto.
  - subst k. rewrite Z.mod_pow2_bits_high by lia. rewrite Z.eqb_refl. btauto.
  - rewrite Z.mod_pow2_bits_high by lia. destruct (Z.eqb_spec (Z.of_nat n) k); [lia|].
    rewrite andb_false_r. apply (bits_above x (Z.of_nat (S n))); [lia|auto].
Qed.

(* Two additive functions that agree on the powers of two below 2^n agree below 2^n. *)
Lemma additive_ext n f g :
  additive n f -> additive n g ->
  forallb (fun k => f (2 ^ Z.of_nat k) =? g (2 ^ Z.of_nat k)) (seq 0 n) = true ->
  forall x, 0 <= x < 2 ^ Z.of_nat n -> f x = g x.
Proof.
  intros Hf Hg Hb.
  assert (H0 : f 0 = g 0).
  { assert (0 < 2 ^ Z.of_nat n) by (apply Z.pow_pos_nonneg; lia).
    pose proof (Hf 0 0) as A. pose proof (Hg 0 0) as B. rewrite Z.lxor_nilpotent in *.
    rewrite A, B, !Z.lxor_nilpotent by lia. reflexivity. }
  assert (Hm : forall m, (m <= n)%nat -> forall x, 0 <= x < 2 ^ Z.of_nat m -> f x = g x).
  { induction m; intros Hm x Hx.
    - replace x with 0 by (change (2 ^ Z.of_nat 0) with 1 in Hx; lia). exact H0.
    - rewrite (split_top m x Hx).
      assert (Hle : 2 ^ Z.of_nat (S m) <= 2 ^ Z.of_nat n) by (apply Z.pow_le_mono_r; lia).
      assert (Hlt : 2 ^ Z.of_nat m < 2 ^ Z.of_nat (S m)) by (apply Z.pow_lt_mono_r; lia).
      assert (Hpos : 0 < 2 ^ Z.of_nat m) by (apply Z.pow_pos_nonneg; lia).
      pose proof (Z.mod_pos_bound x (2 ^ Z.of_nat m) Hpos).
      assert (Ht : forall t : bool, 0 <= (if t then 2 ^ Z.of_nat m else 0) < 2 ^ Z.of_nat n)
        by (intros [|]; lia).
      rewrite Hf, Hg by (auto; lia). f_equal; [apply IHm; lia|].
      destruct (Z.testbit x (Z.of_nat m)); auto.
      rewrite forallb_forall in Hb. apply Z.eqb_eq, Hb, in_seq. lia. }
  intros; eapply Hm; eauto.
Qed.

Lemma lxor_eq_0 a b : Z.lxor a b = 0 -> a = b.
Proof. apply Z.lxor_eq. Qed.
