(** Facts about the list helpers of Base.v.  No model code here. *)
From Verif Require Import Base.
From Coq Require Export ZifyBool ZifyNat ZifyN.

#[global] Arguments Z.add : simpl never.
#[global] Arguments Z.sub : simpl never.
#[global] Arguments Z.mul : simpl never.
#[global] Arguments Z.div : simpl never.
#[global] Arguments Z.modulo : simpl never.
#[global] Arguments Z.rem : simpl never.
#[global] Arguments Z.of_nat : simpl never.
#[global] Arguments Z.to_nat : simpl never.
#[global] Arguments Z.leb : simpl nomatch.
#[global] Arguments Z.ltb : simpl nomatch.
#[global] Arguments Z.eqb : simpl nomatch.

Ltac inv H := inversion H; subst; clear H.

Lemma zlen_nonneg {A} (l : list A) : 0 <= zlen l.
Proof. unfold zlen; lia. Qed.

Lemma zlen_app {A} (a b : list A) : zlen (a ++ b) = zlen a + zlen b.
Proof. unfold zlen; rewrite app_length; lia. Qed.

Lemma zlen_cons {A} (x : A) l : zlen (x :: l) = 1 + zlen l.
Proof. unfold zlen; simpl length; lia. Qed.

Lemma zlen_nil {A} : zlen (@nil A) = 0.
Proof. reflexivity. Qed.

Lemma upd_length {A} i (v : A) l : length (upd i v l) = length l.
Proof. revert i; induction l; intros [|i]; simpl; auto. Qed.

Lemma nth_upd_same {A} i (v d : A) l : (i < length l)%nat -> nth i (upd i v l) d = v.
Proof. revert i; induction l; intros [|i]; simpl; intros; try lia; auto. apply IHl; lia. Qed.

Lemma nth_upd_other {A} i j (v d : A) l : i <> j -> nth j (upd i v l) d = nth j l d.
Proof.
  revert i j; induction l; intros [|i] [|j]; simpl; intros; try congruence; auto.
Qed.

Lemma skipn_skipn' {A} a b (l : list A) : skipn a (skipn b l) = skipn (b + a) l.
Proof.
  revert l; induction b; intros l; simpl; auto.
  destruct l; simpl; auto. now rewrite skipn_nil.
Qed.

Lemma firstn_app_exact {A} n (a b : list A) : length a = n -> firstn n (a ++ b) = a.
Proof. intros <-. rewrite firstn_app, Nat.sub_diag, firstn_all; simpl. apply app_nil_r. Qed.

Lemma skipn_app_exact {A} n (a b : list A) : length a = n -> skipn n (a ++ b) = b.
Proof. intros <-. rewrite skipn_app, Nat.sub_diag, skipn_all; reflexivity. Qed.

Lemma nth_skipn {A} n i (l : list A) d : nth i (skipn n l) d = nth (n + i) l d.
Proof.
  revert l; induction n; intros l; simpl; auto.
  destruct l; simpl; auto. now destruct i.
Qed.

Lemma nth_firstn {A} n i (l : list A) d : (i < n)%nat -> nth i (firstn n l) d = nth i l d.
Proof.
  revert i l; induction n; intros i l H; try lia.
  destruct l; simpl; auto. destruct i; auto. apply IHn; lia.
Qed.

Lemma list_eq_nth {A} (d : A) (a b : list A) :
  length a = length b -> (forall i, (i < length a)%nat -> nth i a d = nth i b d) -> a = b.
Proof. intros; eapply nth_ext; eauto. Qed.

Lemma blit_length dst off src :
  0 <= off -> off + zlen src <= zlen dst -> length (blit dst off src) = length dst.
Proof.
  unfold blit, zlen; intros. rewrite !app_length, firstn_length, skipn_length. lia.
Qed.

Lemma sub_blit_same dst off src n :
  0 <= off -> off + zlen src <= zlen dst -> n = zlen src -> sub (blit dst off src) off n = src.
Proof.
  unfold blit, zlen, sub; intros ? ? ->.
  rewrite skipn_app_exact by (rewrite firstn_length; lia).
  apply firstn_app_exact. lia.
Qed.

Lemma firstn_blit_before dst off src n :
  0 <= n <= off -> off <= zlen dst ->
  firstn (Z.to_nat n) (blit dst off src) = firstn (Z.to_nat n) dst.
Proof.
  unfold blit, zlen; intros.
  rewrite firstn_app, firstn_firstn, firstn_length.
  replace (Nat.min (Z.to_nat n) (Z.to_nat off)) with (Z.to_nat n) by lia.
  replace (Z.to_nat n - Nat.min (Z.to_nat off) (length dst))%nat with 0%nat by lia.
  simpl. apply app_nil_r.
Qed.

Lemma bytes_app a b : bytes (a ++ b) <-> bytes a /\ bytes b.
Proof. unfold bytes. apply Forall_app. Qed.

Lemma bytes_firstn n l : bytes l -> bytes (firstn n l).
Proof. unfold bytes; intros H. rewrite <- (firstn_skipn n l) in H. apply Forall_app in H; tauto. Qed.

Lemma bytes_skipn n l : bytes l -> bytes (skipn n l).
Proof. unfold bytes; intros H. rewrite <- (firstn_skipn n l) in H. apply Forall_app in H; tauto. Qed.

Lemma bytes_sub l o n : bytes l -> bytes (sub l o n).
Proof. intros. apply bytes_firstn, bytes_skipn; auto. Qed.

Lemma bytes_from l o : bytes l -> bytes (from l o).
Proof. intros. apply bytes_skipn; auto. Qed.

Ltac bytes_cons := unfold bytes; repeat (apply Forall_cons || apply Forall_nil).

Ltac bytes_inv :=
  repeat match goal with
  | H : bytes (_ ++ _) |- _ => apply bytes_app in H; destruct H
  | H : bytes (_ :: _) |- _ => apply Forall_cons_iff in H; destruct H
  | H : Forall byte (_ :: _) |- _ => apply Forall_cons_iff in H; destruct H
  end.

Lemma byte_0 : byte 0.
Proof. unfold byte; lia. Qed.

Lemma bytes_nth l i : bytes l -> byte (nth i l 0).
Proof.
  intros H. destruct (Nat.lt_ge_cases i (length l)).
  - eapply Forall_nth in H; eauto.
  - rewrite nth_overflow by lia. apply byte_0.
Qed.

Lemma bytes_getb l i : bytes l -> byte (getb l i).
Proof. apply bytes_nth. Qed.

Lemma bytes_upd i v l : bytes l -> byte v -> bytes (upd i v l).
Proof.
  unfold bytes; revert i; induction l; intros [|i] H Hv; simpl; auto; inv H; constructor; auto.
Qed.

Lemma bytes_blit d o s : bytes d -> bytes s -> bytes (blit d o s).
Proof.
  intros. unfold blit. apply bytes_app; split; [apply bytes_firstn; auto|].
  apply bytes_app; split; auto. apply bytes_skipn; auto.
Qed.

Lemma bytes_zeros n : bytes (zeros n).
Proof. unfold bytes, zeros. apply Forall_forall; intros x H. apply repeat_spec in H; subst. apply byte_0. Qed.

Lemma length_zeros n : length (zeros n) = n.
Proof. apply repeat_length. Qed.

Lemma byte_u8 x : byte (u8 x).
Proof. unfold byte, u8. apply Z.mod_pos_bound. lia. Qed.

Lemma u8_id x : byte x -> u8 x = x.
Proof. unfold byte, u8; intros; apply Z.mod_small; lia. Qed.

Lemma byte_inv8 x : byte x -> byte (inv8 x).
Proof. unfold byte, inv8; lia. Qed.

Lemma bytes_map_inv8 l : bytes l -> bytes (map inv8 l).
Proof. unfold bytes. intros; apply Forall_map. eapply Forall_impl; eauto. apply byte_inv8. Qed.

Lemma lxor_lt_pow2 a b n : 0 <= n -> 0 <= a < 2 ^ n -> 0 <= b < 2 ^ n -> 0 <= Z.lxor a b < 2 ^ n.
Proof.
  intros Hn Ha Hb.
  assert (Hp : 0 <= Z.lxor a b) by (apply Z.lxor_nonneg; lia).
  split; auto.
  destruct (Z.eq_dec (Z.lxor a b) 0) as [->|He]; [apply Z.pow_pos_nonneg; lia|].
  apply Z.log2_lt_pow2; [lia|].
  eapply Z.le_lt_trans; [apply Z.log2_lxor; lia|].
  assert (Hn0 : n <> 0).
  { intros ->. change (2 ^ 0) with 1 in *. assert (a = 0) by lia. assert (b = 0) by lia. subst.
    apply He; reflexivity. }
  apply Z.max_lub_lt.
  - destruct (Z.eq_dec a 0) as [->|]; [simpl; lia|apply Z.log2_lt_pow2; lia].
  - destruct (Z.eq_dec b 0) as [->|]; [simpl; lia|apply Z.log2_lt_pow2; lia].
Qed.

Lemma byte_lxor a b : byte a -> byte b -> byte (Z.lxor a b).
Proof. unfold byte. change 256 with (2 ^ 8). intros; apply lxor_lt_pow2; lia. Qed.

Lemma xorl_length a b : length (xorl a b) = Nat.min (length a) (length b).
Proof. revert b; induction a; intros [|? b]; simpl; auto. Qed.

Lemma bytes_xorl a b : bytes a -> bytes b -> bytes (xorl a b).
Proof.
  unfold bytes; revert b; induction a; intros [|? b] Ha Hb; simpl; auto.
  inv Ha; inv Hb. constructor; [apply byte_lxor; auto|apply IHa; auto].
Qed.

Lemma xorl_invol a b : (length a <= length b)%nat -> xorl (xorl a b) b = a.
Proof.
  revert b; induction a; intros [|y b] H; simpl in *; auto; try lia.
  rewrite Z.lxor_assoc, Z.lxor_nilpotent, Z.lxor_0_r. f_equal. apply IHa; lia.
Qed.
