(** Transmit path: shape of every packet that leaves the library (both roles). *)
From Verif Require Import Base ListLemmas Crc SpecCrc CrcProofs CrcBurst Aes AesProofs Rb RbProofs
  Types Sc ScProofs Phy PhyCheck SpecRx SpecFrame RxProofs PdRx.
From Coq Require Import ZifyBool ZifyNat.
Ltac Zify.zify_post_hook ::= Z.div_mod_to_equations.

Ltac dif := match goal with |- context [if ?c then _ else _] => destruct c eqn:? end.

(* fields that sending never touches: all but the packet buffer, the MAC chain and, for a PD, the
   broadcast flag; for a CP, mark flag and sequence counter *)
Definition txcore (p : pd) : pd :=
  set_pbuf [] (set_c_mac [] (set_r_mac [] p)).

Lemma byte_byte0 x : byte (byte0 x). Proof. unfold byte, byte0. lia. Qed.
Lemma byte_byte1 x : byte (byte1 x). Proof. unfold byte, byte1. lia. Qed.

Lemma put_len_length n b : length (put_len n b) = length b.
Proof. unfold put_len. rewrite !upd_length. reflexivity. Qed.

Lemma bytes_put_len n b : bytes b -> bytes (put_len n b).
Proof. intros. unfold put_len. apply bytes_upd; [apply bytes_upd|]; auto using byte_byte0, byte_byte1. Qed.

Lemma nth_put_len n b i : i <> 2%nat -> i <> 3%nat -> nth i (put_len n b) 0 = nth i b 0.
Proof. intros. unfold put_len. rewrite !nth_upd_other; auto. Qed.

Lemma put_len_2 n b : (3 <= length b)%nat -> nth 2 (put_len n b) 0 = byte0 n.
Proof. intros. unfold put_len. rewrite nth_upd_other by lia. apply nth_upd_same. lia. Qed.

Lemma put_len_3 n b : (4 <= length b)%nat -> nth 3 (put_len n b) 0 = byte1 n.
Proof. intros. unfold put_len. apply nth_upd_same. rewrite upd_length. lia. Qed.

Lemma f_len_put n b c : (4 <= length b)%nat -> 0 <= n < 65536 -> f_len (put_len n b ++ c) = n.
Proof.
  intros L R. unfold f_len. rewrite !app_nth1 by (rewrite put_len_length; lia).
  rewrite put_len_2, put_len_3 by lia. unfold byte0, byte1. lia.
Qed.

Lemma crc_range b : bytes b -> 0 <= compute_crc16 b < 65536.
Proof. intros B. apply w16_compute; auto. Qed.

Lemma crc_sealed b : bytes b -> crc_valid (b ++ [byte0 (compute_crc16 b); byte1 (compute_crc16 b)]).
Proof.
  intros B. exists b, (byte0 (compute_crc16 b)), (byte1 (compute_crc16 b)). split; auto.
  rewrite <- compute_crc16_textbook by auto. pose proof (crc_range b B). unfold byte0, byte1. lia.
Qed.

Lemma fin_encrypt_spec p b n b2 : sc_keys_ok (sc p) -> bytes b -> (6 <= length b)%nat ->
  fin_encrypt p b n = Ok (Some b2) ->
  bytes b2 /\ (6 <= length b2)%nat /\ firstn 6 b2 = firstn 6 b.
Proof.
  intros K B L. unfold fin_encrypt. pose proof (bytes_getb b 5 B) as B5. unfold byte in B5.
  dif; cbv zeta.
  - dif; [discriminate|]. dif; [discriminate|]. intros H; injection H as <-.
    set (off := 5 + getb b 5 + 1) in *.
    destruct (encrypt_data_length (negb (pd_mode (fl p))) (sc p) (from b off) K) as [E1 E2];
      [apply bytes_from; auto|].
    assert (F : (6 <= Z.to_nat off)%nat) by lia.
    split; [apply bytes_app; split; [apply bytes_firstn; auto|auto]|].
    rewrite app_length, firstn_length. split; [lia|].
    rewrite firstn_app, firstn_firstn, firstn_length.
    replace (Nat.min 6 (Z.to_nat off)) with 6%nat by lia.
    replace (6 - Nat.min (Z.to_nat off) (length b))%nat with 0%nat by lia.
    rewrite firstn_O, app_nil_r. reflexivity.
  - intros H; injection H as <-. auto.
Qed.

Lemma nth_firstn_eq {A} n i (a b : list A) d : firstn n a = firstn n b -> (i < n)%nat -> nth i a d = nth i b d.
Proof. intros H L. rewrite <- (nth_firstn n i a) by auto. rewrite H. apply nth_firstn; auto. Qed.

(* what packet_finalize returns is a well-formed frame with the header bytes it was given *)
Lemma packet_finalize_spec p l n q f : sc_keys_ok (sc p) -> bytes l -> n <= 256 ->
  (6 <= zlen (if has_mark (fl p) then from l 1 else l)) ->
  packet_finalize p l n = Ok (q, Some f) ->
  let b0 := if has_mark (fl p) then from l 1 else l in
  exists b, f = (if has_mark (fl p) then [255] else []) ++ b /\ bytes b /\
    zlen f <= n /\ 8 <= zlen b <= 256 /\ nth 0 b 0 = 83 /\ f_len b = zlen b /\
    nth 1 b 0 = nth 1 b0 0 /\ nth 4 b 0 = nth 4 b0 0 /\ crc_valid b /\
    txcore q = txcore p /\ pbuf q = blit (pbuf p) 0 f.
Proof.
  intros K B N L0 H. cbv zeta. unfold packet_finalize in H.
  destruct (zlen l <=? 5) eqn:E0; [discriminate|].
  destruct (_ && _) eqn:E1 in H; [discriminate|]. cbv zeta in H.
  set (b0 := if has_mark (fl p) then from l 1 else l) in *.
  assert (B0 : bytes b0) by (unfold b0; destruct (has_mark (fl p)); [apply bytes_from|]; auto).
  destruct (negb (getb b0 0 =? PKT_SOM)) eqn:E2; [discriminate|]. unfold PKT_SOM in E2.
  change (getb b0 0) with (nth 0 b0 0) in E2.
  set (b1 := put_len (zlen b0 + 2) b0) in *.
  assert (L1 : length b1 = length b0) by apply put_len_length.
  assert (B1 : bytes b1) by (apply bytes_put_len; auto).
  assert (ML : mark_len p = if has_mark (fl p) then 1 else 0) by reflexivity.
  unfold zlen in L0.
  (* the part before the CRC *)
  assert (X : exists p1 b4, txcore p1 = txcore p /\ fl p1 = fl p /\ pbuf p1 = pbuf p /\ bytes b4 /\ (6 <= length b4)%nat /\
     nth 0 b4 0 = 83 /\ nth 1 b4 0 = nth 1 b0 0 /\ nth 4 b4 0 = nth 4 b0 0 /\
     (zlen b4 + 2 <= n - mark_len p -> f_len (b4 ++ [byte0 (compute_crc16 b4); byte1 (compute_crc16 b4)]) = zlen b4 + 2) /\
     (if zlen b4 + 2 >? n - mark_len p then Ok (p1, None)
      else Ok (set_pbuf (blit (pbuf p1) 0 ((if has_mark (fl p1) then [PKT_MARK] else [])
              ++ b4 ++ [byte0 (compute_crc16 b4); byte1 (compute_crc16 b4)])) p1,
              Some ((if has_mark (fl p1) then [PKT_MARK] else [])
              ++ b4 ++ [byte0 (compute_crc16 b4); byte1 (compute_crc16 b4)]))) = Ok (q, Some f)).
  { destruct (sc_active (fl p) && ctl_scb (getb b1 4) && (SCS_15 <=? getb b1 6)).
    - destruct (fin_encrypt p b1 (n - mark_len p)) as [[b2|]| |] eqn:FE; cbn [bind] in H; try discriminate.
      destruct (fin_encrypt_spec p b1 _ b2 K B1 ltac:(lia) FE) as (F1 & F2 & F3).
      destruct (zlen b2 + 4 >? n - mark_len p) eqn:E4; [discriminate|].
      set (b3 := put_len (zlen b2 + 6) b2) in *.
      destruct (compute_mac (negb (pd_mode (fl p))) p b3) as [p1| |] eqn:CM; cbn [bind] in H; try discriminate.
      unfold compute_mac in CM. destruct (zlen b3 =? 0) eqn:E5; [discriminate|].
      set (m := mac_of (s_mac1 (sc p)) (s_mac2 (sc p)) (if negb (pd_mode (fl p)) then r_mac (sc p) else c_mac (sc p)) b3) in CM.
      assert (L3 : length b3 = length b2) by apply put_len_length.
      assert (B3 : bytes b3) by (apply bytes_put_len; auto).
      assert (Bm : blk m).
      { destruct K as (K1 & K2 & K3 & K4 & K5). apply blk_mac_of; auto.
        - destruct (negb (pd_mode (fl p))); auto.
        - intros E; rewrite E in E5; discriminate. }
      assert (M4 : firstn 4 (if negb (pd_mode (fl p)) then c_mac (sc p1) else r_mac (sc p1)) = firstn 4 m).
      { injection CM as <-. destruct (negb (pd_mode (fl p))); reflexivity. }
      rewrite M4 in H. destruct Bm as [Lm Bm].
      exists p1, (b3 ++ firstn 4 m).
      assert (TC : txcore p1 = txcore p /\ fl p1 = fl p /\ pbuf p1 = pbuf p).
      { injection CM as <-. destruct (negb (pd_mode (fl p))); auto. }
      destruct TC as (T1 & T2 & T3). split; auto. split; auto. split; auto.
      split; [apply bytes_app; split; auto; apply bytes_firstn; auto|].
      rewrite app_length, firstn_length, Lm. split; [lia|].
      assert (NN : forall i, (i < 6)%nat -> i <> 2%nat -> i <> 3%nat -> nth i (b3 ++ firstn 4 m) 0 = nth i b0 0).
      { intros i Hi N2 N3. rewrite app_nth1 by lia. unfold b3. rewrite nth_put_len by auto.
        rewrite (nth_firstn_eq 6 i b2 b1) by auto. unfold b1. apply nth_put_len; auto. }
      rewrite !NN by lia. split; [lia|]. split; auto. split; auto.
      split; [|exact H].
      unfold b3. rewrite <- app_assoc. intros Hn. rewrite zlen_app.
      assert (zlen (put_len (zlen b2 + 6) b2) = zlen b2) by (unfold zlen; rewrite put_len_length; auto).
      assert (zlen (firstn 4 m) = 4) by (unfold zlen; rewrite firstn_length; lia).
      rewrite f_len_put; [|lia|].
      + lia.
      + rewrite zlen_app in Hn. destruct (has_mark (fl p)); unfold zlen in *; lia.
    - cbn [bind] in H. exists p, b1. split; auto. split; auto. split; auto. split; auto. split; [lia|].
      unfold b1. rewrite !nth_put_len by lia.
      split; [lia|]. split; auto. split; auto. split; [|exact H].
      assert (zlen (put_len (zlen b0 + 2) b0) = zlen b0) by (unfold zlen; rewrite put_len_length; auto).
      intros Hn. rewrite f_len_put; [lia|lia|]. destruct (has_mark (fl p)); unfold zlen in *; lia. }
  destruct X as (p1 & b4 & C1 & C2 & C3 & C4 & C5 & C6 & C7 & C8 & C9 & C10). clear H.
  rewrite C2 in C10.
  destruct (zlen b4 + 2 >? n - mark_len p) eqn:E6; [discriminate|]. injection C10 as <- <-.
  set (t := [byte0 (compute_crc16 b4); byte1 (compute_crc16 b4)]).
  assert (Zt : zlen (b4 ++ t) = zlen b4 + 2) by (rewrite zlen_app; reflexivity).
  exists (b4 ++ t). split; [reflexivity|].
  split; [apply bytes_app; split; auto; bytes_cons; auto using byte_byte0, byte_byte1|].
  split; [rewrite zlen_app, Zt; destruct (has_mark (fl p)); unfold zlen in *; simpl length; lia|].
  split; [rewrite Zt; unfold zlen in *; destruct (has_mark (fl p)); lia|].
  split; [rewrite app_nth1 by lia; auto|].
  split; [rewrite Zt; apply C9; lia|].
  split; [rewrite app_nth1 by lia; auto|].
  split; [rewrite app_nth1 by lia; auto|].
  split; [apply crc_sealed; auto|].
  split; [rewrite <- C1; reflexivity|]. simpl. rewrite C3. reflexivity.
Qed.

(* mark byte in front of the frames of p *)
Definition mk_of (p : pd) : list Z := if has_mark (fl p) then [255] else [].

Lemma zlen_mk p : zlen (mk_of p) = mark_len p.
Proof. unfold mk_of, mark_len. destruct (has_mark (fl p)); reflexivity. Qed.


Lemma with_crc_eq b : bytes b -> with_crc b = b ++ [byte0 (compute_crc16 b); byte1 (compute_crc16 b)].
Proof.
  intros B. unfold with_crc. rewrite <- compute_crc16_textbook by auto.
  pose proof (crc_range b B). unfold byte0, byte1. do 3 f_equal. rewrite Z.mod_small; lia.
Qed.

Lemma zlen_with_crc b : zlen (with_crc b) = zlen b + 2.
Proof. unfold with_crc. rewrite zlen_app. reflexivity. Qed.

Lemma zlen_put_len n b : zlen (put_len n b) = zlen b.
Proof. unfold zlen. now rewrite put_len_length. Qed.

Lemma put_len_put_len n m b : put_len n (put_len m b) = put_len n b.
Proof.
  apply (list_eq_nth 0); [rewrite !put_len_length; auto|]. intros i Hi. rewrite !put_len_length in Hi.
  destruct (Nat.eq_dec i 2) as [->|N2]; [rewrite !put_len_2; rewrite ?put_len_length; auto; lia|].
  destruct (Nat.eq_dec i 3) as [->|N3]; [rewrite !put_len_3; rewrite ?put_len_length; auto; lia|].
  rewrite !nth_put_len; auto.
Qed.

Lemma from_mk p b : (if has_mark (fl p) then from (mk_of p ++ b) 1 else mk_of p ++ b) = b.
Proof. unfold mk_of. destruct (has_mark (fl p)); reflexivity. Qed.

Lemma mk_first p b : has_mark (fl p) && negb (getb (mk_of p ++ b) 0 =? PKT_MARK) = false.
Proof. unfold mk_of. destruct (has_mark (fl p)); reflexivity. Qed.

(* does the packet get a MAC *)
Definition macced (p : pd) (b : list Z) : bool :=
  sc_active (fl p) && ctl_scb (getb b 4) && (21 <=? getb b 6).

Lemma getb_put_len n b i : i <> 2 -> i <> 3 -> 0 <= i -> getb (put_len n b) i = getb b i.
Proof. intros. unfold getb. apply nth_put_len; lia. Qed.

Lemma finalize_plain p b n : bytes b -> nth 0 b 0 = 83 -> 6 <= zlen b -> macced p b = false ->
  packet_finalize p (mk_of p ++ b) n =
  let f := mk_of p ++ with_crc (put_len (zlen b + 2) b) in
  if zlen f >? n then Ok (p, None) else Ok (set_pbuf (blit (pbuf p) 0 f) p, Some f).
Proof.
  intros B H L M. unfold packet_finalize.
  assert (E : zlen (mk_of p ++ b) <=? 5 = false).
  { rewrite zlen_app, zlen_mk. unfold mark_len. destruct (has_mark (fl p)); lia. }
  rewrite E, mk_first. cbv zeta. rewrite from_mk.
  change (getb b 0) with (nth 0 b 0). rewrite H. change (negb (83 =? PKT_SOM)) with false. cbv iota.
  rewrite !(getb_put_len _ b) by lia. unfold macced in M. change SCS_15 with 21. rewrite M.
  cbn [bind]. rewrite zlen_put_len. rewrite <- with_crc_eq by (apply bytes_put_len; auto).
  rewrite zlen_app, zlen_with_crc, zlen_put_len, zlen_mk.
  assert (E2 : (zlen b + 2 >? n - mark_len p) = (mark_len p + (zlen b + 2) >? n)).
  { destruct (zlen b + 2 >? n - mark_len p) eqn:X; lia. }
  rewrite E2. reflexivity.
Qed.

(* the packet body after the optional encryption of its data block *)
Definition sealed_body (p : pd) (b : list Z) : list Z :=
  if (getb b 6 =? 23) || (getb b 6 =? 24)
  then firstn 8 b ++ encrypt_data (negb (pd_mode (fl p))) (sc p) (skipn 8 b) else b.

Definition sealed_mac (p : pd) (b : list Z) : list Z :=
  mac_of (s_mac1 (sc p)) (s_mac2 (sc p)) (if pd_mode (fl p) then c_mac (sc p) else r_mac (sc p))
    (put_len (zlen (sealed_body p b) + 6) (sealed_body p b)).

Definition put_mac (p : pd) (m : list Z) : pd := if pd_mode (fl p) then set_r_mac m p else set_c_mac m p.

Lemma put_len_app n a c : (4 <= length a)%nat -> put_len n a ++ c = put_len n (a ++ c).
Proof.
  intros L. do 4 (destruct a as [|? a]; [simpl in L; lia|]). reflexivity.
Qed.

Lemma firstn_put_len k n b : (4 <= k)%nat -> (4 <= length b)%nat -> firstn k (put_len n b) = put_len n (firstn k b).
Proof.
  intros K L. do 4 (destruct b as [|? b]; [simpl in L; lia|]). do 4 (destruct k as [|k]; [lia|]). reflexivity.
Qed.

Lemma skipn_put_len k n b : (4 <= k)%nat -> skipn k (put_len n b) = skipn k b.
Proof.
  intros K. do 4 (destruct k as [|k]; [lia|]). do 4 (destruct b as [|? b]; [reflexivity|]). reflexivity.
Qed.

Lemma finalize_secure_gen p b n : bytes b -> nth 0 b 0 = 83 -> 8 <= zlen b -> macced p b = true ->
  getb b 5 = 2 -> sc_keys_ok (sc p) -> n <= 256 -> (has_mark (fl p) = true \/ zlen b < 248 \/ mark_len p + zlen (sealed_body p b) + 6 <= n) ->
  let b3 := put_len (zlen (sealed_body p b) + 6) (sealed_body p b) in
  let f := mk_of p ++ with_crc (b3 ++ firstn 4 (sealed_mac p b)) in
  if zlen f >? n
  then packet_finalize p (mk_of p ++ b) n = Ok (p, None) \/
       packet_finalize p (mk_of p ++ b) n = Ok (put_mac p (sealed_mac p b), None)
  else packet_finalize p (mk_of p ++ b) n =
       Ok (set_pbuf (blit (pbuf p) 0 f) (put_mac p (sealed_mac p b)), Some f).
Proof.
  intros B H L M B5 K N HM. cbv zeta.
  assert (HM' : mark_len p = 1 \/ zlen b < 248 \/ mark_len p + zlen (sealed_body p b) + 6 <= n) by (unfold mark_len in *; destruct HM as [->|]; auto).
  assert (ML : 0 <= mark_len p <= 1) by (unfold mark_len; destruct (has_mark (fl p)); lia).
  set (b3 := put_len (zlen (sealed_body p b) + 6) (sealed_body p b)).
  assert (Bs : bytes (sealed_body p b)).
  { unfold sealed_body. dif; auto. apply bytes_app. split; [apply bytes_firstn; auto|].
    apply encrypt_data_length; auto. apply bytes_skipn; auto. }
  assert (Ls : 8 <= zlen (sealed_body p b)).
  { unfold sealed_body. dif; auto. rewrite zlen_app.
    pose proof (zlen_nonneg (encrypt_data (negb (pd_mode (fl p))) (sc p) (skipn 8 b))).
    unfold zlen at 1. rewrite firstn_length. unfold zlen in L. lia. }
  assert (B3 : bytes b3) by (apply bytes_put_len; auto).
  assert (Lb3 : zlen b3 = zlen (sealed_body p b)) by apply zlen_put_len.
  assert (Bm : blk (sealed_mac p b)).
  { destruct K as (K1 & K2 & K3 & K4 & K5). unfold sealed_mac. apply blk_mac_of; auto.
    - destruct (pd_mode (fl p)); auto.
    - intros E. apply (f_equal zlen) in E. fold b3 in E. rewrite Lb3 in E. change (zlen (@nil Z)) with 0 in E. lia. }
  assert (Lf : zlen (mk_of p ++ with_crc (b3 ++ firstn 4 (sealed_mac p b))) = mark_len p + zlen (sealed_body p b) + 6).
  { rewrite zlen_app, zlen_mk, zlen_with_crc, zlen_app, Lb3.
    unfold zlen at 2. rewrite firstn_length. destruct Bm as [Lm _]. rewrite Lm. change (Z.of_nat (Nat.min 4 16)) with 4. lia. }
  rewrite Lf.
  unfold packet_finalize.
  assert (E : zlen (mk_of p ++ b) <=? 5 = false).
  { rewrite zlen_app, zlen_mk. lia. }
  rewrite E, mk_first. cbv zeta. rewrite from_mk.
  change (getb b 0) with (nth 0 b 0). rewrite H. change (negb (83 =? PKT_SOM)) with false. cbv iota.
  rewrite !(getb_put_len _ b) by lia. pose proof M as M'. unfold macced in M'. change SCS_15 with 21. rewrite M'.
  set (b1 := put_len (zlen b + 2) b).
  assert (FE : fin_encrypt p b1 (n - mark_len p) = Ok None /\ mark_len p + zlen (sealed_body p b) + 6 > n \/
               exists b2, fin_encrypt p b1 (n - mark_len p) = Ok (Some b2) /\ zlen b2 = zlen (sealed_body p b) /\
                  forall m, put_len m b2 = put_len m (sealed_body p b)).
  { unfold fin_encrypt. unfold b1. rewrite !(getb_put_len _ b) by lia. cbv zeta. unfold SCS_17, SCS_18, sealed_body.
    destruct ((getb b 6 =? 23) || (getb b 6 =? 24)) eqn:E6.
    - rewrite B5. change (5 + 2 + 1) with 8. unfold from. change (Z.to_nat 8) with 8%nat.
      rewrite skipn_put_len by lia.
      assert (Ld : zlen (skipn 8 b) = zlen b - 8) by (unfold zlen in *; rewrite skipn_length; lia).
      destruct (encrypt_data_length (negb (pd_mode (fl p))) (sc p) (skipn 8 b) K) as [EL EB];
        [apply bytes_skipn; auto|].
      assert (Lfst : zlen (firstn 8 b) = 8) by (unfold zlen in *; rewrite firstn_length; lia).
      rewrite Ld in *. pose proof (aes_pad_len_bounds (zlen b - 8 + 1) ltac:(lia)) as [P1 P2].
      destruct (aes_pad_len (zlen b - 8 + 1) >? n - mark_len p) eqn:E7.
      + left. split; auto. rewrite zlen_app, EL, Lfst. lia.
      + right. unfold PBUF_SIZE.
        destruct (mark_len p + 8 + aes_pad_len (zlen b - 8 + 1) >? 256) eqn:E8.
        { exfalso. destruct HM' as [HM'|[HM'|HM']]; [lia|lia|]. unfold sealed_body in HM'. rewrite E6, zlen_app, EL, Lfst in HM'. lia. }
        eexists. split; [reflexivity|]. rewrite firstn_put_len by (unfold zlen in L; lia).
        split; [rewrite !zlen_app, zlen_put_len; auto|].
        intros m. rewrite put_len_app by (rewrite firstn_length; unfold zlen in L; lia).
        apply put_len_put_len.
    - right. eexists. split; [reflexivity|]. split; [apply zlen_put_len|]. intros m. apply put_len_put_len. }
  destruct FE as [[FE X]|(b2 & FE & Z2 & PL)]; rewrite FE; cbn [bind].
  { destruct (mark_len p + zlen (sealed_body p b) + 6 >? n) eqn:E9; [left; reflexivity|lia]. }
  rewrite Z2, PL. fold b3.
  destruct (zlen (sealed_body p b) + 4 >? n - mark_len p) eqn:E10; cbn [bind].
  { destruct (mark_len p + zlen (sealed_body p b) + 6 >? n) eqn:E9; [left; reflexivity|lia]. }
  unfold compute_mac. destruct (zlen b3 =? 0) eqn:E11; [lia|]. cbv zeta. cbn [bind].
  assert (PM : (if negb (pd_mode (fl p)) then set_c_mac (mac_of (s_mac1 (sc p)) (s_mac2 (sc p)) (if negb (pd_mode (fl p)) then r_mac (sc p) else c_mac (sc p)) b3) p
                else set_r_mac (mac_of (s_mac1 (sc p)) (s_mac2 (sc p)) (if negb (pd_mode (fl p)) then r_mac (sc p) else c_mac (sc p)) b3) p) = put_mac p (sealed_mac p b)).
  { unfold put_mac, sealed_mac. fold b3. destruct (pd_mode (fl p)); reflexivity. }
  rewrite PM.
  assert (MM : (if negb (pd_mode (fl p)) then c_mac (sc (put_mac p (sealed_mac p b))) else r_mac (sc (put_mac p (sealed_mac p b)))) = sealed_mac p b).
  { unfold put_mac. destruct (pd_mode (fl p)); reflexivity. }
  rewrite MM. rewrite zlen_app, Lb3.
  assert (Z4 : zlen (firstn 4 (sealed_mac p b)) = 4).
  { unfold zlen. rewrite firstn_length. destruct Bm as [-> _]. reflexivity. }
  rewrite Z4.
  assert (HMk : has_mark (fl (put_mac p (sealed_mac p b))) = has_mark (fl p)) by (unfold put_mac; destruct (pd_mode (fl p)); reflexivity).
  assert (HPb : pbuf (put_mac p (sealed_mac p b)) = pbuf p) by (unfold put_mac; destruct (pd_mode (fl p)); reflexivity).
  destruct (zlen (sealed_body p b) + 4 + 2 >? n - mark_len p) eqn:E12;
  destruct (mark_len p + zlen (sealed_body p b) + 6 >? n) eqn:E9; try lia.
  - right. reflexivity.
  - rewrite HMk, HPb. rewrite <- with_crc_eq by (apply bytes_app; split; [auto|apply bytes_firstn; apply Bm]).
    reflexivity.
Qed.

Lemma finalize_secure p b n : bytes b -> nth 0 b 0 = 83 -> 8 <= zlen b -> macced p b = true ->
  getb b 5 = 2 -> sc_keys_ok (sc p) -> n <= 256 -> (has_mark (fl p) = true \/ zlen b < 248) ->
  let b3 := put_len (zlen (sealed_body p b) + 6) (sealed_body p b) in
  let f := mk_of p ++ with_crc (b3 ++ firstn 4 (sealed_mac p b)) in
  if zlen f >? n
  then packet_finalize p (mk_of p ++ b) n = Ok (p, None) \/
       packet_finalize p (mk_of p ++ b) n = Ok (put_mac p (sealed_mac p b), None)
  else packet_finalize p (mk_of p ++ b) n =
       Ok (set_pbuf (blit (pbuf p) 0 f) (put_mac p (sealed_mac p b)), Some f).
Proof.
  intros B H L M B5 K N HM. apply finalize_secure_gen; try assumption. destruct HM; auto.
Qed.
