(** What panel and device make of each other's reports: identity, capabilities, events. *)
From Verif Require Import Base ListLemmas Crc SpecCrc CrcProofs CrcBurst Aes AesProofs Rb RbProofs
  Types Sc ScProofs Phy PhyCheck File Pd Cp PdRun SpecRx SpecFrame SpecSec SpecSession SpecCmd SpecApp SpecPd SpecLink RxProofs RxFwd PdRx PdCore PhyTx PdTx PdReply
  PdStep PdWire PdFwd PdSec PdHist2 PdAnswer MacProofs WireSec CpCtx SpecCp SpecReply SpecCpRun CpTx CpRx CpStep CpInv CpEdge CpFacts CpReply SpecTalk.
From Coq Require Import ZifyBool ZifyNat.
Ltac Zify.zify_post_hook ::= Z.div_mod_to_equations.
Local Opaque aes_ecb_encrypt aes_cbc_encrypt aes_cbc_decrypt mac_of RB_SIZE osdp_mac enc1 osdp_encrypt encrypt_data cap_entries.

Lemma build_smb e p b m : reply_id p <> 118 -> reply_id p <> 120 -> build_switch e p b m = build_switch e p false m.
Proof.
  intros H1 H2. unfold build_switch. change REPLY_CCRYPT with 118. change REPLY_RMAC_I with 120.
  replace (reply_id p =? 118) with false by lia. replace (reply_id p =? 120) with false by lia. reflexivity.
Qed.

Lemma digit a b c : 0 < b -> 0 < c -> a mod (b * c) = a mod b + b * (a / b mod c).
Proof. intros B C. apply Z.rem_mul_r; lia. Qed.
Lemma wire16 v : le16 (v mod 256) (v / 256 mod 256) = v mod 2 ^ 16.
Proof. change (2 ^ 16) with (256 * 256). rewrite digit by lia. reflexivity. Qed.
Lemma wire24 v : le24 (v mod 256) (v / 256 mod 256) (v / 65536 mod 256) = v mod 2 ^ 24.
Proof. change (2 ^ 24) with (65536 * 256). rewrite digit by lia. change 65536 with (256 * 256) at 2. rewrite digit by lia. reflexivity. Qed.
Lemma wire32 v : le32 (v mod 256) (v / 256 mod 256) (v / 65536 mod 256) (v / 16777216 mod 256) = v mod 2 ^ 32.
Proof.
  change (2 ^ 32) with (16777216 * 256). rewrite digit by lia. change 16777216 with (65536 * 256) at 2. rewrite digit by lia. change 65536 with (256 * 256) at 2. rewrite digit by lia. reflexivity.
Qed.

(* --- identity --- *)
Lemma id_built e p b m : reply_id p = 69 -> 60 <= m -> build_switch e p b m = Ok (p, Some (id_payload (pid p)), None, []).
Proof.
  intros R M. rewrite build_smb by lia. unfold build_switch. rewrite R. simpl. unfold assert_len. replace (13 <? m) with true by lia. do 3 f_equal.
  unfold id_bytes, id_payload, byte0, byte1, byte2, byte3. simpl. rewrite !Z.div_1_r. reflexivity.
Qed.
Lemma id_bytes_ok i : bytes (id_payload i).
Proof. unfold id_payload, le_bytes. simpl. repeat (constructor; [unfold byte; lia|]). constructor. Qed.
Lemma id_read e q i : decode_response e q (id_payload i) = Ok (set_pid (id_wire i) (set_reply_id 69 q), CNone, []).
Proof.
  unfold decode_response. change (getb (id_payload i) 0) with 69. cbv zeta. 
  change (zlen (from (id_payload i) 1)) with 12. simpl.
  do 3 f_equal. unfold read_id, id_wire, id_payload, le_bytes. cbv beta zeta. cbn [from getb skipn nth app map rev seq Z.to_nat Pos.to_nat Pos.iter_op Init.Nat.add].
  unfold getb, from. simpl. rewrite !Z.div_1_r. rewrite !wire24, !wire32. reflexivity.
Qed.

(* --- capabilities --- *)
Definition entries (cs : list capent) (s k : nat) : list Z :=
  flat_map (fun c => [c_fc c; c_comp c; c_num c])
    (map snd (filter (fun x => c_fc (snd x) =? fst x) (map (fun i => (Z.of_nat i, nth i cs (mkCap 0 0 0))) (seq s k)))).
Lemma cap_payload_eq cs : cap_payload cs = 70 :: entries cs 1 16.
Proof. unfold cap_payload, entries. exact eq_refl. Qed.
Lemma entries_step cs s k : entries cs s (S k) =
  if c_fc (nth s cs (mkCap 0 0 0)) =? Z.of_nat s then [c_fc (nth s cs (mkCap 0 0 0)); c_comp (nth s cs (mkCap 0 0 0)); c_num (nth s cs (mkCap 0 0 0))] ++ entries cs (S s) k else entries cs (S s) k.
Proof. unfold entries. cbn [seq map filter fst snd]. destruct (_ =? _); reflexivity. Qed.
Lemma entries_mod cs s k : zlen (entries cs s k) mod 3 = 0.
Proof.
  revert s. induction k as [|k IH]; intros s; [reflexivity|]. rewrite entries_step. destruct (_ =? _); [|apply IH]. specialize (IH (S s)). rewrite zlen_app. change (zlen [_; _; _]) with 3. lia.
Qed.
Lemma cap_built e p b m : reply_id p = 70 -> 60 <= m -> build_switch e p b m = Ok (p, Some (cap_payload (caps p)), None, []).
Proof.
  intros R M. rewrite build_smb by lia. unfold build_switch. rewrite R. simpl. unfold assert_len. replace (1 <? m) with true by lia. do 3 f_equal.
  unfold cap_payload. f_equal. change 1 with (Z.of_nat 1). rewrite (cap_entries_spec _ 16 1 m) by lia. reflexivity.
Qed.
Lemma entries_bytes cs : Forall cap_typed cs -> forall k s, (s + k <= 256)%nat -> bytes (entries cs s k).
Proof.
  intros T. induction k as [|k IH]; intros s L; [constructor|]. rewrite entries_step. destruct (_ =? _) eqn:E; [|apply IH; lia].
  assert (C : cap_typed (nth s cs (mkCap 0 0 0))).
  { destruct (nth_in_or_default s cs (mkCap 0 0 0)) as [I|D]; [exact (proj1 (Forall_forall _ _) T _ I)|rewrite D; split; unfold byte; simpl; lia]. }
  destruct C as [C1 C2]. apply bytes_app. split; [|apply IH; lia]. constructor; [unfold byte; lia|]. constructor; [auto|]. constructor; [auto|]. constructor.
Qed.
Lemma nth_upd_cap l n x j : (n < length l)%nat -> nth j (upd n x l) (mkCap 0 0 0) = if (j =? n)%nat then x else nth j l (mkCap 0 0 0).
Proof.
  revert n j. induction l as [|a l IH]; intros n j H; [cbn [length] in H; lia|]. destruct n, j; try reflexivity. cbn [upd nth length] in *. rewrite IH by lia. reflexivity.
Qed.
Lemma upd_len {A} n (x : A) l : length (upd n x l) = length l.
Proof. revert n. induction l as [|a l IH]; intros [|n]; cbn [upd length]; auto. Qed.
Lemma caps_read cs : forall k s f cs0 j, (s + k <= 17)%nat -> length cs0 = 17%nat -> (length (entries cs s k) <= f)%nat ->
  (declared cs j -> (s <= j < s + k)%nat -> nth j (read_caps f (entries cs s k) cs0) (mkCap 0 0 0) = nth j cs (mkCap 0 0 0)) /\
  (~ (declared cs j /\ (s <= j < s + k)%nat) -> nth j (read_caps f (entries cs s k) cs0) (mkCap 0 0 0) = nth j cs0 (mkCap 0 0 0)).
Proof.
  induction k as [|k IH]; intros s f cs0 j L C F.
  - split; [lia|]. destruct f; reflexivity.
  - rewrite entries_step in F |- *. destruct (_ =? _) eqn:E.
    + cbn [app length] in F. destruct f as [|f]; [lia|]. cbn [read_caps app]. change CAP_SENTINEL with 17. apply Z.eqb_eq in E. rewrite E.
      replace (Z.of_nat s >=? 17) with false by lia. rewrite Nat2Z.id.
      assert (X : mkCap (Z.of_nat s) (c_comp (nth s cs (mkCap 0 0 0))) (c_num (nth s cs (mkCap 0 0 0))) = nth s cs (mkCap 0 0 0)).
      { rewrite <- E. destruct (nth s cs _); reflexivity. }
      rewrite X. destruct (IH (S s) f (upd s (nth s cs (mkCap 0 0 0)) cs0) j) as [A B]; [lia|rewrite upd_len; exact C|lia|].
      destruct (Nat.eq_dec j s) as [->|NE].
      * assert (Y : nth s (read_caps f (entries cs (S s) k) (upd s (nth s cs (mkCap 0 0 0)) cs0)) (mkCap 0 0 0) = nth s cs (mkCap 0 0 0)).
        { rewrite B by (intros [_ Z]; lia). rewrite nth_upd_cap by (rewrite C; lia). rewrite Nat.eqb_refl. reflexivity. }
        split; intros; [exact Y|]. exfalso. apply H. split; [exact E|lia].
      * split; intros H; [intros H1; apply A; [exact H|lia]|]. rewrite B by (intros [Z1 Z2]; apply H; split; [exact Z1|lia]).
        rewrite nth_upd_cap by (rewrite C; lia). replace (j =? s)%nat with false by lia. reflexivity.
    + destruct (IH (S s) f cs0 j) as [A B]; [lia|exact C|exact F|]. apply Z.eqb_neq in E. destruct (Nat.eq_dec j s) as [->|NE].
      * split; intros; [exfalso; exact (E H)|]. apply B. intros [_ Z]; lia.
      * split; intros H; [intros H1; apply A; [exact H|lia]|]. apply B. intros [Z1 Z2]; apply H; split; [exact Z1|lia].
Qed.
Lemma cap_read e q cs : decode_response e q (cap_payload cs) = Ok (read_pdcap (set_reply_id 70 q) (entries cs 1 16), CNone, []).
Proof.
  rewrite cap_payload_eq. unfold decode_response. change (getb (70 :: entries cs 1 16) 0) with 70. change (from (70 :: entries cs 1 16) 1) with (entries cs 1 16). cbv zeta.
  rewrite entries_mod. reflexivity.
Qed.
Lemma pdcap_fields p d : caps (read_pdcap p d) = read_caps (length d) d (caps p) /\ pid (read_pdcap p d) = pid p /\ seqn (read_pdcap p d) = seqn p /\ address (read_pdcap p d) = address p /\
  pd_mode (fl (read_pdcap p d)) = pd_mode (fl p) /\ skip_seq (fl (read_pdcap p d)) = skip_seq (fl p) /\ sc_active (fl (read_pdcap p d)) = sc_active (fl p) /\ sc (read_pdcap p d) = sc p /\
  rb (read_pdcap p d) = rb p /\ pbuf (read_pdcap p d) = pbuf p /\ state (read_pdcap p d) = state p /\ reply_id (read_pdcap p d) = reply_id p /\ cmd_id (read_pdcap p d) = cmd_id p /\ rq_restart (read_pdcap p d) = rq_restart p.
Proof. unfold read_pdcap. cbv zeta. destruct (_ =? CAP_RXBUF); repeat apply conj; reflexivity. Qed.

(* --- events --- *)
Lemma mask_eq a b n : 0 <= a < 2 ^ n -> 0 <= b < 2 ^ n -> 0 <= n -> (forall i, 0 <= i < n -> Z.testbit a i = Z.testbit b i) -> a = b.
Proof.
  intros A B N H. apply Z.bits_inj'. intros i Hi. destruct (Z_lt_ge_dec i n) as [L|G]; [apply H; lia|].
  rewrite <- (Z.mod_small a (2 ^ n)), <- (Z.mod_small b (2 ^ n)) by assumption. rewrite !Z.mod_pow2_bits_high by lia. reflexivity.
Qed.
Lemma flags_len m n : 0 <= n -> zlen (bit_flags m n) = n.
Proof. intros H. unfold bit_flags, zlen. rewrite map_length, seq_length. lia. Qed.
Lemma flags_nth m n i : (i < Z.to_nat n)%nat -> nth i (bit_flags m n) 0 = if Z.testbit m (Z.of_nat i) then 1 else 0.
Proof.
  intros H. unfold bit_flags. rewrite nth_indep with (d' := (if Z.testbit m (Z.of_nat 0) then 1 else 0)) by (rewrite map_length, seq_length; exact H).
  rewrite (map_nth (fun i => if Z.testbit m (Z.of_nat i) then 1 else 0)), seq_nth by exact H. reflexivity.
Qed.
Lemma flags_mask m n : 0 <= n -> 0 <= m < 2 ^ n -> bits_mask 0 (bit_flags m n) = m.
Proof.
  intros N M. destruct (bits_mask_of (bit_flags m n)) as [A B]. rewrite flags_len in A by exact N. apply (mask_eq _ _ n A M N).
  intros i Hi. specialize (B (Z.to_nat i)). rewrite Z2Nat.id in B by lia. rewrite B by (pose proof (flags_len m n N); unfold zlen in *; lia).
  rewrite flags_nth by lia. rewrite Z2Nat.id by lia. destruct (Z.testbit m i); reflexivity.
Qed.
Lemma flags_bytes m n : bytes (bit_flags m n).
Proof. unfold bit_flags. apply Forall_forall. intros x H. apply in_map_iff in H. destruct H as (i & <- & _). destruct (Z.testbit _ _); unfold byte; lia. Qed.

Lemma ev_reply caps ev pay : event_payload caps ev = Some pay -> event_reply ev <> 0 /\ In (event_reply ev) [80; 83; 144; 73; 74; 72; 75] /\ nth 0 pay 0 = event_reply ev.
Proof.
  intros P. destruct ev; simpl in P |- *; try discriminate; try (injection P as <-; split; [discriminate|split; [simpl; auto 10|reflexivity]]).
  - destruct ((format =? 0) || (format =? 1)); [|discriminate]. injection P as <-. split; [discriminate|split; [simpl; auto 10|reflexivity]].
  - destruct (stype =? 0); [destruct (_ =? _); [|discriminate]; injection P as <-; split; [discriminate|split; [simpl; auto 10|reflexivity]]|].
    destruct (stype =? 1); [destruct (_ =? _); [|discriminate]; injection P as <-; split; [discriminate|split; [simpl; auto 10|reflexivity]]|].
    destruct (stype =? 2); [injection P as <-; split; [discriminate|split; [simpl; auto 10|reflexivity]]|]. destruct (stype =? 3); [injection P as <-; split; [discriminate|split; [simpl; auto 10|reflexivity]]|discriminate].
Qed.
Lemma ev_fits ev : ev_in_range ev -> event_fits ev.
Proof. destruct ev; simpl; try tauto; lia. Qed.
Lemma ev_bytes caps ev pay : event_payload caps ev = Some pay -> ev_in_range ev -> bytes pay.
Proof.
  intros P R. destruct ev; simpl in P, R; try tauto.
  - destruct ((format =? 0) || (format =? 1)); [|discriminate]. injection P as <-. destruct R as (_ & F & _ & _ & B).
    repeat (constructor; [unfold byte; lia|]). apply bytes_firstn; exact B.
  - injection P as <-. destruct R as (_ & _ & _ & B). repeat (constructor; [unfold byte; lia|]). apply bytes_firstn; exact B.
  - injection P as <-. destruct R as (_ & _ & _ & _ & B). repeat (constructor; [unfold byte; lia|]). apply bytes_firstn; exact B.
  - destruct (stype =? 0); [destruct (_ =? _); [|discriminate]; injection P as <-; constructor; [unfold byte; lia|apply flags_bytes]|].
    destruct (stype =? 1); [destruct (_ =? _); [|discriminate]; injection P as <-; constructor; [unfold byte; lia|apply flags_bytes]|].
    destruct (stype =? 2); [injection P as <-; constructor; [unfold byte; lia|apply flags_bytes]|].
    destruct (stype =? 3); [injection P as <-; constructor; [unfold byte; lia|apply flags_bytes]|discriminate].
Qed.
Lemma firstn_zlen (l : list Z) n : 0 <= n <= zlen l -> zlen (firstn (Z.to_nat n) l) = n.
Proof. intros H. unfold zlen in *. rewrite firstn_length. lia. Qed.
Lemma ev_read e q caps0 ev pay : event_payload caps0 ev = Some pay -> ev_in_range ev -> items_known (caps q) ev ->
  decode_response e q pay = Ok (got_event (upto_ev ev) (set_reply_id (event_reply ev) q), CNone, []).
Proof.
  intros P R K. destruct ev; simpl in P, R, K; try tauto.
  - rename len into bits, reader_no into reader. destruct R as (R1 & F & N & L & B). destruct ((format =? 0) || (format =? 1)); [|discriminate]. injection P as <-.
    set (t := firstn _ data). assert (T : zlen t = bit_bytes bits) by (apply firstn_zlen; unfold bit_bytes in *; lia).
    unfold decode_response. cbn [app]. match goal with |- context [getb (80 :: ?x) 0] => change (getb (80 :: x) 0) with 80; change (from (80 :: x) 1) with x end. cbv zeta.
    rewrite !zlen_cons, T. unfold getb. simpl. change (from _ 4) with t. unfold byte, bit_bytes, le16 in *.
    rewrite (Z.mod_small reader 256) by lia.
    replace (bits mod 256 + 256 * (bits / 256 mod 256)) with bits by lia.
    match goal with |- (if ?x <? 4 then _ else _) = _ => replace (x <? 4) with false by lia end.
    match goal with |- (if negb (?x =? ?y) then _ else _) = _ => replace (x =? y) with true by lia end. cbn [negb].
    replace ((bits + 7) / 8 >? 64) with false by lia. destruct F as [->| ->]; reflexivity.
  - destruct R as (R1 & N & L & B). injection P as <-. set (t := firstn _ data).
    match type of L with ?x <= _ => assert (T : zlen t = x) by (apply firstn_zlen; lia) end.
    unfold decode_response. cbn [app]. match goal with |- context [getb (83 :: ?x) 0] => change (getb (83 :: x) 0) with 83; change (from (83 :: x) 1) with x end. cbv zeta.
    rewrite !zlen_cons, T. unfold getb. simpl. change (from _ 2) with t. unfold byte in *.
    rewrite !Z.mod_small by lia.
    match goal with |- (if ?x <? 2 then _ else _) = _ => replace (x <? 2) with false by lia end.
    match goal with |- (if negb (?x =? ?y) then _ else _) = _ => replace (x =? y) with true by lia end. cbn [negb].
    match goal with |- (if ?x >? 64 then _ else _) = _ => replace (x >? 64) with false by lia end. reflexivity.
  - destruct R as (R1 & R2 & N & L & B). injection P as <-. set (t := firstn _ data).
    match type of L with ?x <= _ => assert (T : zlen t = x) by (apply firstn_zlen; lia) end.
    unfold decode_response. cbn [app]. match goal with |- context [getb (144 :: ?x) 0] => change (getb (144 :: x) 0) with 144; change (from (144 :: x) 1) with x end. cbv zeta.
    rewrite !zlen_cons, T. unfold getb. simpl. change (from _ 4) with t. rewrite wire24. unfold byte, u8 in *.
    match goal with |- (if ?x <? 4 then _ else _) = _ => replace (x <? 4) with false by lia end.
    match goal with |- (if ?x >? 128 then _ else _) = _ => replace (x >? 128) with false by lia end.
    rewrite (Z.mod_small vendor_code), (Z.mod_small command) by lia. replace (1 + (1 + (1 + (1 + len))) - 4) with len by lia. rewrite Z.mod_small by lia. reflexivity.
  - destruct R as (R1 & R2 & R3 & N & M). destruct K as [K0 K1]. unfold cap_items in *.
    assert (C : stype = 0 \/ stype = 1 \/ stype = 2 \/ stype = 3) by lia. destruct C as [->|[->|[->| ->]]]; cbn [Z.eqb Pos.eqb] in P.
    + destruct (_ =? _) eqn:E; [|discriminate]. injection P as <-.
      unfold decode_response. match goal with |- context [getb (73 :: ?x) 0] => change (getb (73 :: x) 0) with 73; change (from (73 :: x) 1) with x end. cbv zeta. simpl.
      unfold dec_mask. rewrite flags_len by lia. change (cap_at (set_reply_id 73 q) CAP_CONTACT) with (nth 1 (caps q) (mkCap 0 0 0)). rewrite (K0 eq_refl), Z.eqb_refl. cbn [negb orb].
      match goal with |- (if ?x >? 32 then _ else _) = _ => replace (x >? 32) with false by lia end. rewrite flags_mask by lia. reflexivity.
    + destruct (_ =? _) eqn:E; [|discriminate]. injection P as <-.
      unfold decode_response. match goal with |- context [getb (74 :: ?x) 0] => change (getb (74 :: x) 0) with 74; change (from (74 :: x) 1) with x end. cbv zeta. simpl.
      unfold dec_mask. rewrite flags_len by lia. change (cap_at (set_reply_id 74 q) CAP_OUTPUT) with (nth 2 (caps q) (mkCap 0 0 0)). rewrite (K1 eq_refl), Z.eqb_refl. cbn [negb orb].
      match goal with |- (if ?x >? 32 then _ else _) = _ => replace (x >? 32) with false by lia end. rewrite flags_mask by lia. reflexivity.
    + injection P as <-. specialize (R2 eq_refl). subst. 
      assert (X : mask = 0 \/ mask = 1 \/ mask = 2 \/ mask = 3) by lia. destruct X as [->|[->|[->| ->]]]; reflexivity.
    + injection P as <-. specialize (R3 eq_refl). subst.
      assert (X : mask = 0 \/ mask = 1) by lia. destruct X as [->| ->]; reflexivity.
Qed.
Lemma ev_built e y b m ev pay caps0 : reply_id y = event_reply ev -> eph y = EphEv ev -> caps y = caps0 -> event_payload caps0 ev = Some pay -> ev_in_range ev -> zlen pay + 2 <= m ->
  build_switch e y b m = Ok (y, Some pay, None, []).
Proof.
  intros R E C P G M. destruct (ev_reply _ _ _ P) as (N & I & _). rewrite build_smb; [|rewrite R; intros X; rewrite X in I; simpl in I; lia|rewrite R; intros X; rewrite X in I; simpl in I; lia].
  apply (event_built e y ev pay m N R E); [rewrite C; exact P|exact (ev_fits _ G)|exact M].
Qed.
