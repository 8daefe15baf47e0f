(** CP: facts about one refresh of a PD entry - frames, session keys, moves. *)
From Verif Require Import Base ListLemmas Crc SpecCrc CrcProofs CrcBurst Aes AesProofs Rb RbProofs
  Types Sc ScProofs Phy PhyCheck File Pd Cp SpecRx SpecFrame SpecSec RxProofs PdRx PdCore PhyTx PdTx PdReply
  PdStep PdRun PdWire PdFwd PdSec PdHist2 CpCtx SpecPd SpecCp CpTx CpRx CpStep CpInv CpEdge.
From Coq Require Import ZifyBool ZifyNat.
Ltac Zify.zify_post_hook ::= Z.div_mod_to_equations.
Local Opaque aes_ecb_encrypt aes_cbc_encrypt aes_cbc_decrypt mac_of RB_SIZE osdp_mac enc1 cap_entries.

(** * Received frames *)
Lemma got_full e p p1 : got_frame e p p1 -> full p1 /\ length (pbuf p1) = 256%nat.
Proof.
  intros (R & W & _ & A & B & _). destruct W as [WB WF]. split; [|apply WB].
  split; auto. split; auto. destruct WF as [(X & _)|(X & Y & Z)]; [lia|]. apply Z; lia.
Qed.

(* the frame f arrived *)
Definition cp_heard (e : env) (p : pd) (f : list Z) : Prop :=
  f_shape true f /\ exists noise mk rest, arrived e p = noise ++ mk ++ f ++ rest /\ ~ In 83 noise /\ zlen mk <= 1.

Lemma got_heard e p p1 : got_frame e p p1 -> pd_mode (fl p) = false -> cp_heard e p (frame_of p1).
Proof.
  intros (R & W & _ & A & B & (noise & mk & X & Y & Z & _) & S & _) M. rewrite M in S. split; auto.
  exists noise, mk, (rb_contents (rb p1)). split; auto. split; auto. destruct (mark_len_cases p1); lia.
Qed.

(* f is intact, for this entry and has the number of the command that was sent last *)
Definition cp_accepted (p : pd) (f : list Z) : Prop :=
  f_intact f /\ f_mine (address p) f /\ f_seq f = seqn p mod 4.

Lemma cp_decode_carries p q l : decode_packet p = Ok (q, DData l) -> cbinv p -> full p -> sc_active (fl p) = false -> carries (frame_of p) l.
Proof.
  intros D B F A. pose proof (cv_ty p B) as (_ & _ & _ & _ & LB & BB).
  destruct (frame_from p LB F) as (Z & _ & _). pose proof (zlen_nonneg (frame_of p)) as NN.
  pose proof (bytes_getb (from (pbuf p) (mark_len p)) 5 (bytes_skipn _ _ BB)) as B5.
  pose proof (frame_prefix p (zlen (frame_of p)) LB F ltac:(lia)) as FP.
  rewrite (firstn_all2 (frame_of p)) in FP by (unfold zlen; lia).
  assert (PB : pblen p = plen p) by apply F.
  assert (X : exists off len, l = sub (from (pbuf p) (mark_len p)) off len /\ 0 < len /\ 0 <= off /\ off + len <= zlen (frame_of p)).
  { unfold decode_packet in D. cbv zeta in D. rewrite A, (cv_mode p B), PB in D. cbn [andb negb] in D. unfold ret_data in D.
    unfold byte in B5.
    repeat match type of D with context [if ?b then _ else _] => destruct b eqn:? end; inv D;
    (eexists _, _; split; [reflexivity|]; lia). }
  destruct X as (off & len & -> & L1 & L2 & L3).
  destruct (infix_sub (from (pbuf p) (mark_len p)) (Z.to_nat (zlen (frame_of p))) (Z.to_nat off) (Z.to_nat len) ltac:(lia)) as (a & t & E).
  exists a, t. rewrite <- FP. exact E.
Qed.

(** * Session keys *)
(* one of the three session keys: x is 130 for encryption, 1 and 2 for the MAC *)
Definition skey (base rnd : list Z) (x : Z) : list Z := enc1 base ([1; x] ++ firstn 6 rnd ++ repeat 0 8).
Local Transparent enc1.
Lemma enc1_eq k b : aes_ecb_encrypt k b = enc1 k b.
Proof. reflexivity. Qed.
Local Opaque enc1.
Lemma skey_eq base r x : aes_ecb_encrypt base (session_block 1 x r) = skey base r x.
Proof. rewrite enc1_eq. unfold skey, session_block. reflexivity. Qed.
Definition base_key (dflt : bool) (s : schan) : list Z := if dflt then scbk_default else scbk s.
Definition keyed (b : bool) (s : schan) : Prop :=
  s_enc s = skey (base_key b s) (cp_random s) 130 /\ s_mac1 s = skey (base_key b s) (cp_random s) 1 /\
  s_mac2 s = skey (base_key b s) (cp_random s) 2.
(* fields of a session other than the chaining values and the own cryptogram *)
Definition kcore (s : schan) : schan := cset_r_mac [] (cset_c_mac [] (cset_cp_crypt [] s)).

Lemma kcore_fields s t : kcore t = kcore s -> scbk t = scbk s /\ s_enc t = s_enc s /\ s_mac1 t = s_mac1 s /\ s_mac2 t = s_mac2 s /\
  cp_random t = cp_random s /\ pd_random t = pd_random s /\ pd_crypt t = pd_crypt s /\ client_uid t = client_uid s.
Proof.
  intros H. repeat split.
  - exact (f_equal scbk H). - exact (f_equal s_enc H). - exact (f_equal s_mac1 H). - exact (f_equal s_mac2 H).
  - exact (f_equal cp_random H). - exact (f_equal pd_random H). - exact (f_equal pd_crypt H). - exact (f_equal client_uid H).
Qed.

Lemma keyed_core b s t : kcore t = kcore s -> keyed b s -> keyed b t.
Proof.
  intros H K. destruct (kcore_fields _ _ H) as (a & b0 & c & d & e & _). unfold keyed, base_key in *. rewrite a, b0, c, d, e. exact K.
Qed.

(* f carries the answer to the challenge: peer id, random number, and the cryptogram made with the
   session key that belongs to base *)
Definition proves_key (base rnd f : list Z) (uid prnd : list Z) : Prop :=
  length uid = 8%nat /\ length prnd = 8%nat /\
  carries f (118 :: uid ++ prnd ++ enc1 (skey base rnd 130) (firstn 8 rnd ++ prnd)).

(* compares of known codes *)
Ltac codes H := repeat match type of H with context [Z.pos ?a =? ?r] =>
  let v := eval vm_compute in (Z.pos a =? r) in change (Z.pos a =? r) with v in H end; cbv iota in H.

Lemma resp_ccrypt e p0 l q o : decode_response e p0 l = Ok (q, CNone, o) -> getb l 0 = 118 -> 1 <= zlen l ->
  sc_active (fl p0) = false /\ cmd_id p0 = 118 /\ zlen l = 33 /\
  sc q = keys_of (use_scbkd (fl p0)) (cset_pd_crypt (sub (from l 1) 16 16) (cset_pd_random (sub (from l 1) 8 8)
                (cset_client_uid (sub (from l 1) 0 8) (sc p0)))) /\ pd_crypt (sc q) = pd_cryptogram_of (sc q).
Proof.
  unfold decode_response. cbv zeta. intros H C L. rewrite C in H. codes H.
  change (sc_active (fl (set_reply_id 118 p0))) with (sc_active (fl p0)) in H.
  change (cmd_id (set_reply_id 118 p0)) with (cmd_id p0) in H.
  destruct (sc_active (fl p0)); cbn [orb] in H; [discriminate|].
  destruct (cmd_id p0 =? CMD_CHLNG) eqn:CM; cbn [negb] in H; [|discriminate].
  destruct (zlen (from l 1) =? 32) eqn:ZL; cbn [negb] in H; [|discriminate].
  assert (ZD : zlen (from l 1) = zlen l - 1) by (unfold from, zlen in *; rewrite skipn_length; lia).
  split; auto. split; [unfold CMD_CHLNG in CM; lia|]. split; [lia|].
  revert H. match goal with |- context [compute_session_keys ?x] => remember (compute_session_keys x) as p1 eqn:P1 end.
  unfold verify_pd_cryptogram. rewrite keys_of_eq in P1.
  destruct (eqb_bytes (pd_crypt (sc p1)) (pd_cryptogram_of (sc p1))) eqn:EV; [|discriminate]. intros H. injection H as <- _.
  apply eqb_bytes_eq in EV. split; [|exact EV]. rewrite P1. reflexivity.
Qed.

Lemma resp_rmac e p0 l q o : decode_response e p0 l = Ok (q, CNone, o) -> getb l 0 = 120 -> 1 <= zlen l ->
  sc_active (fl p0) = false /\ cmd_id p0 = 119 /\ zlen l = 17 /\ sc q = cset_r_mac (from l 1) (sc p0).
Proof.
  unfold decode_response. cbv zeta. intros H C L. rewrite C in H. codes H.
  change (sc_active (fl (set_reply_id 120 p0))) with (sc_active (fl p0)) in H.
  change (cmd_id (set_reply_id 120 p0)) with (cmd_id p0) in H.
  destruct (sc_active (fl p0)); cbn [orb] in H; [discriminate|].
  destruct (cmd_id p0 =? CMD_SCRYPT) eqn:CM; cbn [negb] in H; [|discriminate].
  destruct (zlen (from l 1) =? 16) eqn:ZL; cbn [negb] in H; [|discriminate].
  assert (ZD : zlen (from l 1) = zlen l - 1) by (unfold from, zlen in *; rewrite skipn_length; lia).
  split; auto. split; [unfold CMD_SCRYPT in CM; lia|]. split; [lia|]. inv H. reflexivity.
Qed.

Lemma take3 (l : list Z) : zlen l = 33 -> getb l 0 = 118 ->
  l = 118 :: sub (from l 1) 0 8 ++ sub (from l 1) 8 8 ++ sub (from l 1) 16 16 /\
  length (sub (from l 1) 0 8) = 8%nat /\ length (sub (from l 1) 8 8) = 8%nat.
Proof.
  intros L C. unfold zlen in L. do 33 (destruct l as [|? l]; [simpl in L; lia|]). destruct l; [|simpl in L; lia].
  unfold getb in C. simpl in C. subst. auto.
Qed.

Lemma keys_of_keyed b s : keyed b (keys_of b s).
Proof.
  unfold keyed, keys_of. cbv zeta. simpl. rewrite !skey_eq. auto.
Qed.

Lemma keys_of_crypt b s : pd_cryptogram_of (keys_of b s) = enc1 (skey (base_key b s) (cp_random s) 130) (firstn 8 (cp_random s) ++ firstn 8 (pd_random s)).
Proof.
  unfold pd_cryptogram_of, keys_of. cbv zeta. simpl. rewrite !skey_eq, enc1_eq. reflexivity.
Qed.

(* a good CCRYPT proves knowledge of the base key *)
Lemma ccrypt_proof e p1 p2 l q o : cbinv p1 -> full p1 -> decode_packet p1 = Ok (p2, DData l) ->
  decode_response e p2 l = Ok (q, CNone, o) -> reply_id q = 118 -> sc_active (fl p1) = false -> length (cp_random (sc p1)) = 8%nat ->
  cmd_id p1 = 118 /\ keyed (use_scbkd (fl q)) (sc q) /\ scbk (sc q) = scbk (sc p1) /\ cp_random (sc q) = cp_random (sc p1) /\
  proves_key (base_key (use_scbkd (fl q)) (sc q)) (cp_random (sc p1)) (frame_of p1) (client_uid (sc q)) (pd_random (sc q)).
Proof.
  intros I F D R ID A LR.
  destruct (cp_decode_packet _ _ _ I ltac:(destruct F as (x & y & _); lia) D) as (I2 & DC & _ & _ & _ & BL & NE & L & _ & _ & SA).
  assert (L1 : 1 <= zlen l) by (destruct l; [congruence|]; rewrite zlen_cons; pose proof (zlen_nonneg l); lia).
  pose proof (decode_response_rel _ _ _ _ _ _ R L1) as RR.
  assert (C : getb l 0 = 118) by (rewrite <- (rr_id _ _ _ _ _ _ RR); exact ID).
  destruct (resp_ccrypt _ _ _ _ _ R C L1) as (_ & CM & Z & SQ & V).
  destruct (dcore_fields _ _ DC) as (d1 & d2 & d3 & _).
  assert (CM1 : cmd_id p2 = cmd_id p1) by exact (f_equal (fun x => cmd_id x) DC).
  assert (K1 : scbk (sc p2) = scbk (sc p1)) by exact (f_equal (fun x => scbk (sc x)) DC).
  assert (K2 : cp_random (sc p2) = cp_random (sc p1)) by exact (f_equal (fun x => cp_random (sc x)) DC).
  assert (US : use_scbkd (fl q) = use_scbkd (fl p2)) by exact (f_equal (fun x => use_scbkd (fl x)) (rr_core _ _ _ _ _ _ RR)).
  split; [congruence|]. rewrite US.
  destruct (take3 l Z C) as (E & U1 & U2).
  pose proof (cp_decode_carries _ _ _ D I F A) as CR. rewrite E in CR.
  pose proof (keys_of_keyed (use_scbkd (fl p2)) (cset_pd_crypt (sub (from l 1) 16 16) (cset_pd_random (sub (from l 1) 8 8)
                (cset_client_uid (sub (from l 1) 0 8) (sc p2))))) as KK. rewrite <- SQ in KK.
  rewrite SQ, keys_of_crypt in V.
  set (u := sub (from l 1) 0 8) in *. set (v := sub (from l 1) 8 8) in *. set (w := sub (from l 1) 16 16) in *. clearbody u v w.
  split; [exact KK|].
  assert (X : scbk (sc q) = scbk (sc p2) /\ cp_random (sc q) = cp_random (sc p2) /\ client_uid (sc q) = u /\ pd_random (sc q) = v)
    by (rewrite SQ; unfold keys_of; cbv zeta; simpl; auto).
  destruct X as (X1 & X2 & X3 & X4).
  split; [congruence|]. split; [congruence|]. rewrite X3, X4.
  split; [exact U1|]. split; [exact U2|]. unfold base_key in *. rewrite X1.
  assert (W : w = pd_crypt (keys_of (use_scbkd (fl p2)) (cset_pd_crypt w (cset_pd_random v (cset_client_uid u (sc p2))))))
    by (unfold keys_of; cbv zeta; simpl; reflexivity).
  rewrite V in W. cbn [pd_random cp_random scbk cset_pd_crypt cset_pd_random cset_client_uid] in W. rewrite (firstn_all2 v) in W by lia. rewrite K2 in W. rewrite W in CR. exact CR.
Qed.
