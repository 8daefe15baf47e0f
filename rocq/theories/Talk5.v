(** Panel and device: commands. *)
From Verif Require Import Base ListLemmas Crc SpecCrc CrcProofs CrcBurst Aes AesProofs Rb RbProofs
  Types Sc ScProofs Phy PhyCheck File Pd Cp PdRun SpecRx SpecFrame SpecSec SpecSession SpecCmd SpecApp SpecPd SpecLink RxProofs RxFwd PdRx PdCore PhyTx PdTx PdReply
  PdStep PdWire PdFwd PdSec PdApp PdTrace PdHist2 MacProofs WireSec CpCtx SpecCp SpecCpRun CpTx CpRx CpStep CpInv CpEdge CpFacts CpSum CpFwd Chunk Trip ChunkRun LinkProofs LinkStep CpSend SpecHand SpecTalk Hand Line Talk Talk2 Talk3 Talk4.
From Coq Require Import ZifyBool ZifyNat.
Ltac Zify.zify_post_hook ::= Z.div_mod_to_equations.
Local Opaque aes_ecb_encrypt aes_cbc_encrypt aes_cbc_decrypt mac_of RB_SIZE osdp_mac enc1 osdp_encrypt encrypt_data cap_entries.

Definition cmd_code (k : cmd) : Z :=
  match k with
  | COutput _ _ _ => 104 | CLed _ _ _ _ => 105 | CBuzzer _ _ _ _ _ => 106 | CText _ _ _ _ _ _ _ => 107
  | CComset _ _ => 110 | CMfg _ _ _ _ => 128 | CKeyset _ _ _ => 117
  | CStatus ty _ _ => if ty =? 0 then 101 else if ty =? 1 then 102 else if ty =? 2 then 100 else 103
  | _ => 0
  end.
Definition led_wire (t : ledp) : list Z := [lp_control t; lp_on t; lp_off t; lp_on_color t; lp_off_color t].
Definition cmd_data (k : cmd) : list Z :=
  match k with
  | COutput no cc t => [no; cc; t mod 256; t / 256 mod 256]
  | CLed r n t m => [r; n] ++ led_wire t ++ [lp_timer t mod 256; lp_timer t / 256 mod 256] ++ led_wire m
  | CBuzzer r cc on off rep => [r; cc; on; off; rep]
  | CText r cc tmp row col n data => [r; cc; tmp; row; col; n] ++ firstn (Z.to_nat n) data
  | CComset a b => [a; b mod 256; b / 256 mod 256; b / 65536 mod 256; b / 16777216 mod 256]
  | CMfg v m n data => [v mod 256; v / 256 mod 256; v / 65536 mod 256; m] ++ firstn (Z.to_nat n) data
  | CKeyset _ _ data => [1; 16] ++ firstn 16 data
  | _ => []
  end.
Definition cmd_wire (k : cmd) : list Z := cmd_code k :: cmd_data k.

Lemma u8_id x : byte x -> u8 x = x.
Proof. unfold byte, u8. intros. apply Z.mod_small; lia. Qed.

Lemma cmd_data_len k : cmd_in_range k -> zlen (cmd_data k) <= 68.
Proof.
  intros R. destruct k; cbn [cmd_in_range cmd_data] in *; try tauto; try (unfold zlen; cbn [app led_wire length]; lia).
  - rewrite zlen_app, firstn_zlen by (split; [lia|apply R]). unfold zlen; cbn [length]. lia.
  - rewrite zlen_app. replace 16%nat with (Z.to_nat 16) by reflexivity. rewrite firstn_zlen by (split; [lia|apply R]). unfold zlen; cbn [length]; lia.
  - rewrite zlen_app, firstn_zlen by (split; [lia|apply R]). unfold zlen; cbn [length]. lia.
Qed.
Ltac byte_list := repeat (apply Forall_cons; [first [assumption|unfold byte; lia]|]); try apply Forall_nil.
Lemma cmd_wire_bytes k : cmd_in_range k -> bytes (cmd_wire k).
Proof.
  intros R. apply Forall_cons.
  { destruct k; cbn [cmd_code cmd_in_range] in *; unfold byte; try lia. destruct (_ =? 0); [lia|]. destruct (_ =? 1); [lia|]. destruct (_ =? 2); lia. }
  destruct k; cbn [cmd_in_range cmd_data] in *; try tauto; try apply Forall_nil.
  - destruct R as (? & ? & ?). byte_list.
  - destruct R as (? & ? & (? & ? & ? & ? & ? & ?) & (? & ? & ? & ? & ? & ?)). cbn [app led_wire]. byte_list.
  - destruct R as (? & ? & ? & ? & ?). byte_list.
  - destruct R as (? & ? & ? & ? & ? & ? & ? & ?). cbn [app]. byte_list. apply bytes_firstn; assumption.
  - destruct R as (? & ? & ? & ?). cbn [app]. byte_list. apply bytes_firstn; assumption.
  - destruct R. byte_list.
  - destruct R as (? & ? & ? & ? & ?). cbn [app]. byte_list. apply bytes_firstn; assumption.
Qed.
Lemma cmd_fits n act k : cmd_in_range k -> 95 <= n <= 256 -> fits n act (cmd_wire k).
Proof.
  intros R N. pose proof (cmd_data_len k R). pose proof (zlen_nonneg (cmd_data k)). split; [exact (cmd_wire_bytes k R)|]. unfold cmd_wire. rewrite zlen_cons. split; [lia|]. split; [lia|].
  destruct act; [|lia]. destruct (_ >? 1); lia.
Qed.

Ltac u8s := repeat match goal with |- context [u8 ?x] => rewrite (u8_id x) by first [assumption|unfold byte; lia] end.
(* the panel's packet *)
Lemma take_ok (l : list Z) n : 0 <= n <= zlen l -> take_arr l n = Ok (firstn (Z.to_nat n) l).
Proof. intros H. unfold take_arr. replace (n <? 0) with false by lia. replace (zlen l <? n) with false by lia. reflexivity. Qed.
Lemma cmd_built e x smb m k : cmd_in_range k -> cmd_id x = cmd_code k -> eph x = EphCmd k -> (cmd_code k = 117 -> sc_active (fl x) = true) -> zlen (cmd_wire k) + 2 <= m -> 60 <= m ->
  build_cmd_switch e x smb m = Ok (x, Some (cmd_wire k), None, []).
Proof.
  intros R C E S L M. unfold cmd_wire in L. rewrite zlen_cons in L.
  destruct k; cbn [cmd_in_range cmd_code cmd_data] in R, C, E, L, S; try tauto; unfold build_cmd_switch; rewrite C; cbn [cmd_wire cmd_code cmd_data].
  - destruct R as (? & ? & ?). simpl. unfold build_app_cmd. rewrite C, E. simpl. unfold assert_len. replace (5 <? m) with true by lia. u8s. reflexivity.
  - destruct R as (? & ? & (? & ? & ? & ? & ? & ?) & (? & ? & ? & ? & ? & ?)). simpl. unfold build_app_cmd. rewrite C, E. simpl. unfold assert_len. replace (15 <? m) with true by lia. u8s. reflexivity.
  - destruct R as (? & ? & ? & ? & ?). simpl. unfold build_app_cmd. rewrite C, E. simpl. unfold assert_len. replace (6 <? m) with true by lia. u8s. reflexivity.
  - destruct R as (? & ? & ? & ? & ? & ? & ? & ?). rewrite zlen_app, firstn_zlen in L by lia. change (zlen [_; _; _; _; _; _]) with 6 in L. simpl. unfold build_app_cmd. rewrite C, E. simpl. unfold assert_len.
    match goal with |- context [?a <? m] => replace (a <? m) with true by lia end. rewrite take_ok by lia. u8s. reflexivity.
  - destruct R as (-> & -> & ? & ?). simpl. unfold build_app_cmd. rewrite C, E. simpl. rewrite (S eq_refl). simpl. unfold assert_len. replace (19 <? m) with true by lia. rewrite take_ok by lia. reflexivity.
  - destruct R as (? & ?). simpl. unfold build_app_cmd. rewrite C, E. simpl. unfold assert_len. replace (6 <? m) with true by lia. u8s. reflexivity.
  - destruct R as (? & ? & ? & ? & ?). rewrite zlen_app, firstn_zlen in L by lia. change (zlen [_; _; _; _]) with 4 in L. simpl. unfold build_app_cmd. rewrite C, E. simpl. unfold assert_len.
    match goal with |- context [?a <? m] => replace (a <? m) with true by lia end. match goal with |- context [?a >? 64] => replace (a >? 64) with false by lia end.
    rewrite take_ok by lia. u8s. reflexivity.
  - assert (T : stype = 0 \/ stype = 1 \/ stype = 2 \/ stype = 3) by lia. destruct T as [->|[->|[->| ->]]]; simpl; unfold assert_len; replace (1 <? m) with true by lia; reflexivity.
Qed.
Lemma cmd_pending e c k q : state c = SOnline -> cmdq c = k :: q -> cmd_in_range k -> (cmd_code k = 117 -> sc_active (fl c) = true) ->
  state_get_cmd e c = Ok (set_eph (EphCmd k) (set_cmdq q c), cmd_code k, []) /\ 0 < cmd_code k /\ in_sc_handshake false (cmd_code k) = false.
Proof.
  intros S Q R A. unfold state_get_cmd. rewrite S. unfold get_online_command. rewrite Q. unfold translate_cmd.
  destruct k; cbn [cmd_in_range cmd_code] in *; try tauto; try (split; [reflexivity|split; [lia|reflexivity]]).
  - destruct R as (-> & _). change (fl (set_eph _ (set_cmdq q c))) with (fl c). rewrite (A eq_refl). split; [reflexivity|split; [lia|reflexivity]].
  - assert (T : stype = 0 \/ stype = 1 \/ stype = 2 \/ stype = 3) by lia. destruct T as [->|[->|[->| ->]]]; (split; [reflexivity|split; [simpl; lia|reflexivity]]).
Qed.

(* --- the device --- *)
(* an answer that can be built *)
Definition good_reply (p : pd) : Prop :=
  (reply_id p = 64 /\ (cmd_id p = 117 -> exists k, eph p = EphKey k)) \/
  (reply_id p = 65 /\ exists k, eph p = EphNak k) \/
  ((reply_id p = 72 \/ reply_id p = 73 \/ reply_id p = 74 \/ reply_id p = 75) /\ exists t n m, eph p = EphEv (EStatus t n m) /\ n <= 32) \/
  (reply_id p = 84 /\ exists a b, eph p = EphCmd (CComset a b)).
Lemma good_mask y fc m : (exists t n k, eph y = EphEv (EStatus t n k) /\ n <= 32) -> 60 <= m -> exists x, build_mask y fc m = Ok x.
Proof.
  intros (t & n & k & E & N) M. unfold build_mask, eph_status. rewrite E, bind_Ok. cbn [fst snd]. cbv zeta. destruct (negb (n =? _)) eqn:X; [eauto|].
  unfold assert_len, mask_bits. match goal with |- context [?a <? m] => replace (a <? m) with true by lia end. match goal with |- context [?a >? 32] => replace (a >? 32) with false by lia end. rewrite bind_Ok. eexists; reflexivity.
Qed.
Lemma good_built e p smb m : good_reply p -> 60 <= m -> exists x, build_switch e p smb m = Ok x.
Proof.
  intros G M. unfold build_switch. cbv zeta.
  destruct G as [(R & _)|[(R & k & E)|[(R & E)|(R & a & b & E)]]].
  - rewrite R. simpl. unfold assert_len. replace (1 <? m) with true by lia. eauto.
  - rewrite R, E. simpl. unfold assert_len. replace (2 <? m) with true by lia. eauto.
  - destruct R as [R|[R|[R|R]]]; rewrite R; simpl.
    + destruct E as (t & n & k & E & N). unfold eph_status. rewrite E. simpl. unfold assert_len. replace (3 <? m) with true by lia. eauto.
    + destruct (good_mask p CAP_CONTACT m E M) as (x & ->). simpl. eauto.
    + destruct (good_mask p CAP_OUTPUT m E M) as (x & ->). simpl. eauto.
    + destruct E as (t & n & k & E & N). unfold eph_status. rewrite E. simpl. unfold assert_len. replace (2 <? m) with true by lia. eauto.
  - rewrite R, E. simpl. unfold assert_len. replace (6 <? m) with true by lia. eauto.
Qed.
Lemma good_phase e p : binv p -> bytes (e_rand e) -> 69 <= tx_buf_size p -> good_reply p -> exists q o, reply_phase e p = Ok (q, o).
Proof.
  intros B R N G. pose proof (tx_size p) as N2.
  assert (RM : 60 <= reply_room p).
  { unfold reply_room. pose proof (pd_hdr_len p). pose proof (mk_of_len p). unfold zlen. rewrite app_length. lia. }
  destruct (good_built e (after_init p) (reply_smb p) (reply_room p) G RM) as (x & BS).
  destruct (send_reply_total e p x (iv_mode p B) (iv_ty p B) R (conj N N2) BS) as ([[q ok] o] & SR).
  unfold reply_phase. rewrite SR, bind_Ok. cbv iota. destruct ok; [|eauto].
  destruct ((cmd_id q =? CMD_KEYSET) && (reply_id q =? REPLY_ACK)) eqn:KS; [|eauto].
  destruct (send_reply_spec e p q true o (iv_mode p B) (iv_ty p B) R N2 SR) as [(X & _)|(_ & p2 & pay & ss & m & smb & ob & ot & _ & _ & _ & BR & _ & TC & _)]; [lia|].
  assert (h1 : cmd_id q = cmd_id p2) by exact (f_equal (fun x => cmd_id x) TC).
  assert (h2 : reply_id q = reply_id p2) by exact (f_equal (fun x => reply_id x) TC).
  assert (h3 : eph q = eph p2) by exact (f_equal (fun x => eph x) TC).
  apply andb_true_iff in KS. destruct KS as [K1 K2]. apply Z.eqb_eq in K1, K2. change CMD_KEYSET with 117 in K1. change REPLY_ACK with 64 in K2.
  destruct G as [(G1 & G2)|G].
  - assert (P2 : p2 = after_init p) by (unfold build_rel in BR; change (reply_id (after_init p)) with (reply_id p) in BR; destruct BR as [X|[(X & _)|[(X & _)|[(X & _)|[(X & _)|(X & _)]]]]]; [exact X|rewrite G1 in X; discriminate..]).
    subst p2. destruct G2 as (k & G2); [rewrite <- K1, h1; reflexivity|]. change (eph (after_init p)) with (eph p) in h3. rewrite h3, G2. eauto.
  - exfalso. rewrite K2 in h2. clear - BR G h2.
    assert (D : reply_id p2 = reply_id p).
    { destruct BR as [->|[(_ & a & b & _ & ->)|[(_ & f & ->)|[(X & _)|[(X & _)|(X & _)]]]]]; try reflexivity; change (reply_id (after_init p)) with (reply_id p) in X; rewrite X in G; clear - G;
        destruct G as [(G & _)|[(G & _)|(G & _)]]; try discriminate; destruct G as [G|[G|[G|G]]]; discriminate. }
    rewrite D in h2. destruct G as [(G & _)|[(G & _)|(G & _)]]; [lia| |lia]. destruct G as [G|[G|[G|G]]]; lia.
Qed.

Definition heard_cmd (e : env) (p : pd) (k : cmd) : Prop :=
  exists p3 r, decode_command e p (cmd_wire k) = Ok (p3, r, [OCmd (upto k)]) /\ (r = RNone \/ r = RReply) /\ peer_rx p3 = peer_rx p /\ good_reply p3.
Lemma heard_by e p k p3 r : enforce (fl p) = false \/ sc_active (fl p) = true ->
  decode_switch e (set_cmd_id (cmd_code k) (set_reply_id 0 p)) (cmd_code k) (cmd_data k) = Some (Ok (p3, r, [OCmd (upto k)])) ->
  r = RNone \/ r = RReply \/ r = RGeneric -> peer_rx p3 = peer_rx p -> (r <> RGeneric -> good_reply p3) -> heard_cmd e p k.
Proof.
  intros E D R P G. unfold heard_cmd, decode_command, cmd_wire. cbv zeta. change (getb (cmd_code k :: cmd_data k) 0) with (cmd_code k). change (from (cmd_code k :: cmd_data k) 1) with (cmd_data k).
  change (fl (set_cmd_id (cmd_code k) (set_reply_id 0 p))) with (fl p).
  replace (enforce (fl p) && negb (sc_active (fl p))) with false by (destruct E as [-> | ->]; [reflexivity|rewrite andb_false_r; reflexivity]). cbn [andb].
  rewrite D, bind_Ok. destruct R as [->|[->| ->]].
  - exists p3, RNone. split; [reflexivity|]. split; [left; reflexivity|]. split; [exact P|apply G; discriminate].
  - exists p3, RReply. split; [reflexivity|]. split; [right; reflexivity|]. split; [exact P|apply G; discriminate].
  - exists (nak 2 p3), RReply. split; [reflexivity|]. split; [right; reflexivity|]. split; [exact P|]. right; left. split; [reflexivity|exists 2; reflexivity].
Qed.
Lemma good_ack p : cmd_id p <> 117 -> good_reply (set_reply_id 64 p).
Proof. intros H. left. split; [reflexivity|intros X; contradiction]. Qed.
Lemma good_nak n p : good_reply (nak n p).
Proof. right; left. split; [reflexivity|exists n; reflexivity]. Qed.

(* commands that are acknowledged or refused after one call *)
Lemma heard_verdict e p k : enforce (fl p) = false \/ sc_active (fl p) = true -> cmd_code k <> 117 ->
  (forall p1, caps p1 = caps p -> has_cb p1 = has_cb p -> decode_switch e p1 (cmd_code k) (cmd_data k) =
      Some (match do_callback e 0 p1 (upto k) with
      | (p1, false, _, o) => Ok (p1, RReply, o)
      | (p1, true, _, o) => Ok (set_reply_id REPLY_ACK p1, RNone, o)
      end)) -> heard_cmd e p k.
Proof.
  intros E N D. set (p1 := set_cmd_id (cmd_code k) (set_reply_id 0 p)). specialize (D p1 eq_refl eq_refl). unfold do_callback in D. destruct (e_cb e 0 (upto k)) as [rc c1].
  destruct (rc =? 0).
  - apply (heard_by e p k (set_reply_id 64 p1) RNone E D); [left; reflexivity|reflexivity|]. intros _. apply good_ack. exact N.
  - apply (heard_by e p k (nak 9 p1) RReply E D); [right; left; reflexivity|reflexivity|]. intros _. apply good_nak.
Qed.
(* one record *)
Lemma heard_record e p k n dec : enforce (fl p) = false \/ sc_active (fl p) = true -> has_cb p = true -> cmd_code k <> 117 ->
  (forall p1, decode_switch e p1 (cmd_code k) (cmd_data k) = Some (do_multi e p1 n dec (cmd_data k))) -> zlen (cmd_data k) = n -> 0 < n -> dec (cmd_data k) = upto k ->
  rec_covered (caps p) (upto k) = true -> heard_cmd e p k.
Proof.
  intros E HC N D L P X C. set (p1 := set_cmd_id (cmd_code k) (set_reply_id 0 p)). specialize (D p1). unfold do_multi in D.
  change (has_cb p1) with (has_cb p) in D. rewrite HC, L, Z_mod_same_full, Z_div_same_full in D by lia. cbn [Z.eqb negb orb Z.to_nat Pos.to_nat Pos.iter_op Init.Nat.add chunks map] in D.
  change (Z.to_nat 1) with 1%nat in D. cbn [chunks map do_records] in D.
  assert (SB : sub (cmd_data k) 0 n = cmd_data k) by (unfold sub; rewrite <- L; unfold zlen; rewrite Nat2Z.id; cbn [Z.to_nat skipn]; apply firstn_all).
  rewrite SB, X in D. replace (rec_ok p1 (upto k)) with true in D by (rewrite PdAnswer.rec_covered_eq; symmetry; exact C).
  cbn [negb] in D. unfold do_callback in D. destruct (e_cb e 0 (upto k)) as [rc c1].
  destruct (rc =? 0); cbn [app] in D.
  - apply (heard_by e p k (set_reply_id 64 p1) RNone E D); [left; reflexivity|reflexivity|]. intros _. apply good_ack. exact N.
  - apply (heard_by e p k (set_reply_id 64 (nak 9 p1)) RNone E D); [left; reflexivity|reflexivity|]. intros _. apply good_ack. exact N.
Qed.

Lemma covers_text p : cap_level (caps p) 6 <> 0 -> cap_items (caps p) 6 <> 0 -> cap_present p CAP_TEXT = true.
Proof.
  intros A B. unfold cap_present. change (c_comp (cap_at p CAP_TEXT)) with (cap_level (caps p) 6). change (c_num (cap_at p CAP_TEXT)) with (cap_items (caps p) 6). lia.
Qed.
Lemma cmd_hear e p k : cmd_in_range k -> has_cb p = true -> cap_covers (caps p) k -> enforce (fl p) = false \/ sc_active (fl p) = true ->
  (cmd_code k = 117 -> sc_active (fl p) = true /\ cap_level (caps p) 9 <> 0) -> answers_in_kind k (e_cb e 0 (upto k)) -> heard_cmd e p k.
Proof.
  intros R HC CC E KS AK. destruct k; cbn [cmd_in_range cap_covers] in R, CC; try tauto.
  - apply (heard_record e p _ 4 dec_out); try assumption; try reflexivity; try (cbn [cmd_code]; lia).
    + cbn [cmd_data upto dec_out]. unfold dec_out, getb. simpl. rewrite wire16, Z.mod_small by lia. reflexivity.
    + cbn [upto rec_covered]. lia.
  - apply (heard_record e p _ 14 dec_led); try assumption; try reflexivity; try (cbn [cmd_code]; lia).
    + destruct R as (_ & _ & (_ & _ & _ & _ & _ & R) & _). cbn [cmd_data upto app led_wire]. unfold dec_led, getb. simpl. rewrite wire16, Z.mod_small by lia. destruct temporary; reflexivity.
    + cbn [upto rec_covered]. lia.
  - apply (heard_record e p _ 5 dec_buz); try assumption; try reflexivity; try (cbn [cmd_code]; lia).
    cbn [upto rec_covered]. lia.
  - destruct R as (_ & _ & _ & _ & _ & R1 & R2 & _). apply heard_verdict; [exact E|cbn [cmd_code]; lia|]. intros p1 C1 H1.
    cbn [cmd_code cmd_data upto app]. set (t := firstn (Z.to_nat len) data). assert (T : zlen t = len) by (apply firstn_zlen; lia).
    change (decode_switch e p1 107 (reader :: control_code :: temp_time :: offset_row :: offset_col :: len :: t)) with (Some (do_text e p1 (reader :: control_code :: temp_time :: offset_row :: offset_col :: len :: t))).
    unfold do_text. rewrite H1, HC, !zlen_cons, T. unfold getb. change (Z.to_nat 0) with 0%nat. change (Z.to_nat 1) with 1%nat. change (Z.to_nat 2) with 2%nat. change (Z.to_nat 3) with 3%nat. change (Z.to_nat 4) with 4%nat. change (Z.to_nat 5) with 5%nat. cbn [nth]. cbv zeta.
    assert (SB : sub (reader :: control_code :: temp_time :: offset_row :: offset_col :: len :: t) 6 len = t).
    { unfold sub. change (Z.to_nat 6) with 6%nat. cbn [skipn]. rewrite <- T. unfold zlen. rewrite Nat2Z.id. apply firstn_all. }
    rewrite SB. rewrite (covers_text p1) by (rewrite C1; apply CC). 
    match goal with |- context [?a <? 6] => replace (a <? 6) with false by lia end. cbn [negb orb].
    match goal with |- context [(len >? 32) || ?b] => replace ((len >? 32) || b) with false by lia end. reflexivity.
  - destruct R as (-> & -> & R1 & _). destruct (KS eq_refl) as [SA CL]. cbn [upto] in AK.
    set (p1 := set_cmd_id 117 (set_reply_id 0 p)).
    change (firstn (Z.to_nat 16) data) with (firstn 16 data) in AK.
    assert (T : zlen (firstn 16 data) = 16) by (replace 16%nat with (Z.to_nat 16) by reflexivity; apply firstn_zlen; lia).
    assert (D : decode_switch e p1 117 (cmd_data (CKeyset 1 16 data)) = Some (match do_callback e 0 (nak 6 p1) (CKeyset 1 16 (firstn 16 data)) with
      | (p1, false, _, o) => Ok (p1, RReply, o)
      | (p1, true, CKeyset _ _ k, o) => do k16 <- take_arr k 16 ; Ok (set_eph (EphKey k16) (set_reply_id REPLY_ACK p1), RNone, o)
      | (_, true, _, _) => UB BadUnion end)).
    { cbn [cmd_data app]. change (decode_switch e p1 117 (1 :: 16 :: firstn 16 data)) with (Some (do_keyset e p1 (1 :: 16 :: firstn 16 data))). unfold do_keyset.
      rewrite !zlen_cons, T. cbn [Z.add Z.eqb Pos.eqb Pos.add negb]. change (getb (1 :: 16 :: firstn 16 data) 0) with 1. change (getb (1 :: 16 :: firstn 16 data) 1) with 16. cbn [Z.eqb Pos.eqb negb orb]. cbv zeta.
      change (from (1 :: 16 :: firstn 16 data) 2) with (firstn 16 data).
      replace (cap_sc (nak 6 p1)) with true by (unfold cap_sc; change (c_comp (cap_at (nak 6 p1) CAP_COMMSEC)) with (cap_level (caps p) 9); lia).
      change (sc_active (fl (nak 6 p1))) with (sc_active (fl p)). change (has_cb (nak 6 p1)) with (has_cb p). rewrite SA, HC. reflexivity. }
    unfold do_callback in D. destruct (e_cb e 0 (CKeyset 1 16 (firstn 16 data))) as [rc c1]. unfold answers_in_kind in AK. cbn [fst snd] in AK.
    destruct (rc =? 0) eqn:RC.
    + apply Z.eqb_eq in RC. specialize (AK RC). destruct c1; try contradiction. rewrite take_ok, bind_Ok in D by lia.
      apply (heard_by e p (CKeyset 1 16 data) _ RNone E D); [left; reflexivity|reflexivity|]. intros _. left. split; [reflexivity|intros _; eexists; reflexivity].
    + apply (heard_by e p (CKeyset 1 16 data) _ RReply E D); [right; left; reflexivity|reflexivity|]. intros _. apply good_nak.
  - destruct R as (R1 & R2). cbn [upto] in AK. set (p1 := set_cmd_id 110 (set_reply_id 0 p)).
    assert (W : le32 (baud_rate mod 256) (baud_rate / 256 mod 256) (baud_rate / 65536 mod 256) (baud_rate / 16777216 mod 256) = baud_rate).
    { rewrite wire32. apply Z.mod_small. clear - R2. cbn [legal_bauds In] in R2. lia. }
    assert (D : decode_switch e p1 110 (cmd_data (CComset address baud_rate)) = Some (match do_callback e 0 p1 (CComset address baud_rate) with
      | (p1, false, _, o) => Ok (p1, RReply, o)
      | (p1, true, c1, o) => Ok (set_reply_id REPLY_COM (set_eph (EphCmd c1) p1), RNone, o) end)).
    { cbn [cmd_data]. match goal with |- decode_switch e p1 110 ?l = _ => change (decode_switch e p1 110 l) with (Some (do_comset e p1 l)) end. unfold do_comset.
      change (has_cb p1) with (has_cb p). rewrite HC. unfold zlen. cbn [length]. change (Z.of_nat 5) with 5. cbn [Z.eqb Pos.eqb negb orb]. unfold getb.
      change (Z.to_nat 0) with 0%nat. change (Z.to_nat 1) with 1%nat. change (Z.to_nat 2) with 2%nat. change (Z.to_nat 3) with 3%nat. change (Z.to_nat 4) with 4%nat. cbn [nth]. cbv zeta. rewrite W.
      replace (address >=? 127) with false by lia. replace (baud_ok baud_rate) with true by (unfold baud_ok; clear - R2; cbn [legal_bauds In] in R2; lia). reflexivity. }
    unfold do_callback in D. destruct (e_cb e 0 (CComset address baud_rate)) as [rc c1]. unfold answers_in_kind in AK. cbn [fst snd] in AK.
    destruct (rc =? 0) eqn:RC.
    + apply Z.eqb_eq in RC. specialize (AK RC). destruct c1; try contradiction.
      apply (heard_by e p (CComset address baud_rate) _ RNone E D); [left; reflexivity|reflexivity|]. intros _. right; right; right. split; [reflexivity|eexists; eexists; reflexivity].
    + apply (heard_by e p (CComset address baud_rate) _ RReply E D); [right; left; reflexivity|reflexivity|]. intros _. apply good_nak.
  - destruct R as (R0 & _ & R1 & R2 & _). apply heard_verdict; [exact E|cbn [cmd_code]; lia|]. intros p1 C1 H1.
    cbn [cmd_code cmd_data upto app]. set (t := firstn (Z.to_nat len) data). assert (T : zlen t = len) by (apply firstn_zlen; lia).
    match goal with |- decode_switch e p1 128 ?l = _ => change (decode_switch e p1 128 l) with (Some (do_mfg e p1 l)) end.
    unfold do_mfg. rewrite H1, HC, !zlen_cons, T. unfold getb. change (Z.to_nat 0) with 0%nat. change (Z.to_nat 1) with 1%nat. change (Z.to_nat 2) with 2%nat. change (Z.to_nat 3) with 3%nat. cbn [nth]. cbv zeta.
    change (from (_ :: _ :: _ :: _ :: t) 4) with t. rewrite wire24, Z.mod_small by lia.
    match goal with |- context [?a <? 4] => replace (a <? 4) with false by lia end. cbn [negb orb].
    replace (1 + (1 + (1 + (1 + len))) - 4) with len by lia. replace (len >? 64) with false by lia. reflexivity.
  - cbn [upto] in AK. destruct CC as [C1 C2].
    set (p1 := set_cmd_id (cmd_code (CStatus stype nr_entries mask)) (set_reply_id 0 p)).
    assert (X1 : stype = 0 -> cap_present p1 CAP_CONTACT = true).
    { intros Y. destruct (C1 Y) as [Y1 Y2]. unfold cap_present. change (c_comp (cap_at p1 CAP_CONTACT)) with (cap_level (caps p) 1). change (c_num (cap_at p1 CAP_CONTACT)) with (cap_items (caps p) 1). lia. }
    assert (X2 : stype = 1 -> cap_present p1 CAP_OUTPUT = true).
    { intros Y. destruct (C2 Y) as [Y1 Y2]. unfold cap_present. change (c_comp (cap_at p1 CAP_OUTPUT)) with (cap_level (caps p) 2). change (c_num (cap_at p1 CAP_OUTPUT)) with (cap_items (caps p) 2). lia. }
    assert (X3 : has_cb p1 = true) by exact HC.
    assert (D : exists rp, (rp = 72 \/ rp = 73 \/ rp = 74 \/ rp = 75) /\ decode_switch e p1 (cmd_code (CStatus stype nr_entries mask)) (cmd_data (CStatus stype nr_entries mask)) = Some (do_status e p1 stype rp)).
    { assert (T : stype = 0 \/ stype = 1 \/ stype = 2 \/ stype = 3) by lia. clearbody p1. destruct T as [->|[->|[->| ->]]]; cbn [cmd_code cmd_data Z.eqb Pos.eqb].
      - exists 73. split; [lia|]. change (decode_switch e p1 101 []) with (Some (if negb (zlen (@nil Z) =? 0) || negb (has_cb p1) then Ok (p1, RGeneric, []) else if negb (cap_present p1 CAP_CONTACT) then Ok (nak 3 p1, RReply, []) else do_status e p1 0 73)).
        rewrite X3, X1; reflexivity.
      - exists 74. split; [lia|]. change (decode_switch e p1 102 []) with (Some (if negb (zlen (@nil Z) =? 0) || negb (has_cb p1) then Ok (p1, RGeneric, []) else if negb (cap_present p1 CAP_OUTPUT) then Ok (nak 3 p1, RReply, []) else do_status e p1 1 74)).
        rewrite X3, X2; reflexivity.
      - exists 72. split; [lia|]. change (decode_switch e p1 100 []) with (Some (if negb (zlen (@nil Z) =? 0) then Ok (p1, RGeneric, []) else if negb (has_cb p1) then UB NullCall else do_status e p1 2 72)).
        rewrite X3; reflexivity.
      - exists 75. split; [lia|]. change (decode_switch e p1 103 []) with (Some (if negb (zlen (@nil Z) =? 0) || negb (has_cb p1) then Ok (p1, RGeneric, []) else do_status e p1 3 75)).
        rewrite X3; reflexivity. }
    destruct D as (rp & RP & D). unfold do_status, do_callback in D. destruct (e_cb e 0 (CStatus stype 0 0)) as [rc c1]. unfold answers_in_kind in AK. cbn [fst snd] in AK.
    destruct (rc =? 0) eqn:RC.
    + apply Z.eqb_eq in RC. specialize (AK RC). destruct c1; try contradiction.
      apply (heard_by e p (CStatus stype nr_entries mask) _ RNone E D); [left; reflexivity|reflexivity|]. intros _. right; right; left. split; [exact RP|]. eexists _, _, _. split; [reflexivity|exact AK].
    + apply (heard_by e p (CStatus stype nr_entries mask) _ RGeneric E D); [right; right; reflexivity|reflexivity|]. intros X; contradiction.
Qed.

Lemma cmd_round e1 e2 c p k q : cpi c -> pd_inv p -> env_typed e1 -> env_typed e2 -> 256 <= e_tx e2 -> state c = SOnline -> phy_state c = PIdle -> cmdq c = k :: q ->
  line c p -> quiet c -> quiet p -> 95 <= tx_buf_size c -> 69 <= tx_buf_size p -> cmd_in_range k -> has_cb p = true -> cap_covers (caps p) k -> enforce (fl p) = false \/ sc_active (fl p) = true ->
  (cmd_code k = 117 -> sc_active (fl p) = true /\ cap_level (caps p) 9 <> 0) ->
  moves (cp_do (Update e1) c) (fun c1 => says (cp_do (Update e2) c1) (fun c2 w =>
  cmdq c2 = q /\
  forall e3, hears e3 w -> in_session e3 p -> answers_in_kind k (e_cb e3 0 (upto k)) ->
  exists p1 o, pd_do (Refresh e3) p = Ok (p1, o) /\ app_calls o = [upto k])).
Proof.
  intros I Ip T1 T2 X2 St Ph CQ L Qc Qp N1 N2 R HC CC EN KS.
  assert (SA : sc_active (fl c) = sc_active (fl p)) by (destruct L as [_ [(A & B & _)|Y]]; [congruence|destruct (is_act c p Y); congruence]).
  assert (KA : cmd_code k = 117 -> sc_active (fl c) = true) by (intros Y; rewrite SA; apply KS; exact Y).
  destruct (cmd_pending e1 c k q St CQ R KA) as (G & C0 & HS).
  destruct (pan_ask e1 e2 c (set_eph (EphCmd k) (set_cmdq q c)) (cmd_code k) p (cmd_wire k) I T1 T2 X2 Ph Ph G C0 HS) as (c1 & c2 & w & U1 & U2 & I2 & Q2 & P2 & R2 & A2 & G1); try assumption.
  - repeat split; reflexivity.
  - reflexivity.
  - apply cmd_fits; [exact R|]. pose proof (tx_size c). lia.
  - intros x smb m Cx Ex _ Ax M1 M2. apply cmd_built; try assumption. intros Y. rewrite Ax. apply KA. exact Y.
  - exists c1. split; [unfold cp_do; rewrite U1; reflexivity|]. exists c2, w. split; [unfold cp_do; rewrite U2; reflexivity|].
    split; [exact (f_equal (fun x => cmdq x) R2)|].
    intros e3 H3 SS AK. destruct (G1 e3 H3) as (p0 & TK & L2 & LC & RX & RB & A0).
    assert (V1 : caps p0 = caps p) by exact (f_equal (fun x => caps x) LC). assert (V2 : has_cb p0 = has_cb p) by exact (f_equal (fun x => has_cb x) LC).
    assert (V3 : enforce (fl p0) = enforce (fl p)) by exact (f_equal (fun x => enforce (fl x)) LC). assert (V4 : peer_rx p0 = peer_rx p) by exact (f_equal (fun x => peer_rx x) LC).
    destruct (cmd_hear e3 p0 k R) as (p3 & r & D & RR & PR & GR); [rewrite V2; exact HC|rewrite V1; exact CC|rewrite V3, A0; exact EN|rewrite V1, A0; exact KS|exact AK|].
    pose proof (hears_env _ _ H3) as K3. pose proof (takes_inv e3 p _ p0 K3 Ip TK) as B0. destruct (decode_command_inv e3 p0 _ p3 r _ K3 (cmd_wire_bytes k R) B0 D) as [B3 _].
    set (p4 := match r with RNone => bumped e3 p3 | _ => p3 end).
    assert (X : binv p4 /\ reply_id p4 = reply_id p3 /\ cmd_id p4 = cmd_id p3 /\ eph p4 = eph p3 /\ peer_rx p4 = peer_rx p3).
    { unfold p4. destruct RR as [-> | ->].
      - destruct (same_bumped e3 p3) as (_ & _ & x3 & x4 & x5 & _ & _ & x8 & _). exact (conj (binv_bumped e3 p3 B3) (conj x3 (conj x4 (conj x5 x8)))).
      - exact (conj B3 (conj eq_refl (conj eq_refl (conj eq_refl eq_refl)))). }
    assert (PF : pd_finish e3 (p3, r, [OCmd (upto k)]) = do y <- reply_phase e3 p4 ; match y with (p5, o2) => Ok (p5, [OCmd (upto k)] ++ o2) end) by (unfold p4; destruct RR as [-> | ->]; reflexivity).
    clearbody p4. destruct X as (B4 & h1 & h2 & h3 & h4).
    destruct (good_phase e3 p4 B4) as (p5 & o2 & RP); [apply H3|unfold tx_buf_size in *; rewrite h4, PR, V4; exact N2|unfold good_reply; rewrite h1, h2, h3; exact GR|].
    exists p5, (OCmd (upto k) :: o2). split.
    + change (pd_do (Refresh e3) p) with (pd_refresh e3 p). rewrite (dev_hears e3 p _ p0 SS TK), D, bind_Ok, PF, RP. reflexivity.
    + pose proof (reply_phase_outs e3 p4 p5 o2 K3 B4 RP) as QO. cbn [app_calls flat_map]. change (upto k :: app_calls o2 = [upto k]). f_equal.
      clear - QO. induction QO as [|x o H _ IH]; [reflexivity|]. destruct H as [(w & ->)| ->]; exact IH.
Qed.
