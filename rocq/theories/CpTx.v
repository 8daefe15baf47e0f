(** CP: the packet a command is put into and what is transmitted. *)
From Verif Require Import Base ListLemmas Crc SpecCrc CrcProofs CrcBurst Aes AesProofs Rb RbProofs
  Types Sc ScProofs Phy PhyCheck File Pd Cp SpecRx SpecFrame RxProofs PdRx PdCore PhyTx PdTx PdReply
  PdStep PdWire SpecCp.
From Coq Require Import ZifyBool ZifyNat.
Ltac Zify.zify_post_hook ::= Z.div_mod_to_equations.
Local Opaque aes_ecb_encrypt aes_cbc_encrypt aes_cbc_decrypt mac_of.

Definition cp_addr (p : pd) : Z := Z.land (address p) 127.
Definition cp_ctl (p : pd) : Z := Z.lor (Z.land (seq_next (seqn p)) 3) 4.

(* the header bytes that a CP writes *)
Definition cp_hdr (p : pd) : list Z :=
  if sc_active (fl p) then [83; cp_addr p; 0; 0; Z.lor (cp_ctl p) 8; 2; 21]
  else if in_sc_handshake false (cmd_id p) then
    [83; cp_addr p; 0; 0; Z.lor (cp_ctl p) 8; 3; 17; getb (pbuf p) 8]
  else [83; cp_addr p; 0; 0; cp_ctl p].

(* the PD entry once the header is written *)
Definition cp_init (p : pd) : pd :=
  set_pbuf (blit (pbuf p) 0 (255 :: cp_hdr p)) (set_seqn (seq_next (seqn p)) (set_has_mark true p)).

Lemma seq_next_get s : -1 <= s <= 3 -> (let s1 := s + 1 in if 3 <? s1 then 1 else s1) = seq_next s.
Proof. intros H. cbv zeta. unfold seq_next. destruct (3 <? s + 1) eqn:A, (s =? 3) eqn:B; lia. Qed.

Lemma packet_init_cp p n : pd_mode (fl p) = false -> -1 <= seqn p <= 3 ->
  packet_init p n = if n <? 69 then (p, None) else (cp_init p, Some (255 :: cp_hdr p)).
Proof.
  intros M S. unfold packet_init. destruct (n <? 69); auto. rewrite M. cbv zeta. cbn [negb andb].
  unfold get_seq. cbv zeta.
  change (seqn (set_has_mark true p)) with (seqn p). rewrite seq_next_get by auto.
  unfold cp_init, cp_hdr, cp_addr, cp_ctl.
  change (has_mark (fl (set_has_mark true p))) with true. cbv iota.
  change (sc_active (fl (set_seqn (seq_next (seqn p)) (set_has_mark true p)))) with (sc_active (fl p)).
  change (cmd_id (set_has_mark true p)) with (cmd_id p).
  change (address (set_has_mark true p)) with (address p).
  change (mark_len (set_seqn (seq_next (seqn p)) (set_has_mark true p))) with 1.
  change (pbuf (set_seqn (seq_next (seqn p)) (set_has_mark true p))) with (pbuf p).
  change (1 + 7) with 8.
  destruct (sc_active (fl p)); [reflexivity|]. destruct (in_sc_handshake false (cmd_id p)); reflexivity.
Qed.

Lemma cp_ctl_cases p : In (cp_ctl p) [4; 5; 6; 7] /\ cp_ctl p = 4 + seq_next (seqn p) mod 4.
Proof.
  unfold cp_ctl. rewrite land3. generalize (seq_next (seqn p)). intros s. assert (H : 0 <= s mod 4 < 4) by lia.
  assert (H2 : s mod 4 = 0 \/ s mod 4 = 1 \/ s mod 4 = 2 \/ s mod 4 = 3) by lia.
  destruct H2 as [->|[->|[->| ->]]]; (split; [simpl; tauto|reflexivity]).
Qed.

Lemma byte_cp_addr p : byte (cp_addr p).
Proof. unfold cp_addr. rewrite land127. unfold byte. lia. Qed.

Lemma byte_cp_ctl p : byte (Z.lor (cp_ctl p) 8) /\ byte (cp_ctl p).
Proof.
  destruct (cp_ctl_cases p) as [H _]. unfold byte. simpl in H.
  destruct H as [<-|[<-|[<-|[<-|[]]]]]; simpl; lia.
Qed.

Lemma bytes_cp_hdr p : bytes (pbuf p) -> bytes (cp_hdr p).
Proof.
  intros B. unfold cp_hdr. pose proof (byte_cp_addr p). destruct (byte_cp_ctl p).
  pose proof (bytes_getb (pbuf p) 8 B).
  dif; [bytes_cons; auto; unfold byte; lia|]. dif; bytes_cons; auto; unfold byte; lia.
Qed.

Lemma cp_hdr_len p : (5 <= length (cp_hdr p) <= 8)%nat.
Proof. unfold cp_hdr. dif; [simpl; lia|]. dif; simpl; lia. Qed.

Lemma cp_init_typed p : pd_typed p -> pd_typed (cp_init p).
Proof.
  intros (A & B & C & D & E & F). apply mk_typed; auto; change (pbuf (cp_init p)) with (blit (pbuf p) 0 (255 :: cp_hdr p)).
  - pose proof (cp_hdr_len p). rewrite blit_length; auto; unfold zlen; cbn [length]; lia.
  - apply bytes_blit; auto. apply (bytes_app [255]); split; [bytes_cons; unfold byte; lia|apply bytes_cp_hdr; auto].
Qed.

(* how building a command can change the PD entry *)
Definition cbuild_rel (p p2 : pd) : Prop :=
  p2 = p \/ (cmd_id p = CMD_FILETRANSFER /\ exists f, p2 = set_file (Some f) p) \/
  (cmd_id p = CMD_SCRYPT /\ p2 = compute_cp_cryptogram p).

Definition cpay_ok (p : pd) (m : Z) (pay : option (list Z)) : Prop :=
  match pay with
  | Some d => bytes d /\ 1 <= zlen d <= m /\
      exists t, d = cmd_id p :: t \/ (cmd_id p = CMD_FILETRANSFER /\ d = CMD_ABORT :: t)
  | None => True
  end.

Definition fread_typed (e : env) : Prop := forall n off d, e_fread e n off = Some d -> bytes d.

Lemma ft_header_ok f : bytes (file_tx_header f) /\ zlen (file_tx_header f) = 11.
Proof. split; [unfold file_tx_header; bb|reflexivity]. Qed.
Local Opaque file_tx_header.

Lemma file_tx_build_ok e p m p2 l o : fread_typed e -> 60 <= m -> file_tx_build e p m = Ok (p2, l, o) ->
  no_tx o /\ (p2 = p \/ exists f, p2 = set_file (Some f) p) /\
  match l with Some d => bytes d /\ zlen d + 1 <= m | None => True end.
Proof.
  intros FT Hm. unfold file_tx_build. destruct (file p) as [f|] eqn:EF; try discriminate.
  assert (HB : forall f, bytes (file_tx_header f)).
  { intros g. apply ft_header_ok. }
  assert (HL : forall f, zlen (file_tx_header f) = 11) by (intros g; apply ft_header_ok).
  destruct (f_state f); try discriminate; (destruct (m <=? FT_HDR) eqn:E1; [unfold FT_HDR in E1; lia|]).
  - destruct (e_fread e _ _) as [d|] eqn:ER.
    + dif; try discriminate. dif; intros H; inv H.
      * split; [intros d0 [X|[]]; discriminate|]. split; eauto.
      * split; [intros d0 [X|[]]; discriminate|]. split; eauto. split.
        { apply bytes_app; split; auto. eapply FT; eauto. }
        { rewrite zlen_app, HL. unfold FT_HDR in *. lia. }
    + intros H; inv H. split; [intros d0 [X|[]]; discriminate|]. split; eauto.
  - intros H; inv H. split; [apply no_tx_nil|]. split; auto. split; auto. rewrite HL. lia.
Qed.

Lemma assert_len_inv {A} need have (k : res A) r : assert_len need have k = Ok r -> need < have /\ k = Ok r.
Proof. apply assert_len_ok. Qed.

Lemma take_arr_bytes l n d : bytes l -> take_arr l n = Ok d -> bytes d /\ zlen d = n /\ 0 <= n.
Proof.
  intros B. unfold take_arr. dif; try discriminate. dif; try discriminate. intros H; inv H.
  split; [apply bytes_firstn; auto|]. split; [|lia]. unfold zlen in *. rewrite firstn_length. lia.
Qed.

Lemma blk_compute_scbk u k : r8 u -> bytes k -> length k = 16%nat -> blk (compute_scbk u k).
Proof.
  intros [L B] K1 K2. unfold compute_scbk. apply blk_ecb; [split; auto|].
  split; [rewrite app_length, map_length, firstn_length; lia|].
  apply bytes_app; split; [apply bytes_firstn; auto|]. apply bytes_map_inv8, bytes_firstn; auto.
Qed.

Lemma build_app_ok p m pay : eph_typed (eph p) -> sc_wf (sc p) -> 60 <= m ->
  build_app_cmd p m = Ok pay -> cpay_ok p m pay /\ (pay <> None -> in_sc_handshake false (cmd_id p) = false).
Proof.
  intros Te Ts Hm. unfold build_app_cmd. cbv zeta.
  assert (HS : forall r, cmd_id p =? r = true -> r <> 118 -> r <> 119 -> in_sc_handshake false (cmd_id p) = false).
  { intros r E A B. unfold in_sc_handshake, CMD_CHLNG, CMD_SCRYPT. lia. }
  assert (CB : forall r, cmd_id p =? r = true -> byte r -> byte (cmd_id p)) by (intros r E; replace (cmd_id p) with r by lia; auto).
  dif. { intros H; apply assert_len_inv in H as [L H]. destruct (eph p) as [| |c| |]; try discriminate. destruct c; try discriminate.
    inv H. split; [|intros _; eapply HS; [eassumption|discriminate|discriminate]].
    split; [|split; [zl; lia|eauto]]. assert (byte (cmd_id p)) by (eapply CB; [eassumption|unfold byte; vm_compute; intuition discriminate]). bb. }
  dif. { intros H; apply assert_len_inv in H as [L H]. destruct (eph p) as [| |c| |]; try discriminate. destruct c; try discriminate.
    inv H. split; [|intros _; eapply HS; [eassumption|discriminate|discriminate]].
    split; [|split; [zl; lia|eauto]]. assert (byte (cmd_id p)) by (eapply CB; [eassumption|unfold byte; vm_compute; intuition discriminate]). bb. }
  dif. { intros H; apply assert_len_inv in H as [L H]. destruct (eph p) as [| |c| |]; try discriminate. destruct c; try discriminate.
    inv H. split; [|intros _; eapply HS; [eassumption|discriminate|discriminate]].
    split; [|split; [zl; lia|eauto]]. assert (byte (cmd_id p)) by (eapply CB; [eassumption|unfold byte; vm_compute; intuition discriminate]). bb. }
  dif. { destruct (eph p) as [| |c| |]; try discriminate. destruct c; try discriminate. intros H; apply assert_len_inv in H as [L H].
    match type of H with bind ?x _ = _ => destruct x as [d| |] eqn:ED; cbn [bind] in H; try discriminate end. inv H.
    apply take_arr_bytes in ED as (D1 & D2 & D3); [|exact Te].
    split; [|intros _; eapply HS; [eassumption|discriminate|discriminate]].
    assert (byte (cmd_id p)) by (eapply CB; [eassumption|unfold byte; vm_compute; intuition discriminate]).
    split; [apply (bytes_app [_;_;_;_;_;_;_]); split; [bb|auto]|]. split; [zl; lia|eauto]. }
  dif. { intros H; apply assert_len_inv in H as [L H]. destruct (eph p) as [| |c| |]; try discriminate. destruct c; try discriminate.
    inv H. split; [|intros _; eapply HS; [eassumption|discriminate|discriminate]].
    split; [|split; [zl; lia|eauto]]. assert (byte (cmd_id p)) by (eapply CB; [eassumption|unfold byte; vm_compute; intuition discriminate]). bb. }
  dif. { destruct (eph p) as [| |c| |]; try discriminate. destruct c; try discriminate. intros H; apply assert_len_inv in H as [L H].
    revert H. dif; intros H; [inv H; split; [exact I|congruence]|].
    match type of H with bind ?x _ = _ => destruct x as [d| |] eqn:ED; cbn [bind] in H; try discriminate end. inv H.
    apply take_arr_bytes in ED as (D1 & D2 & D3); [|exact Te].
    split; [|intros _; eapply HS; [eassumption|discriminate|discriminate]].
    assert (byte (cmd_id p)) by (eapply CB; [eassumption|unfold byte; vm_compute; intuition discriminate]).
    split; [apply (bytes_app [_;_;_;_;_]); split; [bb|auto]|]. split; [zl; lia|eauto]. }
  dif. { dif; [intros H; inv H; split; [exact I|congruence]|].
    destruct (eph p) as [| |c| |]; try discriminate. destruct c; try discriminate. intros H; apply assert_len_inv in H as [L H].
    revert H. dif; intros H; [inv H; split; [exact I|congruence]|].
    match type of H with bind ?x _ = _ => destruct x as [d| |] eqn:ED; cbn [bind] in H; try discriminate end.
    apply take_arr_bytes in ED as (D1 & D2 & D3); [|exact Te].
    assert (byte (cmd_id p)) by (eapply CB; [eassumption|unfold byte; vm_compute; intuition discriminate]).
    assert (HSk : in_sc_handshake false (cmd_id p) = false) by (eapply HS; [eassumption|discriminate|discriminate]).
    revert H. dif; [|dif]; intros H; inv H.
    - split; [|auto]. split; [apply (bytes_app [_;_;_]); split; [bb|auto]|]. split; [zl; lia|eauto].
    - split; [|auto].
      assert (BK : blk (compute_scbk (client_uid (sc p)) d)).
      { apply blk_compute_scbk; auto; [apply Ts|]. unfold zlen in D2. lia. }
      revert BK. generalize (compute_scbk (client_uid (sc p)) d). intros k [K1 K2].
      split; [apply (bytes_app [_;_;_]); split; [bb|auto]|]. split; [zl; unfold zlen; lia|eauto].
    - split; [exact I|congruence]. }
  intros H; inv H. split; [exact I|congruence].
Qed.

Lemma build_cmd_ok e p smb m p2 pay ss o : pd_typed p -> fread_typed e -> 60 <= m ->
  build_cmd_switch e p smb m = Ok (p2, pay, ss, o) ->
  no_tx o /\ pd_typed p2 /\ cpay_ok p m pay /\ cbuild_rel p p2 /\
  match ss with
  | Some (ty, b) => (ty = 17 \/ ty = 19) /\ (b = 0 \/ b = 1) /\ smb = true /\ in_sc_handshake false (cmd_id p) = true
  | None => in_sc_handshake false (cmd_id p) = true -> pay = None
  end.
Proof.
  intros T FT Hm. destruct T as (Tr & Te & Tc & Ts & Tl & Tb).
  assert (T : pd_typed p) by (apply mk_typed; auto).
  unfold build_cmd_switch. cbv zeta.
  assert (HS : forall r, cmd_id p =? r = true -> r <> 118 -> r <> 119 -> in_sc_handshake false (cmd_id p) = false).
  { intros r E A B. unfold in_sc_handshake, CMD_CHLNG, CMD_SCRYPT. lia. }
  assert (CB : forall r, cmd_id p =? r = true -> byte r -> byte (cmd_id p)) by (intros r E; replace (cmd_id p) with r by lia; auto).
  assert (FINE : forall l, bytes l -> 1 <= zlen l <= m -> (exists t, l = cmd_id p :: t) ->
     in_sc_handshake false (cmd_id p) = false ->
     Ok (p, Some l, None, []) = Ok (p2, pay, ss, o) ->
     no_tx o /\ pd_typed p2 /\ cpay_ok p m pay /\ cbuild_rel p p2 /\
     match ss with
     | Some (ty, b) => (ty = 17 \/ ty = 19) /\ (b = 0 \/ b = 1) /\ smb = true /\ in_sc_handshake false (cmd_id p) = true
     | None => in_sc_handshake false (cmd_id p) = true -> pay = None
     end).
  { intros l A B (t & C) D H. inv H. split; [apply no_tx_nil|]. split; auto. split; [split; [auto|split; [auto|eauto]]|].
    split; [left; auto|]. rewrite D. discriminate. }
  dif. { intros H; apply assert_len_inv in H as [L H]. revert H. 
    assert (byte (cmd_id p) /\ cmd_id p <> 118 /\ cmd_id p <> 119).
    { unfold CMD_POLL, CMD_LSTAT, CMD_ISTAT, CMD_OSTAT, CMD_RSTAT in *. unfold byte. lia. }
    apply FINE; [bytes_cons; tauto|zl; lia|eauto|]. unfold in_sc_handshake, CMD_CHLNG, CMD_SCRYPT. lia. }
  dif. { intros H; apply assert_len_inv in H as [L H]. revert H. 
    assert (byte (cmd_id p) /\ cmd_id p <> 118 /\ cmd_id p <> 119).
    { unfold CMD_ID, CMD_CAP in *. unfold byte. lia. }
    apply FINE; [bytes_cons; [tauto|unfold byte; lia]|zl; lia|eauto|]. unfold in_sc_handshake, CMD_CHLNG, CMD_SCRYPT. lia. }
  dif. { apply FINE; [assert (byte (cmd_id p)) by (eapply CB; [eassumption|unfold byte; vm_compute; intuition discriminate]); bb|zl; lia|eauto|eapply HS; [eassumption|discriminate|discriminate]]. }
  dif. { apply FINE; [assert (byte (cmd_id p)) by (eapply CB; [eassumption|unfold byte; vm_compute; intuition discriminate]); bb|zl; lia|eauto|eapply HS; [eassumption|discriminate|discriminate]]. }
  dif. { apply FINE; [assert (byte (cmd_id p)) by (eapply CB; [eassumption|unfold byte; vm_compute; intuition discriminate]); bb|zl; lia|eauto|eapply HS; [eassumption|discriminate|discriminate]]. }
  dif. { destruct (file_tx_build e p m) as [[[p1 x] o1]| |] eqn:E; cbn [bind]; try discriminate.
         assert (NH : in_sc_handshake false (cmd_id p) = false) by (eapply HS; [eassumption|discriminate|discriminate]).
         assert (CI : cmd_id p = CMD_FILETRANSFER) by lia.
         apply file_tx_build_ok in E as (N & R & B); auto.
         assert (TT : pd_typed p1) by (destruct R as [->|(f & ->)]; [auto|apply mk_typed; auto]).
         assert (RR : cbuild_rel p p1) by (destruct R as [->|R]; [left; auto|right; left; auto]).
         destruct x as [l|]; intros H; inv H; (split; [auto|]); (split; [auto|]).
         - split; [|split; [auto|rewrite NH; discriminate]]. split; [constructor; [eapply CB; [eassumption|unfold byte; vm_compute; intuition discriminate]|tauto]|].
           split; [zl; pose proof (zlen_nonneg l); lia|eauto].
         - split; [|split; [auto|rewrite NH; discriminate]]. split; [bytes_cons; unfold byte; vm_compute; intuition discriminate|].
           split; [zl; lia|eauto]. }
  dif. { assert (HH : in_sc_handshake false (cmd_id p) = true) by (unfold in_sc_handshake; rewrite Heqb5; reflexivity).
         intros H; apply assert_len_inv in H as [L H]. revert H. destruct smb; cbn [negb]; intros H; inv H.
         - destruct Ts as (A & B & C & D). split; [apply no_tx_nil|]. split; auto.
           split; [|split; [left; auto|split; [left; reflexivity|split; [dif; auto|auto]]]].
           split; [constructor; [eapply CB; [eassumption|unfold byte; vm_compute; intuition discriminate]|apply C]|].
           split; [zl; unfold zlen; destruct C as [-> _]; lia|eauto].
         - split; [apply no_tx_nil|]. split; auto. split; [exact I|]. split; [left; auto|auto]. }
  dif. { assert (HH : in_sc_handshake false (cmd_id p) = true) by (unfold in_sc_handshake; rewrite Heqb6; apply orb_true_r).
         intros H; apply assert_len_inv in H as [L H]. revert H. destruct smb; cbn [negb]; cbv zeta; intros H.
         - assert (BC : blk (cp_cryptogram_of (sc p))) by (apply blk_cp_cryptogram; auto).
           change (cp_crypt (sc (compute_cp_cryptogram p))) with (cp_cryptogram_of (sc p)) in H.
           assert (TC : pd_typed (compute_cp_cryptogram p)).
           { apply mk_typed; auto. apply (wf_cp_crypt (sc p)); auto. }
           assert (RC : cbuild_rel p (compute_cp_cryptogram p)) by (right; right; split; [lia|auto]).
           inv H. split; [apply no_tx_nil|]. split; auto.
           split; [|split; [auto|split; [right; reflexivity|split; [dif; auto|auto]]]].
           split; [constructor; [eapply CB; [eassumption|unfold byte; vm_compute; intuition discriminate]|apply BC]|].
           split; [zl; unfold zlen; destruct BC as [-> _]; lia|eauto].
         - inv H. split; [apply no_tx_nil|]. split; auto. split; [exact I|]. split; [left; auto|auto]. }
  destruct (build_app_cmd p m) as [pay0| |] eqn:E; cbn [bind]; try discriminate. intros H; inv H.
  destruct (build_app_ok p2 m pay Te Ts Hm E) as [P N].
  split; [apply no_tx_nil|]. split; auto. split; auto. split; [left; auto|].
  intros HH. destruct pay; auto. rewrite N in HH by congruence. discriminate.
Qed.

(* a packet as cp_build_command leaves it, without mark and with the length not yet filled in *)
Definition cmd_body (p : pd) (d : list Z) (ss : option (Z * Z)) : list Z :=
  let c8 := Z.lor (cp_ctl p) 8 in
  if in_sc_handshake false (cmd_id p) then
    match ss with
    | Some (ty, b) => [83; cp_addr p; 0; 0; c8; 3; ty; b] ++ d
    | None => []
    end
  else if sc_active (fl p) then
    [83; cp_addr p; 0; 0; c8; 2; if zlen d >? 1 then 23 else 21] ++ d
  else [83; cp_addr p; 0; 0; cp_ctl p] ++ d.

(* no handshake command while the secure channel is up *)
Definition hs_ok (p : pd) : Prop := sc_active (fl p) = true -> in_sc_handshake false (cmd_id p) = false.

Definition cmd_room (p : pd) : Z := tx_buf_size p - zlen (255 :: cp_hdr p).
Definition cmd_smb (p : pd) : bool := sc_active (fl p) || in_sc_handshake false (cmd_id p).

Lemma build_command_spec e p q f o : pd_typed p -> fread_typed e -> hs_ok p -> 69 <= tx_buf_size p <= 256 ->
  build_command e (cp_init p) (255 :: cp_hdr p) (tx_buf_size p) = Ok (q, f, o) ->
  exists pay ss,
    build_cmd_switch e (cp_init p) (cmd_smb p) (cmd_room p) = Ok (q, pay, ss, o) /\ 60 <= cmd_room p /\
    match pay with
    | None => f = None
    | Some d => f = Some (255 :: cmd_body p d ss)
    end.
Proof.
  intros T FT HO N H. unfold build_command in H.
  assert (HM : mark_len (cp_init p) = 1) by reflexivity.
  unfold data_offset, smb_pos in H. rewrite HM in H.
  set (off := 1 + 5 + _) in H. cbv zeta in H.
  set (smb := if ctl_scb _ then Some (1 + 5) else None) in H.
  assert (F : off = zlen (255 :: cp_hdr p) /\ smb = if cmd_smb p then Some 6 else None).
  { unfold off, smb, cp_hdr, cmd_smb. destruct (cp_ctl_cases p) as [C _]. simpl in C.
    destruct C as [<-|[<-|[<-|[<-|[]]]]];
    destruct (sc_active (fl p)), (in_sc_handshake false (cmd_id p)); split; reflexivity. }
  destruct F as [F1 F2]. rewrite F2 in H. clearbody off smb. clear F2. subst off. fold (cmd_room p) in H.
  assert (RM : 60 <= cmd_room p).
  { unfold cmd_room. pose proof (cp_hdr_len p). unfold zlen. cbn [length]. lia. }
  destruct (cmd_room p <=? 0) eqn:E0; [lia|]. clear E0.
  set (sm := match (if cmd_smb p then Some 6 else None) with Some _ => true | None => false end) in H.
  assert (SME : sm = cmd_smb p) by (unfold sm; destruct (cmd_smb p); reflexivity). rewrite SME in H. clear sm SME.
  destruct (build_cmd_switch e (cp_init p) (cmd_smb p) (cmd_room p)) as [[[[q1 pay] ss] o1]| |] eqn:BS; cbn [bind] in H; try discriminate.
  destruct (build_cmd_ok _ _ _ _ _ _ _ _ (cp_init_typed p T) FT RM BS) as (_ & _ & P & BR & S).
  change (cmd_id (cp_init p)) with (cmd_id p) in *.
  assert (AQ : sc_active (fl q1) = sc_active (fl p)).
  { destruct BR as [->|[(_ & fx & ->)|(_ & ->)]]; reflexivity. }
  destruct pay as [d|]; [|inv H; eauto].
  exists (Some d), ss. 
  assert (G : q1 = q /\ o1 = o /\ f = Some (255 :: cmd_body p d ss)); [|destruct G as (-> & -> & G); auto].
  unfold cmd_body. unfold cmd_smb in H. unfold cpay_ok in P. destruct P as (P1 & P2 & t & P3). 
  change (cmd_id (cp_init p)) with (cmd_id p) in *.
  assert (ND : exists x u, d = x :: u) by (destruct P3 as [->|[_ ->]]; eauto). clear P3. destruct ND as (x & u & ->).
  destruct (in_sc_handshake false (cmd_id p)) eqn:EH.
  - destruct ss as [[ty b]|]; [|specialize (S eq_refl); discriminate].
    destruct S as (S1 & S2 & _ & _).
    destruct (sc_active (fl p)) eqn:EA; [unfold hs_ok in HO; rewrite HO in EH; auto; discriminate|].
    cbn [orb] in H. unfold cp_hdr in H. rewrite EA, EH in H.
    replace (put_smb 6 ty b _) with (255 :: [83; cp_addr p; 0; 0; Z.lor (cp_ctl p) 8; 3; ty; b] ++ x :: u) in H by reflexivity.
    assert (X : (getb (255 :: [83; cp_addr p; 0; 0; Z.lor (cp_ctl p) 8; 3; ty; b] ++ x :: u) (6 + 1) >? SCS_14) = false).
    { change (getb _ (6 + 1)) with ty. unfold SCS_14. lia. }
    rewrite X in H. cbn [andb] in H. inv H. auto.
  - destruct ss as [[ty b]|]; [destruct S as (_ & _ & _ & S); discriminate|].
    rewrite orb_false_r in H. unfold cp_hdr in H. rewrite EH in H.
    destruct (sc_active (fl p)) eqn:EA.
    + match type of H with context [?a >? SCS_14] => change a with 21 in H end.
      rewrite AQ in H. change ((21 >? SCS_14) && true) with true in H. cbv iota in H. inv H. auto.
    + inv H. auto.
Qed.

Lemma wire_len_gt p b : 6 <= zlen b -> zlen b < zlen (wire_of p b) \/ macced p b = true.
Proof.
  intros L. unfold wire_of. destruct (macced p b); auto. left. rewrite zlen_with_crc, zlen_put_len. lia.
Qed.

(* the PD entry once the MAC of packet b is computed *)
Definition cp_macked (p : pd) (b : list Z) : pd := if macced p b then put_mac p (sealed_mac p b) else p.

(* a command: what the PD entry becomes and what goes out *)
Definition cmd_sent (e : env) (p q : pd) (ok : bool) (o : list out) : Prop :=
  (tx_buf_size p < 69 /\ q = p /\ ok = false /\ o = []) \/
  (69 <= tx_buf_size p /\
   exists p2 pay ss ob,
     build_cmd_switch e (cp_init p) (cmd_smb p) (cmd_room p) = Ok (p2, pay, ss, ob) /\
     60 <= cmd_room p /\ pd_typed p2 /\ cpay_ok (cp_init p) (cmd_room p) pay /\ cbuild_rel (cp_init p) p2 /\ no_tx ob /\
     ((pay = None /\ q = p2 /\ ok = false /\ o = ob) \/
      exists d, pay = Some d /\
      let b := cmd_body p d ss in
      let f := 255 :: wire_of p2 b in
      bytes b /\ nth 0 b 0 = 83 /\ nth 1 b 0 = cp_addr p /\ 6 <= zlen b /\
      (nth 4 b 0 = cp_ctl p \/ nth 4 b 0 = Z.lor (cp_ctl p) 8) /\
      macced p2 b = sc_active (fl p) /\ (macced p2 b = true -> getb b 5 = 2 /\ 8 <= zlen b) /\
      ((tx_buf_size p < zlen f /\ ok = false /\ o = ob /\ (q = p2 \/ macced p2 b = true /\ q = put_mac p2 (sealed_mac p2 b))) \/
       (zlen f <= tx_buf_size p /\ (exists ot, o = ob ++ ot /\ sent e f ok ot) /\
        q = set_pbuf (blit (pbuf p2) 0 f) (cp_macked p2 b))))).

Lemma cmd_body_facts p p2 d ss : cpay_ok (cp_init p) (cmd_room p) (Some d) -> hs_ok p ->
  sc_active (fl p2) = sc_active (fl p) ->
  match ss with
  | Some (ty, b) => (ty = 17 \/ ty = 19) /\ (b = 0 \/ b = 1) /\ cmd_smb p = true /\ in_sc_handshake false (cmd_id p) = true
  | None => in_sc_handshake false (cmd_id p) = true -> Some d = None
  end ->
  let b := cmd_body p d ss in
  bytes b /\ nth 0 b 0 = 83 /\ nth 1 b 0 = cp_addr p /\ 6 <= zlen b /\
  (nth 4 b 0 = cp_ctl p \/ nth 4 b 0 = Z.lor (cp_ctl p) 8) /\
  macced p2 b = sc_active (fl p) /\ (macced p2 b = true -> getb b 5 = 2 /\ 8 <= zlen b).
Proof.
  intros (P1 & P2 & _) HO SA S. cbv zeta. unfold cmd_body.
  pose proof (byte_cp_addr p) as Ba. destruct (byte_cp_ctl p) as [B8 B4].
  destruct (cp_ctl_cases p) as [C _].
  destruct (in_sc_handshake false (cmd_id p)) eqn:EH.
  - destruct ss as [[ty bb]|]; [|specialize (S eq_refl); discriminate]. destruct S as (S1 & S2 & _).
    destruct (sc_active (fl p)) eqn:EA; [unfold hs_ok in HO; rewrite HO in EH; auto; discriminate|].
    split; [apply (bytes_app [83; cp_addr p; 0; 0; Z.lor (cp_ctl p) 8; 3; ty; bb]); split; auto; bytes_cons; auto; unfold byte; lia|].
    split; [reflexivity|]. split; [reflexivity|]. split; [zl; lia|]. split; [right; reflexivity|].
    unfold macced. rewrite SA. cbn [andb]. split; [reflexivity|discriminate].
  - destruct (sc_active (fl p)) eqn:EA.
    + set (ty := if zlen d >? 1 then 23 else 21). assert (Ty : ty = 23 \/ ty = 21) by (unfold ty; dif; auto). clearbody ty.
      split; [apply (bytes_app [83; cp_addr p; 0; 0; Z.lor (cp_ctl p) 8; 2; ty]); split; auto; bytes_cons; auto; unfold byte; lia|].
      split; [reflexivity|]. split; [reflexivity|]. split; [zl; lia|]. split; [right; reflexivity|].
      split; [|split; [reflexivity|zl; lia]].
      unfold macced. rewrite SA. change (getb _ 6) with ty. change (getb _ 4) with (Z.lor (cp_ctl p) 8).
      simpl in C. assert (X : 21 <=? ty = true) by lia. rewrite X.
      destruct C as [<-|[<-|[<-|[<-|[]]]]]; reflexivity.
    + split; [apply (bytes_app [83; cp_addr p; 0; 0; cp_ctl p]); split; auto; bytes_cons; auto; unfold byte; lia|].
      split; [reflexivity|]. split; [reflexivity|]. split; [zl; lia|]. split; [left; reflexivity|].
      unfold macced. rewrite SA. cbn [andb]. split; [reflexivity|discriminate].
Qed.

Lemma build_and_send_spec e p q ok o : pd_mode (fl p) = false -> -1 <= seqn p <= 3 -> pd_typed p -> fread_typed e ->
  hs_ok p -> build_and_send e p = Ok (q, ok, o) -> cmd_sent e p q ok o.
Proof.
  intros M SQ T FT HO H. unfold build_and_send in H. cbv zeta in H. rewrite packet_init_cp in H by auto.
  destruct (tx_buf_size p <? 69) eqn:EN.
  { inv H. left. split; [lia|auto]. }
  right. split; [lia|]. pose proof (tx_buf_le p) as NL.
  destruct (build_command e (cp_init p) (255 :: cp_hdr p) (tx_buf_size p)) as [[[p2 fo] ob]| |] eqn:BC; cbn [bind] in H; try discriminate.
  destruct (build_command_spec e p _ _ _ T FT HO ltac:(lia) BC) as (pay & ss & BS & RM & PF).
  destruct (build_cmd_ok _ _ _ _ _ _ _ _ (cp_init_typed p T) FT RM BS) as (N & T2 & P & BR & S).
  exists p2, pay, ss, ob. split; [auto|]. split; [auto|]. split; [auto|]. split; [auto|]. split; [auto|]. split; [auto|].
  destruct pay as [d|]; [|subst fo; inv H; left; auto]. subst fo. right. exists d. split; auto. cbv zeta.
  assert (AQ : sc_active (fl p2) = sc_active (fl p) /\ pd_mode (fl p2) = false /\ has_mark (fl p2) = true).
  { destruct BR as [->|[(_ & fx & ->)|(_ & ->)]]; auto. }
  destruct AQ as (AQ & MQ & HQ).
  change (cmd_id (cp_init p)) with (cmd_id p) in S.
  destruct (cmd_body_facts p p2 d ss P HO AQ S) as (F1 & F2 & F3 & F4 & F5 & F6 & F7).
  set (b := cmd_body p d ss) in *.
  split; [auto|]. split; [auto|]. split; [auto|]. split; [auto|]. split; [auto|]. split; [auto|]. split; [auto|].
  unfold send_packet in H.
  assert (MK : mk_of p2 = [255]) by (unfold mk_of; rewrite HQ; auto).
  change (255 :: b) with ([255] ++ b) in H. rewrite <- MK in H.
  assert (FB : forall fr q1 q2, packet_finalize p2 (mk_of p2 ++ b) (tx_buf_size p) = Ok (q1, Some fr) -> q1 = q2 ->
     fr = 255 :: wire_of p2 b -> exists ot, o = ob ++ ot /\ sent e (255 :: wire_of p2 b) ok ot /\ q = q2).
  { intros fr q1 q2 E -> ->. rewrite E in H. cbn [bind] in H. inv H.
    eexists; split; [reflexivity|]. split; auto. apply channel_sent. discriminate. }
  unfold cp_macked.
  destruct (macced p2 b) eqn:EM.
  - destruct (F7 eq_refl) as [M5 M8].
    pose proof (finalize_secure p2 b (tx_buf_size p) F1 F2 M8 EM M5 (proj1 (proj1 (proj2 (proj2 (proj2 T2))))) NL ltac:(left; auto)) as FS.
    cbv zeta in FS.
    assert (W : mk_of p2 ++ with_crc (put_len (zlen (sealed_body p2 b) + 6) (sealed_body p2 b) ++ firstn 4 (sealed_mac p2 b)) = 255 :: wire_of p2 b).
    { rewrite MK. unfold wire_of. rewrite EM. reflexivity. }
    rewrite W in FS. destruct (zlen (255 :: wire_of p2 b) >? tx_buf_size p) eqn:EF.
    + left. split; [lia|]. destruct FS as [FS|FS]; rewrite FS in H; cbn [bind] in H; inv H; rewrite app_nil_r; auto.
    + right. split; [lia|]. destruct (FB _ _ _ FS eq_refl eq_refl) as (ot & E1 & E2 & E3). split; eauto.
  - pose proof (finalize_plain p2 b (tx_buf_size p) F1 F2 F4 EM) as FS. cbv zeta in FS.
    assert (W : mk_of p2 ++ with_crc (put_len (zlen b + 2) b) = 255 :: wire_of p2 b).
    { rewrite MK. unfold wire_of. rewrite EM. reflexivity. }
    rewrite W in FS. destruct (zlen (255 :: wire_of p2 b) >? tx_buf_size p) eqn:EF.
    + left. split; [lia|]. rewrite FS in H; cbn [bind] in H; inv H; rewrite app_nil_r; auto.
    + right. split; [lia|]. destruct (FB _ _ _ FS eq_refl eq_refl) as (ot & E1 & E2 & E3). split; eauto.
Qed.
