(** PD: what a reply changes and what it puts on the wire. *)
From Verif Require Import Base ListLemmas Crc SpecCrc CrcProofs CrcBurst Aes AesProofs Rb RbProofs
  Types Sc ScProofs Phy PhyCheck File Pd SpecRx SpecFrame RxProofs PdRx PdCore PhyTx.
From Coq Require Import ZifyBool ZifyNat.
Ltac Zify.zify_post_hook ::= Z.div_mod_to_equations.
Local Opaque aes_ecb_encrypt aes_cbc_encrypt aes_cbc_decrypt mac_of.

(* the header bytes that a PD writes *)
Definition pd_hdr (p : pd) : list Z :=
  let addr := Z.lor (if broadcast (fl p) then 127 else Z.land (address p) 127) 128 in
  let ctl := Z.lor (Z.land (seqn p) 3) 4 in
  if sc_active (fl p) then [83; addr; 0; 0; Z.lor ctl 8; 2; 21]
  else if in_sc_handshake true (reply_id p) then
    [83; addr; 0; 0; Z.lor ctl 8; 3; 17; getb (pbuf p) (mark_len p + 7)]
  else [83; addr; 0; 0; ctl].

Lemma set_seqn_id p : set_seqn (seqn p) p = p.
Proof. destruct p; reflexivity. Qed.

Lemma packet_init_pd p n : pd_mode (fl p) = true ->
  packet_init p n =
  if n <? 69 then (p, None)
  else (set_pbuf (blit (pbuf p) 0 (mk_of p ++ pd_hdr p)) (set_broadcast false p), Some (mk_of p ++ pd_hdr p)).
Proof.
  intros M. unfold packet_init. destruct (n <? 69); [reflexivity|]. cbv zeta. rewrite M.
  cbn [negb andb]. unfold pd_hdr, mk_of.
  assert (S : (if broadcast (fl p) then set_broadcast false p else p) = set_broadcast false p).
  { destruct (broadcast (fl p)) eqn:E; auto. destruct p as [? f]; destruct f; simpl in *. subst. reflexivity. }
  rewrite S. unfold get_seq. cbn [negb]. simpl. reflexivity.
Qed.

Definition r8 (l : list Z) : Prop := length l = 8%nat /\ bytes l.

(* sizes of the byte arrays of the secure channel record *)
Definition sc_wf (s : schan) : Prop :=
  sc_keys_ok s /\ blk (scbk s) /\ r8 (cp_random s) /\ r8 (pd_random s) /\ r8 (client_uid s) /\
  blk (cp_crypt s) /\ blk (pd_crypt s).

Definition cmd_typed (c : cmd) : Prop :=
  match c with
  | CText _ _ _ _ _ _ d | CKeyset _ _ d | CMfg _ _ _ d => bytes d
  | _ => True
  end.

Definition ev_typed (ev : event) : Prop :=
  match ev with
  | ECard _ _ _ _ d | EKey _ _ d | EMfgrep _ _ _ d => bytes d /\ zlen d <= 128
  | _ => True
  end.

Definition eph_typed (x : ephem) : Prop :=
  match x with
  | EphNone => True
  | EphNak c => byte c
  | EphCmd c => cmd_typed c
  | EphEv ev => ev_typed ev
  | EphKey k => blk k
  end.

Definition cap_typed (c : capent) : Prop := byte (c_comp c) /\ byte (c_num c).

(* every array holds bytes and has the size C gives it *)
Definition pd_typed (p : pd) : Prop :=
  byte (reply_id p) /\ eph_typed (eph p) /\ Forall cap_typed (caps p) /\ sc_wf (sc p) /\
  length (pbuf p) = 256%nat /\ bytes (pbuf p).

Lemma mk_typed p : byte (reply_id p) -> eph_typed (eph p) -> Forall cap_typed (caps p) -> sc_wf (sc p) ->
  length (pbuf p) = 256%nat -> bytes (pbuf p) -> pd_typed p.
Proof. unfold pd_typed. intuition. Qed.

Lemma eqb_bytes_eq a : forall b, eqb_bytes a b = true <-> a = b.
Proof.
  induction a as [|x a IH]; intros [|y b]; cbn [eqb_bytes]; split; intros H; try discriminate; auto.
  - apply andb_true_iff in H as [H1 H2]. apply IH in H2. f_equal; auto. lia.
  - injection H as -> ->. apply andb_true_iff. split; [lia|]. apply IH. auto.
Qed.

Lemma blk_session a b r : byte a -> byte b -> r8 r -> blk (session_block a b r).
Proof.
  intros A B [L R]. unfold session_block. split.
  - rewrite !app_length, firstn_length, L, length_zeros. reflexivity.
  - apply bytes_app; split; [bytes_cons; auto|]. apply bytes_app; split; [apply bytes_firstn; auto|apply bytes_zeros].
Qed.

Lemma blk_two a b : r8 a -> r8 b -> blk (firstn 8 a ++ firstn 8 b).
Proof.
  intros [A1 A2] [B1 B2]. split; [rewrite app_length, !firstn_length, A1, B1; reflexivity|].
  apply bytes_app; split; apply bytes_firstn; auto.
Qed.

Lemma blk_scbk_default : blk scbk_default.
Proof. split; [reflexivity|]. bytes_cons; unfold byte; lia. Qed.

Lemma blk_base_key u s : blk (scbk s) -> blk (session_base_key u s).
Proof. intros. unfold session_base_key. destruct u; auto using blk_scbk_default. Qed.

Lemma r8_rand l : bytes l -> r8 (firstn 8 (l ++ zeros 8)).
Proof.
  intros B. split.
  - rewrite firstn_length, app_length, length_zeros. lia.
  - apply bytes_firstn. apply bytes_app; split; auto. apply bytes_zeros.
Qed.

Lemma blk_cp_cryptogram s : sc_wf s -> blk (cp_cryptogram_of s).
Proof. intros ((K & _) & _ & C & P & _). unfold cp_cryptogram_of, pd_cryptogram_of. apply blk_ecb; auto. apply blk_two; auto. Qed.

Lemma blk_pd_cryptogram s : sc_wf s -> blk (pd_cryptogram_of s).
Proof. intros ((K & _) & _ & C & P & _). unfold cp_cryptogram_of, pd_cryptogram_of. apply blk_ecb; auto. apply blk_two; auto. Qed.

Lemma blk_rmac s : sc_wf s -> blk (rmac_i_of s).
Proof.
  intros ((K & K1 & K2 & _) & _ & C & P & U & X & _). unfold rmac_i_of. apply blk_ecb; auto. apply blk_ecb; auto.
Qed.

Lemma sc_wf_keys p : sc_wf (sc p) -> sc_wf (sc (compute_session_keys p)).
Proof.
  intros ((K & K1 & K2 & KR & KC) & S & C & P & U & X & Y).
  assert (BK : blk (session_base_key (use_scbkd (fl p)) (sc p))) by (apply blk_base_key; auto).
  unfold compute_session_keys. cbv zeta. unfold sc_wf, sc_keys_ok. simpl.
  repeat split; try (apply S || apply C || apply P || apply U || apply X || apply Y || apply KR || apply KC);
  apply blk_ecb; auto; apply blk_session; auto; unfold byte; lia.
Qed.

Lemma wf_pd_crypt s c : sc_wf s -> blk c -> sc_wf (cset_pd_crypt c s).
Proof. unfold sc_wf, sc_keys_ok. simpl. tauto. Qed.
Lemma wf_pd_random s c : sc_wf s -> r8 c -> sc_wf (cset_pd_random c s).
Proof. unfold sc_wf, sc_keys_ok. simpl. tauto. Qed.
Lemma wf_cp_crypt s c : sc_wf s -> blk c -> sc_wf (cset_cp_crypt c s).
Proof. unfold sc_wf, sc_keys_ok. simpl. tauto. Qed.
Lemma wf_cp_random s c : sc_wf s -> r8 c -> sc_wf (cset_cp_random c s).
Proof. unfold sc_wf, sc_keys_ok. simpl. tauto. Qed.
Lemma wf_r_mac s c : sc_wf s -> blk c -> sc_wf (cset_r_mac c s).
Proof. unfold sc_wf, sc_keys_ok. simpl. tauto. Qed.
Lemma wf_c_mac s c : sc_wf s -> blk c -> sc_wf (cset_c_mac c s).
Proof. unfold sc_wf, sc_keys_ok. simpl. tauto. Qed.
Lemma wf_scbk s c : sc_wf s -> blk c -> sc_wf (cset_scbk c s).
Proof. unfold sc_wf, sc_keys_ok. simpl. tauto. Qed.

(* how building a reply can change the device *)
Definition build_rel (e : env) (p p2 : pd) : Prop :=
  p2 = p
  \/ (reply_id p = REPLY_COM /\ exists a b, eph p = EphCmd (CComset a b) /\ p2 = set_baud b (set_address a p))
  \/ (reply_id p = REPLY_FTSTAT /\ exists f, p2 = set_file f p)
  \/ (reply_id p = REPLY_CCRYPT /\ p2 = compute_pd_cryptogram (compute_session_keys
                                        (set_pd_random (firstn 8 (e_rand e ++ zeros 8)) p)))
  \/ (reply_id p = REPLY_RMAC_I /\ cp_crypt (sc p) <> cp_cryptogram_of (sc p) /\ p2 = compute_rmac_i p)
  \/ (reply_id p = REPLY_RMAC_I /\ cp_crypt (sc p) = cp_cryptogram_of (sc p) /\
      p2 = set_sc_tstamp (e_now e) (set_sc_active true (compute_rmac_i p))).

Lemma cap_entries_ok p : Forall cap_typed (caps p) -> forall f i m, 0 <= i -> i + Z.of_nat f <= 256 ->
  bytes (cap_entries p f i m) /\ zlen (cap_entries p f i m) <= 3 * Z.of_nat f.
Proof.
  intros T. induction f as [|f IH]; intros i m Hi Hf; cbn [cap_entries].
  - split; [constructor|]. change (zlen (@nil Z)) with 0. lia.
  - cbv zeta. dif; [destruct (IH (i + 1) m) as [A B]; try lia; split; auto; lia|].
    dif; [split; [constructor|change (zlen (@nil Z)) with 0; lia]|].
    destruct (IH (i + 1) (m - 3)) as [A B]; try lia.
    assert (C : cap_typed (cap_at p i)).
    { unfold cap_at. destruct (nth_in_or_default (Z.to_nat i) (caps p) (mkCap 0 0 0)) as [X|X].
      - rewrite Forall_forall in T. apply T; auto.
      - rewrite X. split; unfold byte; simpl; lia. }
    destruct C as [C1 C2]. split.
    + apply (bytes_app [i; c_comp (cap_at p i); c_num (cap_at p i)]). split; auto. bytes_cons; auto. unfold byte; lia.
    + cbn [app]. rewrite !zlen_cons. lia.
Qed.

Lemma take_arr_ok l n d : take_arr l n = Ok d -> bytes l /\ zlen l <= 128 -> bytes d /\ zlen d = n /\ n <= 128.
Proof.
  unfold take_arr. destruct (n <? 0) eqn:E1; [discriminate|]. destruct (zlen l <? n) eqn:E2; [discriminate|].
  intros H [B L]; inv H. split; [apply bytes_firstn; auto|]. unfold zlen in *. rewrite firstn_length. lia.
Qed.

Lemma mask_bits_ok m n l : mask_bits m n = Ok l -> bytes l /\ (0 <= n -> zlen l = n) /\ n <= 32.
Proof.
  unfold mask_bits. dif; [discriminate|]. intros H; inv H. split; [|split].
  - unfold bytes. rewrite Forall_map. apply Forall_forall. intros x _. dif; unfold byte; lia.
  - intros. unfold zlen. rewrite map_length, seq_length. lia.
  - lia.
Qed.

Lemma file_stat_build_bytes e p n q l o : file_stat_build e p n = Ok (q, Some l, o) -> bytes l /\ zlen l = 7.
Proof.
  unfold file_stat_build. destruct (file p) as [f|]; [|discriminate]. cbv zeta.
  destruct (negb (in_progress f)); [discriminate|]. destruct (n <? FT_STAT); [discriminate|].
  destruct (Types.f_len f >? 0) eqn:E;
  (dif; [discriminate|]; dif; [dif; [discriminate|]|]; intros H; injection H as <- <- <-;
   split; try reflexivity; bytes_cons; unfold byte, byte0, byte1; lia).
Qed.

Definition pay_ok (p : pd) (m : Z) (pay : option (list Z)) : Prop :=
  match pay with
  | Some d => bytes d /\ zlen d <= Z.min m 134 /\ exists t, d = reply_id p :: t
  | None => True
  end.

Lemma assert_len_ok {A} need have (k : res A) r : assert_len need have k = Ok r -> need < have /\ k = Ok r.
Proof. unfold assert_len. destruct (need <? have) eqn:E; [|discriminate]. intros; split; auto; lia. Qed.

Lemma bool_byte (b : bool) : byte (if b then 1 else 0).
Proof. destruct b; unfold byte; lia. Qed.
#[export] Hint Resolve byte_byte0 byte_byte1 byte_u8 bool_byte : bytesdb.

Lemma byte_byte2 x : byte (byte2 x). Proof. unfold byte, byte2. lia. Qed.
Lemma byte_byte3 x : byte (byte3 x). Proof. unfold byte, byte3. lia. Qed.
#[export] Hint Resolve byte_byte2 byte_byte3 : bytesdb.

Ltac bb := bytes_cons; auto with bytesdb; unfold byte; lia.

Lemma build_mask_ok p fc m o : Forall cap_typed (caps p) -> byte (reply_id p) -> build_mask p fc m = Ok o -> pay_ok p m o.
Proof.
  intros T R. unfold build_mask. destruct (eph_status p) as [[a b]| |]; cbn [bind fst snd]; try discriminate.
  dif; [intros H; inv H; exact I|]. intros H. apply assert_len_ok in H as [L H].
  destruct (mask_bits b _) as [bs| |] eqn:E; cbn [bind] in H; try discriminate. inv H.
  apply mask_bits_ok in E as (E1 & E2 & E3).
  assert (N : 0 <= c_num (cap_at p fc)).
  { unfold cap_at. destruct (nth_in_or_default (Z.to_nat fc) (caps p) (mkCap 0 0 0)) as [X|X].
    - rewrite Forall_forall in T. apply T in X. destruct X as [_ X]. unfold byte in X. lia.
    - rewrite X. simpl. lia. }
  split; [|split; [rewrite zlen_cons, E2; lia|eauto]].
  constructor; auto.
Qed.

Lemma build_switch_ok e p smb m p2 pay ss o : pd_typed p -> bytes (e_rand e) -> 60 <= m ->
  build_switch e p smb m = Ok (p2, pay, ss, o) ->
  no_tx o /\ pd_typed p2 /\ pay_ok p m pay /\ build_rel e p p2 /\
  match ss with
  | Some (ty, b) => (ty = 18 \/ ty = 20) /\ (b = 0 \/ b = 1) /\ smb = true /\ pay <> None /\ in_sc_handshake true (reply_id p) = true
  | None => in_sc_handshake true (reply_id p) = true -> smb = false
  end.
Proof.
  intros T R Hm. destruct T as (Tr & Te & Tc & Ts & Tl & Tb).
  assert (T : pd_typed p) by (apply mk_typed; auto).
  unfold build_switch. cbv zeta.
  assert (FINE : forall l, bytes l -> zlen l <= Z.min m 134 -> (exists t, l = reply_id p :: t) -> 
     in_sc_handshake true (reply_id p) = false ->
     Ok (p, Some l, None, []) = Ok (p2, pay, ss, o) ->
     no_tx o /\ pd_typed p2 /\ pay_ok p m pay /\ build_rel e p p2 /\
     match ss with
     | Some (ty, b) => (ty = 18 \/ ty = 20) /\ (b = 0 \/ b = 1) /\ smb = true /\ pay <> None /\ in_sc_handshake true (reply_id p) = true
     | None => in_sc_handshake true (reply_id p) = true -> smb = false
     end).
  { intros l A B C D H. inv H. split; [apply no_tx_nil|]. split; auto. split; [repeat split; auto|].
    split; [left; auto|]. rewrite D. discriminate. }
  assert (HS : forall r, reply_id p =? r = true -> r <> 118 -> r <> 120 -> in_sc_handshake true (reply_id p) = false).
  { intros r E A B. unfold in_sc_handshake, REPLY_CCRYPT, REPLY_RMAC_I. lia. }
  dif; [intros H; apply assert_len_ok in H as [H1 H]; revert H; apply FINE; eauto; [bb|change (zlen [reply_id p]) with 1; lia|
        eapply HS; [eassumption|discriminate|discriminate]]|].
  dif; [intros H; apply assert_len_ok in H as [H1 H]; revert H; apply FINE; eauto;
        [unfold id_bytes; bb|unfold id_bytes; rewrite !zlen_cons; change (zlen (@nil Z)) with 0; lia|
         eapply HS; [eassumption|discriminate|discriminate]]|].
  dif. { intros H; apply assert_len_ok in H as [H1 H]; revert H.
         destruct (cap_entries_ok p Tc 16 1 m) as [A B]; try lia. apply FINE; eauto.
         - constructor; auto.
         - rewrite zlen_cons; lia.
         - eapply HS; [eassumption|discriminate|discriminate]. }
  dif. { destruct (build_mask p CAP_OUTPUT m) as [x| |] eqn:E; cbn [bind]; try discriminate. intros H; inv H.
         apply build_mask_ok in E; auto. split; [apply no_tx_nil|]. split; auto. split; auto. split; [left; auto|].
         rewrite (HS REPLY_OSTATR) by (auto; discriminate). discriminate. }
  dif. { destruct (build_mask p CAP_CONTACT m) as [x| |] eqn:E; cbn [bind]; try discriminate. intros H; inv H.
         apply build_mask_ok in E; auto. split; [apply no_tx_nil|]. split; auto. split; auto. split; [left; auto|].
         rewrite (HS REPLY_ISTATR) by (auto; discriminate). discriminate. }
  dif. { intros H; apply assert_len_ok in H as [H1 H]; revert H.
         destruct (eph_status p); cbn [bind]; try discriminate. apply FINE; eauto; [bb| |eapply HS; [eassumption|discriminate|discriminate]].
         rewrite !zlen_cons. change (zlen (@nil Z)) with 0. lia. }
  dif. { intros H; apply assert_len_ok in H as [H1 H]; revert H.
         destruct (eph_status p); cbn [bind]; try discriminate. apply FINE; eauto; [bb| |eapply HS; [eassumption|discriminate|discriminate]].
         rewrite !zlen_cons. change (zlen (@nil Z)) with 0. lia. }
  dif. { destruct (eph p) as [| | |ev|] eqn:Ee; try discriminate. destruct ev; try discriminate.
         intros H; apply assert_len_ok in H as [H1 H]; revert H.
         destruct (take_arr data len) as [d| |] eqn:E; cbn [bind]; try discriminate.
         apply take_arr_ok in E as (E1 & E2 & E3); auto. apply FINE; eauto.
         - apply (bytes_app [_;_;_]). split; auto. bb.
         - cbn [app]. rewrite !zlen_cons. lia.
         - eexists; reflexivity.
         - eapply HS; [eassumption|discriminate|discriminate]. }
  dif. { destruct (eph p) as [| | |ev|] eqn:Ee; try discriminate. destruct ev; try discriminate.
         intros H; apply assert_len_ok in H as [H1 H]; revert H.
         destruct (take_arr data _) as [d| |] eqn:E; cbn [bind]; try discriminate.
         apply take_arr_ok in E as (E1 & E2 & E3); auto. apply FINE; eauto.
         - apply (bytes_app [_;_;_;_;_]). split; auto. bb.
         - cbn [app]. rewrite !zlen_cons. lia.
         - eexists; reflexivity.
         - eapply HS; [eassumption|discriminate|discriminate]. }
  dif. { destruct (eph p) as [| |c| |] eqn:Ee; try discriminate. destruct c; try discriminate.
         intros H; apply assert_len_ok in H as [H1 H]; inv H.
         split; [apply no_tx_nil|]. split; [apply mk_typed; auto; simpl; rewrite Ee; exact I|].
         split; [split; [bb|split; [rewrite !zlen_cons; change (zlen (@nil Z)) with 0; lia|eauto]]|].
         split; [right; left; split; [lia|]; eauto|]. rewrite (HS REPLY_COM) by (auto; discriminate). discriminate. }
  dif. { destruct (eph p) as [|c| | |] eqn:Ee; try discriminate.
         intros H; apply assert_len_ok in H as [H1 H]; revert H. apply FINE; eauto.
         - bb.
         - rewrite !zlen_cons. change (zlen (@nil Z)) with 0. lia.
         - eapply HS; [eassumption|discriminate|discriminate]. }
  dif. { destruct (eph p) as [| | |ev|] eqn:Ee; try discriminate. destruct ev; try discriminate.
         intros H; apply assert_len_ok in H as [H1 H]; revert H.
         destruct (take_arr data len) as [d| |] eqn:E; cbn [bind]; try discriminate.
         apply take_arr_ok in E as (E1 & E2 & E3); auto. apply FINE; eauto.
         - apply (bytes_app [_;_;_;_;_]). split; auto. bb.
         - cbn [app]. rewrite !zlen_cons. lia.
         - eexists; reflexivity.
         - eapply HS; [eassumption|discriminate|discriminate]. }
  dif. { destruct (file_stat_build e p m) as [[[p1 x] o1]| |] eqn:E; cbn [bind]; try discriminate.
         assert (NH : in_sc_handshake true (reply_id p) = false) by (apply (HS REPLY_FTSTAT); auto; discriminate).
         pose proof E as E'. apply file_stat_build_core in E' as [(f & ->) N].
         destruct x as [l|]; intros H; inv H.
         - apply file_stat_build_bytes in E as [E1 E2]. split; auto. split; [apply mk_typed; auto|].
           split; [split; [constructor; auto|split; [rewrite zlen_cons; lia|eauto]]|].
           split; [right; right; left; split; [lia|eauto]|]. rewrite NH. discriminate.
         - split; auto. split; [apply mk_typed; auto|]. split; [exact I|].
           split; [right; right; left; split; [lia|eauto]|]. rewrite NH. discriminate. }
  dif. { unfold build_ccrypt. destruct smb; cbn [negb].
         - intros H; apply assert_len_ok in H as [H1 H].
           set (p1 := set_pd_random (firstn 8 (e_rand e ++ zeros 8)) p) in *.
           assert (W1 : sc_wf (sc p1)).
           { apply (wf_pd_random (sc p)); auto. apply r8_rand; auto. }
           pose proof (sc_wf_keys p1 W1) as W2.
           assert (W3 : sc_wf (sc (compute_pd_cryptogram (compute_session_keys p1)))).
           { apply (wf_pd_crypt (sc (compute_session_keys p1))); auto. apply blk_pd_cryptogram; auto. }
           set (p3 := compute_pd_cryptogram (compute_session_keys p1)) in *.
           assert (T3 : pd_typed p3) by (apply mk_typed; auto).
           assert (R3 : reply_id p3 = reply_id p) by reflexivity.
           assert (B3 : build_rel e p p3) by (right; right; right; left; split; [lia|reflexivity]).
           assert (HH : in_sc_handshake true (reply_id p) = true) by (unfold in_sc_handshake; rewrite Heqb12; reflexivity).
           clearbody p3. inv H. split; [apply no_tx_nil|]. split; auto.
           split; [|split; auto; split; [left; reflexivity|]; split; [dif; auto|]; split; auto; split; [discriminate|auto]].
           destruct W3 as (A & B & C & D & F & G & I). unfold r8, blk in *.
           split; [|split; [|rewrite R3; eauto]].
           + apply (Forall_cons (reply_id p2)); [rewrite R3; auto|].
             apply bytes_app; split; [apply F|]. apply bytes_app; split; [apply D|apply I].
           + rewrite zlen_cons, !zlen_app. unfold zlen. destruct F as [-> _], D as [-> _], I as [-> _]. lia.
         - intros H; inv H. split; [apply no_tx_nil|]. split; auto. split; [exact I|]. split; [left; auto|]. auto. }
  dif. { unfold build_rmac. destruct smb; cbn [negb].
         - intros H; apply assert_len_ok in H as [H1 H]. cbv zeta in H.
           assert (BR : blk (rmac_i_of (sc p))) by (apply blk_rmac; auto).
           assert (W1 : sc_wf (sc (compute_rmac_i p))).
           { apply (wf_r_mac (sc p)); auto. }
           assert (HH : in_sc_handshake true (reply_id p) = true) by (unfold in_sc_handshake; rewrite Heqb13; apply orb_true_r).
           assert (PO : pay_ok p m (Some (reply_id (compute_rmac_i p) :: r_mac (sc (compute_rmac_i p))))).
           { change (reply_id (compute_rmac_i p)) with (reply_id p). change (r_mac (sc (compute_rmac_i p))) with (rmac_i_of (sc p)).
             split; [constructor; [auto|apply BR]|]. split; [rewrite zlen_cons; unfold zlen; destruct BR as [-> _]; lia|eauto]. }
           assert (VE : verify_cp_cryptogram (compute_rmac_i p) = eqb_bytes (cp_crypt (sc p)) (cp_cryptogram_of (sc p))) by reflexivity.
           rewrite VE in H.
           destruct (eqb_bytes (cp_crypt (sc p)) (cp_cryptogram_of (sc p))) eqn:EV; inv H.
           + apply eqb_bytes_eq in EV. split; [apply no_tx_nil|]. split; [apply mk_typed; auto|].
             split; auto. split; [do 5 right; split; [lia|auto]|]. repeat split; auto; discriminate.
           + assert (cp_crypt (sc p) <> cp_cryptogram_of (sc p)) by (intros X; apply eqb_bytes_eq in X; congruence).
             split; [apply no_tx_nil|]. split; [apply mk_typed; auto|].
             split; auto. split; [do 4 right; left; split; [lia|auto]|]. repeat split; auto; discriminate.
         - intros H; inv H. split; [apply no_tx_nil|]. split; auto. split; [exact I|]. split; [left; auto|]. auto. }
  intros H; inv H. split; [apply no_tx_nil|]. split; auto. split; [exact I|]. split; [left; auto|].
  unfold in_sc_handshake. rewrite Heqb12, Heqb13. discriminate.
Qed.
