(** PD: every outcome of the command decoder, one rule each. *)
From Verif Require Import Base ListLemmas Crc SpecCrc CrcProofs CrcBurst Aes AesProofs Rb RbProofs
  Types Sc ScProofs Phy PhyCheck File Pd SpecRx SpecFrame SpecSec SpecCmd MacProofs RxProofs RxFwd PdRx PdCore PhyTx PdTx PdReply
  PdStep PdWire PdFwd SpecPd PdRun PdSpeak PdPlain PdSec PdRefuse PdFacts PdKinds.
From Coq Require Import ZifyBool ZifyNat.
Ltac Zify.zify_post_hook ::= Z.div_mod_to_equations.
Local Opaque aes_ecb_encrypt aes_cbc_encrypt aes_cbc_decrypt mac_of RB_SIZE osdp_mac enc1.

Definition cb_rc (e : env) (n : nat) (c : cmd) : Z := fst (e_cb e n c).
Definition cb_out (e : env) (n : nat) (c : cmd) : cmd := snd (e_cb e n c).

(* status command: code, type number, answer code *)
Definition status_cmd (c ty rp : Z) : Prop :=
  (c = 100 /\ ty = 2 /\ rp = 72) \/ (c = 101 /\ ty = 0 /\ rp = 73) \/ (c = 102 /\ ty = 1 /\ rp = 74) \/ (c = 103 /\ ty = 3 /\ rp = 75).
(* multi record command: code, record size, record decoder *)
Definition multi_cmd (c n : Z) (dec : list Z -> cmd) : Prop :=
  (c = 104 /\ n = 4 /\ dec = dec_out) \/ (c = 105 /\ n = 14 /\ dec = dec_led) \/ (c = 106 /\ n = 5 /\ dec = dec_buz).
Definition status_cap (p : pd) (ty : Z) : Prop :=
  (ty = 0 -> cap_present p CAP_CONTACT = true) /\ (ty = 1 -> cap_present p CAP_OUTPUT = true).
Definition text_of (d : list Z) : cmd :=
  CText (getb d 0) (getb d 1) (getb d 2) (getb d 3) (getb d 4) (getb d 5) (sub d 6 (getb d 5)).
Definition mfg_of (d : list Z) : cmd :=
  CMfg (le24 (getb d 0) (getb d 1) (getb d 2)) (getb d 3) (zlen d - 4) (from d 4).
Definition comset_of (d : list Z) : cmd :=
  CComset (getb d 0) (le32 (getb d 1) (getb d 2) (getb d 3) (getb d 4)).
Definition keyset_of (d : list Z) : cmd := CKeyset 1 16 (from d 2).

(* p is the device with the command code noted and the old answer cleared *)
Inductive dec_case (e : env) (p : pd) (c : Z) (d : list Z) : pd -> pderr -> list out -> Prop :=
| dc_bad : dec_case e p c d p RGeneric []
| dc_nak k : In k [3; 5; 6] -> dec_case e p c d (nak k p) RReply []
| dc_plain r : (c = 96 /\ d = [] /\ evq p = [] /\ r = 64) \/ (c = 97 /\ zlen d = 1 /\ r = 69) \/ (c = 98 /\ zlen d = 1 /\ r = 70) ->
    dec_case e p c d (set_reply_id r p) RNone []
| dc_event ev t : c = 96 -> d = [] -> evq p = ev :: t -> dec_case e p c d (translate_event (set_evq t p) ev) RNone []
| dc_status ty rp t n m : status_cmd c ty rp -> d = [] -> status_cap p ty -> has_cb p = true ->
    e_cb e 0 (CStatus ty 0 0) = (0, CStatus t n m) ->
    dec_case e p c d (set_reply_id rp (set_eph (EphEv (EStatus t n m)) p)) RNone [OCmd (CStatus ty 0 0)]
| dc_status_no ty rp : status_cmd c ty rp -> d = [] -> status_cap p ty -> has_cb p = true -> cb_rc e 0 (CStatus ty 0 0) <> 0 ->
    dec_case e p c d (nak 9 p) RGeneric [OCmd (CStatus ty 0 0)]
| dc_multi n dec q o : multi_cmd c n dec -> zlen d mod n = 0 -> has_cb p = true ->
    do_records e 0 p (map dec (chunks (Z.to_nat (zlen d / n)) n d)) = (q, o) ->
    dec_case e p c d (set_reply_id 64 q) RNone o
| dc_text : c = 107 -> 6 <= zlen d -> getb d 5 <= 32 -> getb d 5 <= zlen d - 6 -> has_cb p = true -> cap_present p CAP_TEXT = true ->
    cb_rc e 0 (text_of d) = 0 -> dec_case e p c d (set_reply_id 64 p) RNone [OCmd (text_of d)]
| dc_text_no : c = 107 -> 6 <= zlen d -> getb d 5 <= 32 -> getb d 5 <= zlen d - 6 -> has_cb p = true -> cap_present p CAP_TEXT = true ->
    cb_rc e 0 (text_of d) <> 0 -> dec_case e p c d (nak 9 p) RReply [OCmd (text_of d)]
| dc_mfg : c = 128 -> 4 <= zlen d <= 68 -> has_cb p = true -> cb_rc e 0 (mfg_of d) = 0 ->
    dec_case e p c d (set_reply_id 64 p) RNone [OCmd (mfg_of d)]
| dc_mfg_no : c = 128 -> 4 <= zlen d <= 68 -> has_cb p = true -> cb_rc e 0 (mfg_of d) <> 0 ->
    dec_case e p c d (nak 9 p) RReply [OCmd (mfg_of d)]
| dc_comset : c = 110 -> zlen d = 5 -> getb d 0 < 127 -> baud_ok (le32 (getb d 1) (getb d 2) (getb d 3) (getb d 4)) = true -> has_cb p = true ->
    cb_rc e 0 (comset_of d) = 0 ->
    dec_case e p c d (set_reply_id 84 (set_eph (EphCmd (cb_out e 0 (comset_of d))) p)) RNone [OCmd (comset_of d)]
| dc_comset_no : c = 110 -> zlen d = 5 -> getb d 0 < 127 -> baud_ok (le32 (getb d 1) (getb d 2) (getb d 3) (getb d 4)) = true -> has_cb p = true ->
    cb_rc e 0 (comset_of d) <> 0 -> dec_case e p c d (nak 9 p) RReply [OCmd (comset_of d)]
| dc_rxsize : c = 123 -> 2 <= zlen d -> dec_case e p c d (set_reply_id 64 (set_peer_rx (le16 (getb d 0) (getb d 1)) p)) RNone []
| dc_keep : c = 167 -> 2 <= zlen d -> dec_case e p c d (set_reply_id 64 (set_sc_tstamp (sc_tstamp p + le16 (getb d 0) (getb d 1)) p)) RNone []
| dc_abort q o : c = 162 -> d = [] -> file_tx_abort p = (q, o) -> dec_case e p c d (set_reply_id 64 q) RNone o
| dc_file q o : c = 124 -> file_tx_decode e p d = Ok (q, true, o) -> dec_case e p c d (set_reply_id 122 q) RNone o
| dc_file_no q o : c = 124 -> file_tx_decode e p d = Ok (q, false, o) -> dec_case e p c d q RWait o
| dc_keyset kt kn kd k : c = 117 -> zlen d = 18 -> getb d 0 = 1 -> getb d 1 = 16 -> sc_active (fl p) = true -> has_cb p = true ->
    e_cb e 0 (keyset_of d) = (0, CKeyset kt kn kd) -> take_arr kd 16 = Ok k ->
    dec_case e p c d (set_eph (EphKey k) (set_reply_id 64 (nak 6 p))) RNone [OCmd (keyset_of d)]
| dc_keyset_no : c = 117 -> zlen d = 18 -> getb d 0 = 1 -> getb d 1 = 16 -> sc_active (fl p) = true -> has_cb p = true ->
    cb_rc e 0 (keyset_of d) <> 0 -> dec_case e p c d (nak 9 (nak 6 p)) RReply [OCmd (keyset_of d)]
| dc_keyset_bad k : c = 117 -> In k [5; 6] -> dec_case e p c d (nak k (nak 6 p)) RReply []
| dc_chlng : c = 118 -> zlen d = 8 -> dec_case e p c d (set_reply_id 118 (set_cp_random d (sc_deactivate p))) RNone []
| dc_scrypt : c = 119 -> zlen d = 16 -> sc_active (fl p) = false -> dec_case e p c d (set_reply_id 120 (set_cp_crypt d p)) RNone [].

Lemma do_callback_eq e n p c q b c1 o : do_callback e n p c = (q, b, c1, o) ->
  o = [OCmd c] /\ c1 = cb_out e n c /\
  ((b = true /\ cb_rc e n c = 0 /\ q = p) \/ (b = false /\ cb_rc e n c <> 0 /\ q = nak 9 p)).
Proof.
  unfold do_callback, cb_rc, cb_out. destruct (e_cb e n c) as [rc cc]. simpl. destruct (rc =? 0) eqn:E; intros H; inv H; split; auto; split; auto.
  - left. split; auto. split; auto; lia.
  - right. split; auto. split; auto; lia.
Qed.

Lemma nil_len (d : list Z) : (zlen d =? 0) = true -> d = [].
Proof. intros H. destruct d; auto. rewrite zlen_cons in H. pose proof (zlen_nonneg d). lia. Qed.

Lemma switch_case e p c d q r o : decode_switch e p c d = Some (Ok (q, r, o)) -> dec_case e p c d q r o.
Proof.
  unfold decode_switch. cbv zeta.
  assert (BK : forall q r (o : list out), Some (Ok (p, RGeneric, [])) = Some (Ok (q, r, o)) -> dec_case e p c d q r o)
    by (intros ? ? ? H; inv H; apply dc_bad).
  assert (NK : forall k q r (o : list out), In k [3; 5; 6] -> Some (Ok (nak k p, RReply, [])) = Some (Ok (q, r, o)) -> dec_case e p c d q r o)
    by (intros k ? ? ? Hk H; inv H; apply dc_nak; auto).
  assert (ST : forall ty rp q r o, status_cmd c ty rp -> d = [] -> status_cap p ty -> has_cb p = true ->
     Some (do_status e p ty rp) = Some (Ok (q, r, o)) -> dec_case e p c d q r o).
  { intros ty rp q2 r3 o3 S D C HC H. injection H as H. unfold do_status in H.
    destruct (do_callback e 0 p _) as [[[p3 b] c1] o1] eqn:E. apply do_callback_eq in E as (-> & -> & [(-> & E & ->)|(-> & E & ->)]).
    - unfold cb_out, cb_rc in *. destruct (e_cb e 0 (CStatus ty 0 0)) as [rc cc] eqn:EC. simpl in E. subst rc. simpl in H.
      destruct cc; inv H. eapply dc_status; eauto.
    - inv H. eapply dc_status_no; eauto. }
  assert (MU : forall n f q r o, multi_cmd c n f -> Some (do_multi e p n f d) = Some (Ok (q, r, o)) -> dec_case e p c d q r o).
  { intros n f q2 r3 o3 M H. injection H as H. unfold do_multi in H.
    destruct (negb _ || negb _) eqn:G; [inv H; apply dc_bad|].
    destruct (do_records e 0 p _) as [p3 o1] eqn:E. inv H. eapply dc_multi; eauto; [lia|].
    apply orb_false_iff in G. destruct G as [_ G]. destruct (has_cb p); auto. }
  assert (HB : forall b, negb b || negb (has_cb p) = false -> b = true /\ has_cb p = true).
  { intros b H. destruct b, (has_cb p); auto; discriminate. }
  dif. { apply Z.eqb_eq in Heqb. dif; [apply BK|]. apply negb_false_iff, nil_len in Heqb0. destruct (evq p) as [|ev qq] eqn:EQ.
         - intros H; inv H. apply dc_plain. left. auto.
         - intros H; inv H. apply dc_event; auto. }
  dif. { apply Z.eqb_eq in Heqb0. dif; [apply BK|]. dif; [discriminate|]. apply negb_false_iff in Heqb1, Heqb2. apply nil_len in Heqb1.
         apply ST; auto; [unfold status_cmd; tauto|split; discriminate]. }
  dif. { apply Z.eqb_eq in Heqb1. dif; [apply BK|]. apply HB in Heqb2 as [G1 G2]. apply nil_len in G1. dif; [apply NK; simpl; auto|].
         apply negb_false_iff in Heqb2. apply ST; auto; [unfold status_cmd; tauto|split; auto; discriminate]. }
  dif. { apply Z.eqb_eq in Heqb2. dif; [apply BK|]. apply HB in Heqb3 as [G1 G2]. apply nil_len in G1. dif; [apply NK; simpl; auto|].
         apply negb_false_iff in Heqb3. apply ST; auto; [unfold status_cmd; tauto|split; auto; discriminate]. }
  dif. { apply Z.eqb_eq in Heqb3. dif; [apply BK|]. apply HB in Heqb4 as [G1 G2]. apply nil_len in G1.
         apply ST; auto; [unfold status_cmd; tauto|split; discriminate]. }
  dif. { apply Z.eqb_eq in Heqb4. dif; [apply BK|]. intros H; inv H. apply dc_plain. right. left. split; auto. split; auto. lia. }
  dif. { apply Z.eqb_eq in Heqb5. dif; [apply BK|]. intros H; inv H. apply dc_plain. right. right. split; auto. split; auto. lia. }
  dif. { apply Z.eqb_eq in Heqb6. apply MU. unfold multi_cmd; tauto. }
  dif. { apply Z.eqb_eq in Heqb7. apply MU. unfold multi_cmd; tauto. }
  dif. { apply Z.eqb_eq in Heqb8. apply MU. unfold multi_cmd; tauto. }
  clear ST MU. clear Heqb Heqb0 Heqb1 Heqb2 Heqb3 Heqb4 Heqb5 Heqb6 Heqb7 Heqb8.
  dif. { apply Z.eqb_eq in Heqb. unfold do_text. dif; [apply BK|]. cbv zeta. dif; [apply BK|]. dif; [apply NK; simpl; auto|].
         apply orb_false_iff in Heqb0, Heqb1. destruct Heqb0 as [G1 G2], Heqb1 as [G3 G4]. apply negb_false_iff in G2, Heqb2.
         destruct (do_callback _ _ _ _) as [[[p3 bb] c1] o1] eqn:E. apply do_callback_eq in E as (-> & -> & [(-> & E & ->)|(-> & E & ->)]);
         intros H; inv H; [apply dc_text; auto; lia|apply dc_text_no; auto; lia]. }
  dif. { apply Z.eqb_eq in Heqb0. unfold do_comset. dif; [apply BK|]. cbv zeta. dif; [apply BK|].
         apply HB in Heqb1 as [G1 G2]. apply orb_false_iff in Heqb2. destruct Heqb2 as [G3 G4]. apply negb_false_iff in G4.
         destruct (do_callback _ _ _ _) as [[[p3 bb] c1] o1] eqn:E. apply do_callback_eq in E as (-> & -> & [(-> & E & ->)|(-> & E & ->)]);
         intros H; inv H; [apply dc_comset; auto; lia|apply dc_comset_no; auto; lia]. }
  dif. { apply Z.eqb_eq in Heqb1. unfold do_mfg. dif; [apply BK|]. cbv zeta. dif; [apply BK|].
         apply orb_false_iff in Heqb2. destruct Heqb2 as [G1 G2]. apply negb_false_iff in G2.
         destruct (do_callback _ _ _ _) as [[[p3 bb] c1] o1] eqn:E. apply do_callback_eq in E as (-> & -> & [(-> & E & ->)|(-> & E & ->)]);
         intros H; inv H; [apply dc_mfg; auto; lia|apply dc_mfg_no; auto; lia]. }
  dif. { apply Z.eqb_eq in Heqb2. dif; [apply BK|]. intros H; inv H. apply dc_rxsize; auto; lia. }
  dif. { apply Z.eqb_eq in Heqb3. dif; [apply BK|]. intros H; inv H. apply dc_keep; auto; lia. }
  dif. { apply Z.eqb_eq in Heqb4. dif; [apply BK|]. apply negb_false_iff, nil_len in Heqb5. destruct (file_tx_abort p) as [p3 o1] eqn:E. intros H; inv H. apply dc_abort; auto. }
  dif. { apply Z.eqb_eq in Heqb5. destruct (file_tx_decode e p d) as [[[p3 bb] o1]| |] eqn:E; cbn [bind]; try discriminate.
         destruct bb; intros H; inv H; [apply dc_file; auto|apply dc_file_no; auto]. }
  dif. { apply Z.eqb_eq in Heqb6. unfold do_keyset. dif; [apply BK|]. dif; [apply BK|]. cbv zeta.
         dif; [intros H; inv H; apply dc_keyset_bad; simpl; auto|].
         dif; [intros H; inv H; apply (dc_keyset_bad _ _ _ _ 6); simpl; auto|].
         dif; [intros H; inv H; apply (dc_keyset_bad _ _ _ _ 6); simpl; auto|].
         apply orb_false_iff in Heqb8. destruct Heqb8 as [G1 G2]. apply negb_false_iff in Heqb7, G1, G2, Heqb10, Heqb11.
         apply Z.eqb_eq in Heqb7, G1, G2. rewrite G1, G2. fold (keyset_of d). 
         destruct (do_callback _ _ _ _) as [[[p3 bb] c1] o1] eqn:E. apply do_callback_eq in E as (-> & -> & [(-> & E & ->)|(-> & E & ->)]).
         - unfold cb_out, cb_rc in *. destruct (e_cb e 0 (keyset_of d)) as [rc cc] eqn:EC. simpl in E. subst rc. simpl.
           destruct cc; try discriminate. destruct (take_arr data 16) eqn:TA; cbn [bind]; try discriminate. intros H; inv H.
           eapply dc_keyset; eauto.
         - intros H; inv H. apply dc_keyset_no; auto. }
  dif. { apply Z.eqb_eq in Heqb7. unfold do_chlng. dif; [apply BK|]. dif; [apply NK; simpl; auto|]. intros H; inv H. apply dc_chlng; auto; lia. }
  dif. { apply Z.eqb_eq in Heqb8. unfold do_scrypt. dif; [apply BK|]. dif; [apply NK; simpl; auto|]. dif; [apply NK; simpl; auto|].
         intros H; inv H. apply dc_scrypt; auto; lia. }
  discriminate.
Qed.

(* the whole decoder: gate, switch, and the default answer NAK(2) *)
Lemma command_case e p c d q r o : decode_command e p (c :: d) = Ok (q, r, o) ->
  let p1 := set_cmd_id c (set_reply_id 0 p) in
  (enforce (fl p) = true -> sc_active (fl p) = true \/ In c public_codes \/ (q = nak 6 p1 /\ r = RReply /\ o = [])) /\
  ((exists k, In k [2; 3; 5; 6] /\ q = nak k p1 /\ r = RReply /\ o = []) \/
   (exists q1, dec_case e p1 c d q1 RGeneric o /\ o <> [] /\ q = nak 2 q1 /\ r = RReply) \/
   (r <> RGeneric /\ dec_case e p1 c d q r o)).
Proof.
  unfold decode_command. destruct (cmd_parts c d) as [-> ->]. cbv zeta. intros H.
  change (fl (set_cmd_id c (set_reply_id 0 p))) with (fl p) in H.
  destruct (enforce (fl p) && negb (sc_active (fl p)) && negb (plain_allowed c)) eqn:G.
  { destruct (cmd_name_null c); [discriminate|]. inv H. split; [auto|]. left. exists 6. split; [simpl; auto|auto]. }
  assert (GG : enforce (fl p) = true -> sc_active (fl p) = true \/ In c public_codes).
  { intros X. rewrite X in G. destruct (sc_active (fl p)); auto. simpl in G. apply negb_false_iff, plain_allowed_eq in G. auto. }
  split; [intros X; destruct (GG X); auto|].
  destruct (decode_switch e _ c d) as [[[[p2 r2] o2]| |]|] eqn:S; cbn [bind] in H; try discriminate.
  - pose proof (switch_case _ _ _ _ _ _ _ S) as D. destruct r2; inv H; try (right; right; split; [discriminate|]; exact D).
    destruct o as [|x t].
    + left. exists 2. split; [simpl; auto|]. split; auto. inversion D; subst; auto.
    + right. left. exists p2. split; [exact D|]. split; [discriminate|]. auto.
  - inv H. left. exists 3. split; [simpl; auto|auto].
Qed.
