(** What decoding makes of a frame depends on the frame only, not on how it came in. *)
From Verif Require Import Base ListLemmas Crc SpecCrc CrcProofs CrcBurst Aes AesProofs Rb RbProofs
  Types Sc ScProofs Phy PhyCheck File Pd SpecRx SpecFrame SpecSec SpecSession SpecPd SpecLink RxProofs RxFwd PdRx PdCore PhyTx PdTx PdReply PdStep PdWire PdFwd PdSec MacProofs WireSec Chunk.
From Coq Require Import ZifyBool ZifyNat.
Ltac Zify.zify_post_hook ::= Z.div_mod_to_equations.
Local Opaque aes_ecb_encrypt aes_cbc_encrypt aes_cbc_decrypt mac_of RB_SIZE osdp_mac enc1 osdp_encrypt encrypt_data.

(* receive buffers of one state put into another *)
Definition with_rx (m : bool) (r : rbuf) (t a b : Z) (c : list Z) (p : pd) : pd :=
  set_has_mark m (set_rb r (set_tstamp t (set_pblen a (set_plen b (set_pbuf c p))))).
Lemma with_rx_self p : with_rx (has_mark (fl p)) (rb p) (tstamp p) (pblen p) (plen p) (pbuf p) p = p.
Proof. destruct p as [? f]. destruct f. reflexivity. Qed.
Lemma core_with p1 p2 : rxcore p2 = rxcore p1 -> p2 = with_rx (has_mark (fl p2)) (rb p2) (tstamp p2) (pblen p2) (plen p2) (pbuf p2) p1.
Proof.
  intros C. rewrite <- (with_rx_self p2) at 1. set (m := has_mark (fl p2)). set (r := rb p2). set (t := tstamp p2). set (a := pblen p2). set (b := plen p2). set (c := pbuf p2).
  change (with_rx m r t a b c p2) with (with_rx m r t a b c (rxcore p2)). rewrite C. reflexivity.
Qed.

(* decode_packet (osdp_phy.c:542-710) as a function of the frame *)
Definition view_secure (p : pd) (b : list Z) (mac_off off len : Z) : res (pd * decoded) :=
  let is_cmd := pd_mode (fl p) in
  do p1 <- compute_mac is_cmd p (firstn (Z.to_nat mac_off) b) ;
  let mac := if is_cmd then c_mac (sc p1) else r_mac (sc p1) in
  if negb (eqb_bytes (sub b mac_off 4) (firstn 4 mac)) then Ok (nak 6 (sc_deactivate p1), DErr (-6))
  else
    let len1 := len - 4 in
    if (getb b 6 =? SCS_17) || (getb b 6 =? SCS_18) then
      let n := len1 - 1 in
      if (n <? 0) && (Z.rem n 16 =? 0) then UB NegLen
      else if n <? 0 then Ok (nak 6 (sc_deactivate p1), DErr (-6))
      else
        match decrypt_data is_cmd (allow_empty (fl p1)) (sc p1) (sub b (off + 1) n) with
        | None => Ok (nak 6 (sc_deactivate p1), DErr (-6))
        | Some (d, m) => Ok (p1, DData (getb b off :: firstn (Z.to_nat m) d))
        end
    else Ok (p1, ret_data b off len1).
Definition decode_view (p : pd) (b : list Z) : res (pd * decoded) :=
  let isp := pd_mode (fl p) in
  let ctl := getb b 4 in
  let len0 := zlen b - (if ctl_crc ctl then 2 else 1) in
  let len1 := len0 - 5 in
  let act := sc_active (fl p) in
  if ctl_scb ctl then
    let ty := getb b 6 in
    if isp && negb (sc_is_capable p) then Ok (nak 5 p, DErr (-6))
    else if (ty <? SCS_11) || (ty >? SCS_18) then Ok (nak 6 p, DErr (-6))
    else if negb act && (ty >? SCS_14) then Ok (nak 6 p, DErr (-6))
    else
      let p1 := if ((ty =? SCS_11) || (ty =? SCS_13)) && install (fl p) && (getb b 7 =? 0)
                then set_use_scbkd true p else p in
      let off := 5 + getb b 5 in
      let len2 := len1 - getb b 5 in
      if act && (SCS_15 <=? ty) then view_secure p1 b (len0 - 4) off len2
      else Ok (p1, ret_data b off len2)
  else
    let act1 := if isp then act
                else act && negb ((cmd_id p =? CMD_KEYSET) && (getb b 5 =? REPLY_ACK))
                         && negb (getb b 5 =? REPLY_NAK) in
    if act1 then Ok (nak 6 p, DErr (-6))
    else Ok (p, ret_data b 5 len1).

(* equal up to the receive buffers *)
Definition like {A} (x y : res (pd * A)) : Prop :=
  match x, y with
  | Ok (a, u), Ok (b, v) => rxcore a = rxcore b /\ u = v
  | UB u, UB v => u = v
  | Die u, Die v => u = v
  | _, _ => False
  end.
Lemma like_refl {A} (x : res (pd * A)) : like x x.
Proof. destruct x as [[a u]| |]; simpl; auto. Qed.
Lemma like_trans {A} (x y z : res (pd * A)) : like x y -> like y z -> like x z.
Proof. destruct x as [[a u]|x|x], y as [[b v]|y|y], z as [[c w]|z|z]; simpl; try contradiction; try congruence. intros (-> & ->) (-> & ->). auto. Qed.
Lemma like_sym {A} (x y : res (pd * A)) : like x y -> like y x.
Proof. destruct x as [[a u]|x|x], y as [[b v]|y|y]; simpl; try contradiction; try congruence. intros (-> & ->). auto. Qed.

Lemma ret_data_frame b f off len : (forall o n, 0 <= o -> 0 <= n -> o + n <= zlen f -> sub b o n = sub f o n) -> 0 <= off -> off + len <= zlen f ->
  ret_data b off len = ret_data f off len.
Proof. intros G O L. unfold ret_data. destruct (len <=? 0) eqn:E; [reflexivity|]. rewrite G by lia. reflexivity. Qed.

Lemma decode_is_view p f : length (pbuf p) = 256%nat -> full p -> frame_of p = f -> bytes f -> 7 <= zlen f -> f_scb f = false \/ 8 <= zlen f ->
  like (decode_packet p) (decode_view p f).
Proof.
  intros LB F Ef BF L7 SC. destruct (frame_from p LB F) as (Z1 & G & G2). rewrite Ef in Z1, G, G2.
  unfold decode_packet, decode_view. cbv zeta. set (b := from (pbuf p) (mark_len p)) in *.
  assert (GB : forall i, 0 <= i < zlen f -> getb b i = getb f i) by (intros i Hi; unfold getb; apply G; unfold zlen in Hi; lia).
  assert (PL : pblen p = plen p) by apply F. rewrite (GB 4), (GB 5), (GB 6) by lia.
  set (tl := if ctl_crc (getb f 4) then 2 else 1). assert (TL : 1 <= tl <= 2) by (unfold tl; destruct (ctl_crc (getb f 4)); lia).
  replace (pblen p - mark_len p - tl) with (zlen f - tl) by lia.
  assert (B5 : 0 <= getb f 5 <= 255). { pose proof (nth_byte f 5 BF) as B5. change (nth 5 f 0) with (getb f 5) in B5. unfold byte in B5. lia. }
  destruct (ctl_scb (getb f 4)) eqn:CS.
  - assert (L8 : 8 <= zlen f) by (destruct SC as [SC|SC]; [rewrite f_scb_ctl in SC; congruence|exact SC]). rewrite (GB 7) by lia.
    destruct (pd_mode (fl p) && negb (sc_is_capable p)); [apply like_refl|].
    destruct ((getb f 6 <? SCS_11) || (getb f 6 >? SCS_18)); [apply like_refl|].
    destruct (negb (sc_active (fl p)) && (getb f 6 >? SCS_14)); [apply like_refl|].
    set (p1 := if ((getb f 6 =? SCS_11) || (getb f 6 =? SCS_13)) && install (fl p) && (getb f 7 =? 0) then set_use_scbkd true p else p).
    destruct (sc_active (fl p) && (SCS_15 <=? getb f 6)) eqn:S15.
    + unfold decode_secure, view_secure.
      assert (FN : firstn (Z.to_nat (zlen f - tl - 4)) b = firstn (Z.to_nat (zlen f - tl - 4)) f).
      { pose proof (G2 0 (zlen f - tl - 4) ltac:(lia) ltac:(lia) ltac:(lia)) as X. unfold sub in X. exact X. }
      rewrite FN. destruct (compute_mac (pd_mode (fl p1)) p1 (firstn (Z.to_nat (zlen f - tl - 4)) f)) as [p2| |] eqn:CM; cbn [bind]; [|reflexivity|reflexivity].
      rewrite (GB 6) by lia. rewrite (G2 (zlen f - tl - 4) 4) by lia.
      destruct (negb (eqb_bytes _ _)); [apply like_refl|]. destruct ((getb f 6 =? SCS_17) || (getb f 6 =? SCS_18)).
      * set (n := zlen f - tl - 5 - getb f 5 - 4 - 1). destruct ((n <? 0) && (Z.rem n 16 =? 0)); [reflexivity|].
        destruct (n <? 0) eqn:N0; [apply like_refl|]. rewrite (GB (5 + getb f 5)) by lia. rewrite (G2 (5 + getb f 5 + 1) n) by lia.
        destruct (decrypt_data _ _ _ _) as [[d m]|]; [|apply like_refl]. simpl. split; reflexivity.
      * simpl. split; [reflexivity|]. apply ret_data_frame; [exact G2|lia|lia].
    + simpl. split; [reflexivity|]. apply ret_data_frame; [exact G2|lia|lia].
  - match goal with |- like (if ?c then _ else _) _ => destruct c end; [apply like_refl|]. simpl. split; [reflexivity|]. apply ret_data_frame; [exact G2|lia|lia].
Qed.

Lemma compute_mac_rx is_cmd m r t a b c p l : compute_mac is_cmd (with_rx m r t a b c p) l =
  match compute_mac is_cmd p l with Ok q => Ok (with_rx m r t a b c q) | UB u => UB u | Die u => Die u end.
Proof. unfold compute_mac. destruct (zlen l =? 0); [reflexivity|]. destruct is_cmd; reflexivity. Qed.

Lemma rx_sc m r t a b c p : sc (with_rx m r t a b c p) = sc p. Proof. reflexivity. Qed.
Lemma rx_mode m r t a b c p : pd_mode (fl (with_rx m r t a b c p)) = pd_mode (fl p). Proof. reflexivity. Qed.
Lemma rx_empty m r t a b c p : allow_empty (fl (with_rx m r t a b c p)) = allow_empty (fl p). Proof. reflexivity. Qed.
Lemma rx_act m r t a b c p : sc_active (fl (with_rx m r t a b c p)) = sc_active (fl p). Proof. reflexivity. Qed.
Lemma rx_cap m r t a b c p : sc_is_capable (with_rx m r t a b c p) = sc_is_capable p. Proof. reflexivity. Qed.
Lemma rx_inst m r t a b c p : install (fl (with_rx m r t a b c p)) = install (fl p). Proof. reflexivity. Qed.
Lemma rx_cmd m r t a b c p : cmd_id (with_rx m r t a b c p) = cmd_id p. Proof. reflexivity. Qed.
Lemma rx_addr m r t a b c p : address (with_rx m r t a b c p) = address p. Proof. reflexivity. Qed.
Lemma rx_seqn m r t a b c p : seqn (with_rx m r t a b c p) = seqn p. Proof. reflexivity. Qed.
Lemma rx_core m r t a b c p : rxcore (with_rx m r t a b c p) = rxcore p. Proof. reflexivity. Qed.
Lemma rx_nak x m r t a b c p : nak x (with_rx m r t a b c p) = with_rx m r t a b c (nak x p). Proof. reflexivity. Qed.
Lemma rx_deact m r t a b c p : sc_deactivate (with_rx m r t a b c p) = with_rx m r t a b c (sc_deactivate p). Proof. reflexivity. Qed.
Lemma rx_scbkd m r t a b c p : set_use_scbkd true (with_rx m r t a b c p) = with_rx m r t a b c (set_use_scbkd true p). Proof. reflexivity. Qed.
Lemma like_ok {A} (u v : pd) (x : A) : rxcore u = rxcore v -> like (Ok (u, x)) (Ok (v, x)).
Proof. intros H. exact (conj H eq_refl). Qed.
Opaque with_rx.
Lemma view_secure_rx m r t a b c p f mo off len : like (view_secure (with_rx m r t a b c p) f mo off len) (view_secure p f mo off len).
Proof.
  unfold view_secure. cbv zeta. rewrite compute_mac_rx, rx_mode.
  destruct (compute_mac (pd_mode (fl p)) p _) as [q|u|u]; cbn [bind]; [|reflexivity|reflexivity].
  rewrite rx_sc, rx_empty, rx_deact, rx_nak.
  destruct (negb (eqb_bytes _ _)); [apply like_ok, rx_core|]. destruct ((getb f 6 =? SCS_17) || (getb f 6 =? SCS_18)); [|apply like_ok, rx_core].
  destruct ((_ <? 0) && _); [reflexivity|]. destruct (_ <? 0); [apply like_ok, rx_core|]. destruct (decrypt_data _ _ _ _) as [[d n]|]; apply like_ok, rx_core.
Qed.
Lemma decode_view_rx m r t a b c p f : like (decode_view (with_rx m r t a b c p) f) (decode_view p f).
Proof.
  unfold decode_view. cbv zeta. rewrite rx_mode, rx_act, rx_cap, rx_inst, rx_cmd, rx_scbkd, !rx_nak.
  destruct (ctl_scb (getb f 4)).
  - destruct (pd_mode (fl p) && negb (sc_is_capable p)); [apply like_ok, rx_core|].
    destruct ((getb f 6 <? SCS_11) || (getb f 6 >? SCS_18)); [apply like_ok, rx_core|].
    destruct (negb (sc_active (fl p)) && (getb f 6 >? SCS_14)); [apply like_ok, rx_core|].
    destruct (((getb f 6 =? SCS_11) || (getb f 6 =? SCS_13)) && install (fl p) && (getb f 7 =? 0)).
    + destruct (sc_active (fl p) && (SCS_15 <=? getb f 6)); [apply view_secure_rx|apply like_ok, rx_core].
    + destruct (sc_active (fl p) && (SCS_15 <=? getb f 6)); [apply view_secure_rx|apply like_ok, rx_core].
  - match goal with |- like (if ?c then _ else _) _ => destruct c end; apply like_ok, rx_core.
Qed.
Lemma decode_view_core p1 p2 f : rxcore p2 = rxcore p1 -> like (decode_view p2 f) (decode_view p1 f).
Proof. intros C. rewrite (core_with p1 p2 C). apply decode_view_rx. Qed.

(* verdict on a complete frame *)
Definition seq_check (comp : Z) (q : pd) : pd * pkterr :=
  let (q1, cur) := get_seq (pd_mode (fl q)) q in
  if negb (cur =? comp) && negb (skip_seq (fl q1)) then (nak 4 q1, KNack) else (q1, KNone).
Lemma seq_check_rx m r t a b c comp q : seq_check comp (with_rx m r t a b c q) = (with_rx m r t a b c (fst (seq_check comp q)), snd (seq_check comp q)).
Proof.
  unfold seq_check, get_seq. rewrite rx_mode, rx_seqn. cbv zeta.
  set (s := if pd_mode (fl q) then _ else _). change (skip_seq (fl (set_seqn s (with_rx m r t a b c q)))) with (skip_seq (fl q)). change (skip_seq (fl (set_seqn s q))) with (skip_seq (fl q)).
  destruct (negb (Z.land s 3 =? comp) && negb (skip_seq (fl q))); reflexivity.
Qed.
Lemma check_bytes_eq p f : check_packet_bytes p f =
  match check_crc f with
  | None => (p, KFmt)
  | Some n =>
      let a := Z.land (getb f 1) 127 in
      if negb (a =? address p) && negb (a =? 127) then (p, if pd_mode (fl p) then KSkip else KCheck)
      else
        let comp := ctl_seq (getb f 4) in
        if pd_mode (fl p) then
          seq_check comp (let p1 := if comp =? 0 then sc_deactivate (set_seqn (-1) p) else if comp =? seqn p then set_seqn (seqn p - 1) p else p in
                          if a =? 127 then set_broadcast true p1 else p1)
        else if (comp =? 0) && (n =? 6) && (getb f 5 =? REPLY_BUSY) then (set_seqn (seqn p - 1) p, KBusy)
        else seq_check comp p
  end.
Proof. reflexivity. Qed.
Lemma check_bytes_rx m r t a b c p f :
  check_packet_bytes (with_rx m r t a b c p) f = (with_rx m r t a b c (fst (check_packet_bytes p f)), snd (check_packet_bytes p f)).
Proof.
  rewrite !check_bytes_eq. destruct (check_crc f) as [n|]; [|reflexivity]. cbv zeta. rewrite rx_addr, rx_mode, rx_seqn.
  destruct (negb _ && negb _); [reflexivity|]. destruct (pd_mode (fl p)).
  - change (sc_deactivate (set_seqn (-1) (with_rx m r t a b c p))) with (with_rx m r t a b c (sc_deactivate (set_seqn (-1) p))).
    change (set_seqn (seqn p - 1) (with_rx m r t a b c p)) with (with_rx m r t a b c (set_seqn (seqn p - 1) p)).
    assert (BC : forall q, set_broadcast true (with_rx m r t a b c q) = with_rx m r t a b c (set_broadcast true q)) by reflexivity.
    destruct (ctl_seq (getb f 4) =? 0); [|destruct (ctl_seq (getb f 4) =? seqn p)]; destruct (Z.land (getb f 1) 127 =? 127); rewrite ?BC; apply seq_check_rx.
  - destruct (_ && _ && _); [reflexivity|]. apply seq_check_rx.
Qed.
Lemma check_bytes_core p1 p2 f : rxcore p2 = rxcore p1 ->
  rxcore (fst (check_packet_bytes p2 f)) = rxcore (fst (check_packet_bytes p1 f)) /\ snd (check_packet_bytes p2 f) = snd (check_packet_bytes p1 f).
Proof. intros C. rewrite (core_with p1 p2 C), check_bytes_rx. split; [apply rx_core|reflexivity]. Qed.

Lemma check_bytes_buf p f : let q := fst (check_packet_bytes p f) in
  pbuf q = pbuf p /\ pblen q = pblen p /\ plen q = plen p /\ has_mark (fl q) = has_mark (fl p).
Proof.
  cbv zeta. pose proof (check_bytes_rx (has_mark (fl p)) (rb p) (tstamp p) (pblen p) (plen p) (pbuf p) p f) as E. rewrite with_rx_self in E.
  apply (f_equal fst) in E. cbn [fst] in E. rewrite E. Local Transparent with_rx. repeat split. 
Qed.

(* the same frame, taken in by the same receiver in two ways *)
Lemma same_frame p a1 a2 q1 q2 e1 e2 f : rxcore q1 = rxcore p -> rxcore q2 = rxcore p ->
  got_frame e1 a1 q1 -> got_frame e2 a2 q2 -> frame_of q1 = f -> frame_of q2 = f -> bytes f -> 7 <= zlen f -> f_scb f = false \/ 8 <= zlen f ->
  let x1 := check_packet_bytes q1 f in let x2 := check_packet_bytes q2 f in
  snd x1 = snd x2 /\ rxcore (fst x1) = rxcore (fst x2) /\ like (decode_packet (fst x1)) (decode_packet (fst x2)).
Proof.
  intros C1 C2 G1 G2 E1 E2 B L S x1 x2. destruct (check_bytes_core q2 q1 f ltac:(congruence)) as (A1 & A2). split; [exact A2|]. split; [exact A1|].
  assert (V : forall e a q, got_frame e a q -> frame_of q = f -> like (decode_packet (fst (check_packet_bytes q f))) (decode_view (fst (check_packet_bytes q f)) f)).
  { intros e a q G E. destruct (check_bytes_buf q f) as (B1 & B2 & B3 & B4). destruct G as (_ & W & _ & P1 & P2 & _ & _ & _).
    assert (MK : mark_len (fst (check_packet_bytes q f)) = mark_len q) by (unfold mark_len; rewrite B4; reflexivity).
    destruct W as ((_ & _ & LB & _) & WF). apply decode_is_view; auto.
    - rewrite B1. exact LB.
    - unfold full. rewrite B2, B3. split; [exact P1|]. split; [exact P2|]. destruct WF as [WF|(_ & _ & WF)]; [lia|]. rewrite <- WF.
      unfold check_header_bytes. rewrite MK, B1. pose proof (check_bytes_core q q f eq_refl) as _. 
      assert (PM : pd_mode (fl (fst (check_packet_bytes q f))) = pd_mode (fl q)).
      { rewrite check_bytes_eq. destruct (check_crc f); [|reflexivity]. cbv zeta. destruct (negb _ && negb _); [reflexivity|].
        assert (SQ : forall c y, pd_mode (fl (fst (seq_check c y))) = pd_mode (fl y)) by (intros c y; unfold seq_check, get_seq; destruct (_ && _); reflexivity).
        destruct (pd_mode (fl q)) eqn:PQ; [rewrite SQ; destruct (ctl_seq (getb f 4) =? 0); [|destruct (_ =? seqn q)]; destruct (_ =? 127); simpl; auto|].
        destruct (_ && _ && _); [exact PQ|rewrite SQ; exact PQ]. }
      rewrite PM. reflexivity.
    - unfold frame_of. rewrite B1, B3, MK. exact E. }
  apply (like_trans _ (decode_view (fst x1) f)); [exact (V e1 a1 q1 G1 E1)|]. apply (like_trans _ (decode_view (fst x2) f)); [|apply like_sym; exact (V e2 a2 q2 G2 E2)].
  apply decode_view_core. exact A1.
Qed.

Lemma check_bytes_verdict p f : snd (check_packet_bytes p f) <> KWait /\ snd (check_packet_bytes p f) <> KNoData.
Proof.
  rewrite check_bytes_eq. destruct (check_crc f); [|split; discriminate]. cbv zeta.
  assert (SQ : forall c y, snd (seq_check c y) <> KWait /\ snd (seq_check c y) <> KNoData).
  { intros c y. unfold seq_check. destruct (get_seq (pd_mode (fl y)) y) as [q1 cur]. destruct (negb (cur =? c) && negb (skip_seq (fl q1))); split; discriminate. }
  destruct (negb _ && negb _); [destruct (pd_mode (fl p)); split; discriminate|].
  destruct (pd_mode (fl p)); [apply SQ|]. destruct (_ && _ && _); [split; discriminate|apply SQ].
Qed.
