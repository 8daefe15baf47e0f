(** PD: a complete frame on the line, forward direction; exact plain replies. *)
From Verif Require Import Base ListLemmas Crc SpecCrc CrcProofs CrcBurst Aes AesProofs Rb RbProofs
  Types Sc ScProofs Phy PhyCheck File Pd SpecRx SpecFrame RxProofs RxFwd PdRx PdCore PhyTx PdTx PdReply
  PdStep PdWire.
From Coq Require Import ZifyBool ZifyNat.
Ltac Zify.zify_post_hook ::= Z.div_mod_to_equations.
Local Opaque aes_ecb_encrypt aes_cbc_encrypt aes_cbc_decrypt mac_of RB_SIZE.

(* f is the first frame (from a CP) among the bytes the device holds or hears; rest follows it *)
Definition next_frame (e : env) (p : pd) (f rest : list Z) : Prop :=
  f_shape false f /\ zlen f <= 255 /\
  exists noise mk, arrived e p = noise ++ mk ++ f ++ rest /\ ~ In 83 noise /\ (mk = [] \/ mk = [255]).

(* everything but the receive buffers, the time of the last byte, the mark flag and the broadcast flag *)
Definition devcore (p : pd) : pd := set_phy_state PIdle (set_broadcast false (rxcore p)).

(* end of a refresh, after the receive step *)
Definition pd_finish (e : env) (x : pd * pderr * list out) : res (pd * list out) :=
  match x with
  | (p1, RIgnore, o) => Ok (p1, o)
  | (p1, RNoData, o) => Ok (p1, o)
  | (p1, RWait, o) =>
      if e_now e - tstamp p1 <? RESP_TOUT then Ok (p1, o) else Ok (pd_error_reset p1, o)
  | (p1, RGeneric, o) => Ok (pd_error_reset p1, o)
  | (p1, RNone, o) =>
      do y <- reply_phase e (bumped e p1) ;
      match y with (p3, o2) => Ok (p3, o ++ o2) end
  | (p1, RReply, o) =>
      do y <- reply_phase e p1 ;
      match y with (p3, o2) => Ok (p3, o ++ o2) end
  end.

Lemma refresh_eq e p : pd_refresh e p = bind (receive_and_process e (sc_timeout e p)) (pd_finish e).
Proof. reflexivity. Qed.

Lemma arrived_timeout e p : arrived e (sc_timeout e p) = arrived e p.
Proof. unfold sc_timeout. dif; reflexivity. Qed.

Lemma refresh_frame e p f rest : env_ok e -> pd_inv p -> next_frame e p f rest ->
  exists p1, got_frame e (sc_timeout e p) p1 /\ frame_of p1 = f /\ rb_contents (rb p1) = rest /\ rx_sync p1 /\
    binv p1 /\ full p1 /\ bytes f /\
    rxcore p1 = rxcore (sc_timeout e p) /\
    pd_refresh e p = bind (rap_k e (check_packet_bytes p1 f)) (pd_finish e).
Proof.
  intros K I0 (F & L & noise & mk & A & N & M).
  pose proof (inv_timeout e p I0) as I. rewrite <- arrived_timeout in A.
  rewrite refresh_eq, rap_eq. set (p0 := sc_timeout e p) in *. clearbody p0. destruct I as [I J Y].
  destruct (receive_frame e p0 noise mk f rest) as (q & X & Ef & G & R & S); auto.
  - split; auto. apply I.
  - apply (eo_rx e K).
  - rewrite (iv_mode _ I). exact F.
  - exists q. split; auto. split; auto. split; auto. split; auto. pose proof G as (C & W & _).
    pose proof (binv_rx p0 q I C (proj1 W)) as Iq.
    split; auto. split; [eapply got_full; eauto|]. split.
    + rewrite <- Ef. apply frame_bytes. apply (iv_ty q Iq).
    + split; auto. rewrite X, bind_Ok. reflexivity.
Qed.

Lemma core_ids p q : rxcore q = rxcore p ->
  address q = address p /\ seqn q = seqn p /\ sc q = sc p /\ sc_active (fl q) = sc_active (fl p).
Proof.
  intros R. split; [exact (f_equal (fun x => address x) R)|]. split; [exact (f_equal (fun x => seqn x) R)|].
  split; [exact (f_equal (fun x => sc x) R)|exact (f_equal (fun x => sc_active (fl x)) R)].
Qed.

Lemma timeout_ids e p : address (sc_timeout e p) = address p /\ seqn (sc_timeout e p) = seqn p /\
  sc (sc_timeout e p) = sc p /\ pd_mode (fl (sc_timeout e p)) = pd_mode (fl p).
Proof. unfold sc_timeout. dif; auto. Qed.

Lemma rx_core_reset p : devcore (state_reset false p) = devcore p.
Proof. reflexivity. Qed.

Lemma pending_reset p : pending (state_reset false p) = rb_contents (rb p).
Proof. unfold pending. simpl. reflexivity. Qed.

(* the four verdicts *)
Lemma frame_verdict e p f rest : env_ok e -> pd_inv p -> next_frame e p f rest ->
  exists p1, rxcore p1 = rxcore (sc_timeout e p) /\ frame_of p1 = f /\ rb_contents (rb p1) = rest /\ rx_sync p1 /\
    binv p1 /\ full p1 /\ bytes f /\ (tstamp p1 = tstamp p \/ tstamp p1 = e_now e) /\
    (~ f_intact f -> pd_refresh e p = Ok (pd_error_reset p1, [])) /\
    (f_intact f -> ~ f_mine (address p) f -> pd_refresh e p = Ok (state_reset false p1, [])) /\
    (f_intact f -> f_mine (address p) f -> ~ seq_ok (seqn p) (f_seq f) -> pd_refresh e p = reply_phase e (nak 4 (pd_seen f p1))) /\
    (f_intact f -> f_mine (address p) f -> seq_ok (seqn p) (f_seq f) ->
       pd_refresh e p = bind (rap_k e (pd_seen f p1, KNone)) (pd_finish e)).
Proof.
  intros K I N. destruct (refresh_frame e p f rest K I N) as (p1 & G & Ef & R & S & I1 & F1 & Bf & C & X).
  exists p1. split; auto. split; auto. split; auto. split; auto. split; auto. split; auto. split; auto.
  destruct (core_ids _ _ C) as (C1 & C2 & _). destruct (timeout_ids e p) as (T1 & T2 & _).
  split.
  { destruct G as (_ & _ & [T|T] & _); [left; rewrite T; unfold sc_timeout; dif; reflexivity|right; exact T]. }
  assert (L : 6 <= zlen f) by (destruct N as ((_ & _ & _ & L) & _); lia).
  pose proof (pd_frame p1 f (iv_mode p1 I1) (iv_skip p1 I1) (iv_seq p1 I1) Bf L) as V.
  rewrite C1, C2, T1, T2 in V. rewrite X.
  destruct V as [(V1 & V2)|[(V1 & V2 & V3)|[(V1 & V2 & V3 & V4)|(V1 & V2 & V3 & V4)]]].
  - rewrite V2. split; [reflexivity|]. split; [tauto|]. split; tauto.
  - rewrite V3. split; [tauto|]. split; [reflexivity|]. split; tauto.
  - rewrite V4. split; [tauto|]. split; [tauto|]. split; [tauto|]. reflexivity.
  - rewrite V4. split; [tauto|]. split; [tauto|]. split; [|tauto]. intros _ _ _. simpl. rewrite ?bind_Ok.
    destruct (reply_phase e _) as [[? ?]| |]; reflexivity.
Qed.

(* payload of a frame without security block: command code and data *)
Definition f_payload (f : list Z) : list Z :=
  firstn (length f - 5 - (if f_crc f then 2 else 1)) (skipn 5 f).

Lemma frame_from p : length (pbuf p) = 256%nat -> full p -> 
  zlen (frame_of p) = plen p - mark_len p /\
  (forall i, (i < length (frame_of p))%nat -> nth i (from (pbuf p) (mark_len p)) 0 = nth i (frame_of p) 0) /\
  (forall o n, 0 <= o -> 0 <= n -> o + n <= zlen (frame_of p) ->
     sub (from (pbuf p) (mark_len p)) o n = sub (frame_of p) o n).
Proof.
  intros L (F1 & F2 & _).
  assert (ML := mark_len_cases p).
  assert (Z : zlen (frame_of p) = plen p - mark_len p).
  { unfold frame_of, sub, zlen. rewrite firstn_length, skipn_length. lia. }
  split; auto.
  assert (E : frame_of p = firstn (length (frame_of p)) (from (pbuf p) (mark_len p))).
  { unfold frame_of at 1. unfold sub, from. f_equal. unfold zlen in Z. lia. }
  split.
  - intros i Hi. rewrite E at 1. symmetry. apply nth_firstn. auto.
  - intros o n Ho Hn Hl. rewrite E. unfold sub. rewrite skipn_firstn_comm, firstn_firstn. f_equal.
    unfold zlen in Hl. lia.
Qed.

Lemma seen_buffers f p : pbuf (pd_seen f p) = pbuf p /\ pblen (pd_seen f p) = pblen p /\ plen (pd_seen f p) = plen p /\
  mark_len (pd_seen f p) = mark_len p /\ frame_of (pd_seen f p) = frame_of p /\ mk_of (pd_seen f p) = mk_of p.
Proof. unfold pd_seen. destruct (f_seq f =? 0), (f_addr f =? 127); repeat split. Qed.

Lemma getb_frame p i : length (pbuf p) = 256%nat -> full p -> 0 <= i < zlen (frame_of p) ->
  getb (from (pbuf p) (mark_len p)) i = nth (Z.to_nat i) (frame_of p) 0.
Proof.
  intros L F Hi. destruct (frame_from p L F) as (_ & G & _). unfold getb. apply G. unfold zlen in Hi. lia.
Qed.

(* decoding a frame without security block *)
Lemma decode_plain p f : binv p -> full p -> frame_of p = f -> 6 <= zlen f -> f_scb f = false ->
  decode_packet p = if sc_active (fl p) then Ok (nak 6 p, DErr (-6))
                    else Ok (p, if zlen f - 5 - (if f_crc f then 2 else 1) <=? 0
                                then DErr (zlen f - 5 - (if f_crc f then 2 else 1)) else DData (f_payload f)).
Proof.
  intros I F Ef L S. pose proof (iv_ty p I) as (_ & _ & _ & _ & LB & _).
  destruct (frame_from p LB F) as (Z & G & G2). rewrite Ef in *.
  unfold decode_packet. rewrite (iv_mode p I). cbv zeta.
  set (b := from (pbuf p) (mark_len p)) in *.
  assert (B4 : getb b 4 = getb f 4) by (unfold getb; apply G; unfold zlen in L; lia).
  rewrite B4, <- f_scb_ctl, S, <- f_crc_ctl. dif; auto. f_equal. f_equal. unfold ret_data.
  destruct F as (F1 & _). rewrite F1.
  replace (plen p - mark_len p - (if f_crc f then 2 else 1) - 5) with (zlen f - 5 - (if f_crc f then 2 else 1)) by (destruct (f_crc f); lia).
  dif; auto. rewrite G2 by (destruct (f_crc f); lia). f_equal. unfold sub, f_payload. f_equal. unfold zlen. destruct (f_crc f); lia.
Qed.

(* --- replies outside a session --- *)

Lemma wire_plain p2 p d : sc_active (fl p2) = false -> bytes d -> zlen d <= 1000 ->
  wire_of p2 ([83; pd_addr p; 0; 0; pd_ctl p] ++ d) = plain_frame (pd_addr p) (seqn p mod 4) d.
Proof.
  intros A B L. unfold wire_of, macced. rewrite A. cbn [andb]. unfold plain_frame. f_equal.
  replace (zlen ([83; pd_addr p; 0; 0; pd_ctl p] ++ d) + 2) with (zlen d + 7) by (zl; lia).
  unfold put_len, header. destruct (pd_ctl_cases p) as [_ ->]. simpl. unfold byte0, byte1.
  pose proof (zlen_nonneg d). rewrite (Z.mod_small ((zlen d + 7) / 256)) by lia. reflexivity.
Qed.

(* what is left of a device after an answer that changes nothing *)
Lemma reply_plain e p pay : env_ok e -> binv p -> sc_active (fl p) = false -> 69 <= tx_buf_size p ->
  256 <= e_tx e -> in_sc_handshake true (reply_id p) = false ->
  ~ (cmd_id p = CMD_KEYSET /\ reply_id p = REPLY_ACK) ->
  build_switch e (after_init p) false (reply_room p) = Ok (after_init p, Some pay, None, []) ->
  zlen pay + 8 <= tx_buf_size p ->
  exists q, reply_phase e p = Ok (q, [OTx (mk_of p ++ plain_frame (pd_addr p) (seqn p mod 4) pay)]) /\
    pd_inv q /\ devcore q = devcore p /\ broadcast (fl q) = false /\ rb q = rb p /\ pblen q = 0 /\
    has_mark (fl q) = has_mark (fl p) /\ tstamp q = tstamp p.
Proof.
  intros K I A T69 TX HS NK BS LP. pose proof (tx_buf_le p) as TB.
  assert (SMB : reply_smb p = false) by (unfold reply_smb; rewrite A, HS; reflexivity).
  assert (BS' := BS). rewrite <- SMB in BS.
  destruct (send_reply_total e p _ (iv_mode p I) (iv_ty p I) (eo_rand e K) (conj T69 TB) BS) as ([[q1 ok] o] & SR).
  unfold reply_phase. rewrite SR, bind_Ok.
  destruct (send_reply_spec e p q1 ok o (iv_mode p I) (iv_ty p I) (eo_rand e K) TB SR) as
    [(X & _)|(_ & p2 & pay2 & ss & m & smb & ob & ot & BS2 & Hm & (-> & ->) & BRel & NT & TC & TY & -> & S)]; [lia|].
  rewrite BS in BS2. injection BS2 as <- <- <- <-. cbv zeta in S. cbn [app].
  assert (RB : reply_body p (Some pay) None = [83; pd_addr p; 0; 0; pd_ctl p] ++ pay).
  { unfold reply_body. rewrite HS, A. reflexivity. }
  destruct (build_switch_ok e (after_init p) (reply_smb p) (reply_room p) _ _ _ _ (after_init_typed p (iv_ty p I)) (eo_rand e K) Hm BS)
    as (_ & _ & PO & _). destruct PO as (Bp & _).
  assert (W : wire_of (after_init p) (reply_body p (Some pay) None) = plain_frame (pd_addr p) (seqn p mod 4) pay).
  { rewrite RB. apply wire_plain; auto. lia. }
  rewrite W in S.
  assert (ZF : zlen (mk_of p ++ plain_frame (pd_addr p) (seqn p mod 4) pay) <= tx_buf_size p).
  { unfold plain_frame. rewrite zlen_app, zlen_with_crc. unfold header. pose proof (mk_of_len p). unfold zlen at 1. zl. lia. }
  destruct S as [(_ & _ & S)|(_ & S & SC)]; [lia|].
  destruct S as [(_ & _ & S)|[(k & _ & _ & _ & S)|(-> & ->)]]; [lia|lia|].
  assert (I1 : binv q1).
  { apply (reply_sent_binv e p q1 true [OTx (mk_of p ++ plain_frame (pd_addr p) (seqn p mod 4) pay)] K I).
    right. split; auto. exists (after_init p), (Some pay), None, (reply_room p), (reply_smb p), [], [OTx (mk_of p ++ plain_frame (pd_addr p) (seqn p mod 4) pay)].
    split; auto. split; auto. split; auto. split; auto. split; auto. split; auto. split; auto. split; auto. cbv zeta. rewrite W.
    right. split; auto. split; auto. right. right. auto. }
  assert (C1 : cmd_id q1 = cmd_id p) by exact (f_equal (fun x => cmd_id x) TC).
  assert (C2 : reply_id q1 = reply_id p) by exact (f_equal (fun x => reply_id x) TC).
  rewrite C1, C2. destruct ((cmd_id p =? CMD_KEYSET) && (reply_id p =? REPLY_ACK)) eqn:EK; [exfalso; apply NK; lia|].
  exists (state_reset false q1). split; auto. split; [apply inv_reset; auto|].
  assert (SCq : sc q1 = sc p).
  { rewrite SC. unfold macced. change (sc_active (fl (after_init p))) with (sc_active (fl p)). rewrite A. reflexivity. }
  assert (DC : devcore q1 = devcore p).
  { clear - TC SCq. destruct q1, p. unfold txcore, after_init in TC. simpl in TC. unfold devcore, rxcore. simpl in *.
    injection TC. intros. subst. reflexivity. }
  split; [exact DC|].
  split; [exact (f_equal (fun x => broadcast (fl x)) TC)|].
  split; [exact (f_equal (fun x => rb x) TC)|]. split; [reflexivity|].
  split; [exact (f_equal (fun x => has_mark (fl x)) TC)|exact (f_equal (fun x => tstamp x) TC)].
Qed.

(* the NAK reply outside a session *)
Lemma reply_nak e p c : env_ok e -> binv p -> byte c -> sc_active (fl p) = false -> 69 <= tx_buf_size p ->
  256 <= e_tx e ->
  exists q, reply_phase e (nak c p) = Ok (q, [OTx (mk_of p ++ plain_frame (pd_addr p) (seqn p mod 4) [65; c])]) /\
    pd_inv q /\ devcore q = devcore (nak c p) /\ broadcast (fl q) = false /\ rb q = rb p /\ pblen q = 0 /\
    has_mark (fl q) = has_mark (fl p) /\ tstamp q = tstamp p.
Proof.
  intros K I Bc A T TX. 
  assert (RM : 60 <= reply_room (nak c p)).
  { unfold reply_room. change (tx_buf_size (nak c p)) with (tx_buf_size p). pose proof (pd_hdr_len (nak c p)).
    pose proof (mk_of_len (nak c p)). unfold zlen. rewrite app_length. lia. }
  destruct (reply_plain e (nak c p) [65; c]) as (q & X); auto.
  - apply binv_nak; auto.
  - intros [_ X]; discriminate.
  - unfold build_switch. change (reply_id (after_init (nak c p))) with REPLY_NAK. cbv zeta.
    change (eph (after_init (nak c p))) with (EphNak c). unfold assert_len.
    assert (E : 2 <? reply_room (nak c p) = true) by lia. rewrite E. reflexivity.
  - change (tx_buf_size (nak c p)) with (tx_buf_size p). zl. lia.
  - exists q. exact X.
Qed.
