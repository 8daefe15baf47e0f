(** A payload on its way: framing by the sender, decoding by the receiver. *)
From Verif Require Import Base ListLemmas Crc SpecCrc CrcProofs CrcBurst Aes AesProofs Rb RbProofs
  Types Sc ScProofs Phy PhyCheck File Pd Cp SpecRx SpecFrame SpecSec SpecSession SpecPd SpecLink RxProofs RxFwd PdRx PdCore PhyTx PdTx PdReply
  PdStep PdRun PdWire PdFwd PdSec PdHist2 MacProofs WireSec CpCtx SpecCp SpecCpRun CpTx CpRx CpStep CpInv CpFwd Chunk Trip ChunkRun.
From Coq Require Import ZifyBool ZifyNat.
Ltac Zify.zify_post_hook ::= Z.div_mod_to_equations.
Local Opaque aes_ecb_encrypt aes_cbc_encrypt aes_cbc_decrypt mac_of RB_SIZE osdp_mac enc1 osdp_encrypt encrypt_data.

(* --- sender --- *)
Definition tx_hdr (p : pd) : list Z := if pd_mode (fl p) then pd_hdr p else cp_hdr p.
Definition tx_ctl (p : pd) : Z := if pd_mode (fl p) then pd_ctl p else cp_ctl p.
Definition tx_on (p : pd) : pd := if pd_mode (fl p) then set_broadcast false p else set_seqn (seq_next (seqn p)) (set_has_mark true p).
Definition tx_handshake (p : pd) : bool := if pd_mode (fl p) then in_sc_handshake true (reply_id p) else in_sc_handshake false (cmd_id p).

Definition buf_ok (b : list Z) : Prop := length b = 256%nat /\ bytes b.

Lemma buf_blit b f : buf_ok b -> bytes f -> zlen f <= 256 -> buf_ok (blit b 0 f).
Proof. intros [L B] F Z. split; [rewrite blit_length; [exact L|lia|unfold zlen in *; rewrite L; lia]|apply bytes_blit; assumption]. Qed.

Lemma tx_init p n : -1 <= seqn p <= 3 -> 69 <= n ->
  exists b, packet_init p n = (set_pbuf b (tx_on p), Some (mk_of (tx_on p) ++ tx_hdr p)) /\ (buf_ok (pbuf p) -> buf_ok b).
Proof.
  intros S N. unfold tx_on, tx_hdr. destruct (pd_mode (fl p)) eqn:M.
  - rewrite packet_init_pd by exact M. replace (n <? 69) with false by lia. eexists. split; [reflexivity|]. intros B.
    assert (L8 : zlen (mk_of p ++ pd_hdr p) <= 9 /\ bytes (mk_of p ++ pd_hdr p)).
    { split; [pose proof (pd_hdr_len p); pose proof (mk_of_len p); unfold zlen; rewrite app_length; lia|].
      apply bytes_app. split; [unfold mk_of; destruct (has_mark (fl p)); [constructor; [unfold byte; lia|constructor]|constructor]|exact (bytes_pd_hdr p (proj2 B))]. }
    apply buf_blit; [exact B|exact (proj2 L8)|lia].
  - rewrite packet_init_cp by assumption. replace (n <? 69) with false by lia. eexists. split; [reflexivity|]. intros B.
    apply buf_blit; [exact B|constructor; [unfold byte; lia|exact (bytes_cp_hdr p (proj2 B))]|]. rewrite zlen_cons. pose proof (cp_hdr_len p). unfold zlen. lia.
Qed.

Lemma land127 a : Z.land a 127 = a mod 128.
Proof. change 127 with (Z.ones 7). rewrite Z.land_ones by lia. reflexivity. Qed.

Lemma tx_ids p : -1 <= seqn p <= 3 ->
  (if pd_mode (fl p) then pd_addr p else cp_addr p) = tx_addr p /\ tx_ctl p = 4 + tx_num p /\ 0 <= tx_num p <= 3 /\ byte (tx_addr p) /\ Z.lor (tx_ctl p) 8 = 12 + tx_num p.
Proof.
  intros S. unfold tx_addr, tx_ctl, tx_num, cp_addr. rewrite pd_addr_eq, land127.
  assert (NM : seq_next (seqn p) mod 4 = seq_next (seqn p)) by (clear - S; unfold seq_next; destruct (seqn p =? 3) eqn:E; lia).
  assert (NR : 0 <= seq_next (seqn p) <= 3) by (clear - S; unfold seq_next; destruct (seqn p =? 3) eqn:E; lia).
  destruct (pd_ctl_cases p) as [PI PE]. destruct (cp_ctl_cases p) as [CI CE].
  destruct (pd_mode (fl p)).
  - split; [reflexivity|]. split; [exact PE|]. split; [lia|]. split; [unfold byte; destruct (broadcast (fl p)); lia|].
    destruct PI as [X|[X|[X|[X|[]]]]]; rewrite <- X in *; cbn; lia.
  - split; [reflexivity|]. split; [lia|]. split; [lia|]. split; [unfold byte; lia|].
    destruct CI as [X|[X|[X|[X|[]]]]]; rewrite <- X in *; cbn; lia.
Qed.

Lemma tx_hdr_plain p : -1 <= seqn p <= 3 -> sc_active (fl p) = false -> tx_handshake p = false -> tx_hdr p = [83; tx_addr p; 0; 0; 4 + tx_num p].
Proof.
  intros S A H. destruct (tx_ids p S) as (E1 & E2 & _). rewrite <- E1, <- E2. unfold tx_hdr, tx_handshake, tx_ctl, pd_hdr, cp_hdr, pd_addr, pd_ctl in *.
  destruct (pd_mode (fl p)); rewrite A, H; reflexivity.
Qed.

Lemma tx_hdr_secure p : -1 <= seqn p <= 3 -> sc_active (fl p) = true -> tx_hdr p = [83; tx_addr p; 0; 0; 12 + tx_num p; 2; 21].
Proof.
  intros S A. destruct (tx_ids p S) as (E1 & _ & _ & _ & E5). rewrite <- E1, <- E5. unfold tx_hdr, tx_ctl, pd_hdr, cp_hdr, pd_addr, pd_ctl in *.
  destruct (pd_mode (fl p)); rewrite A; reflexivity.
Qed.

Lemma tx_on_fields p : pd_mode (fl (tx_on p)) = pd_mode (fl p) /\ sc_active (fl (tx_on p)) = sc_active (fl p) /\ sc (tx_on p) = sc p.
Proof. unfold tx_on. destruct (pd_mode (fl p)) eqn:M; simpl; rewrite ?M; split; [reflexivity|split; reflexivity|reflexivity|split; reflexivity]. Qed.

Lemma send_all e p l n q f : packet_finalize p l n = Ok (q, Some f) -> 0 < zlen f <= e_tx e -> send_packet e p l n = Ok (q, true, [OTx f]).
Proof.
  intros H L. unfold send_packet. rewrite H. cbn [bind]. unfold channel_send. replace (Z.max 0 (Z.min (e_tx e) (zlen f))) with (zlen f) by lia.
  rewrite Z.eqb_refl. replace (zlen f =? 0) with false by lia. unfold zlen. rewrite Nat2Z.id, firstn_all. reflexivity.
Qed.

Lemma crc_frame a c t : byte a -> byte c -> bytes t -> 1 <= zlen t -> zlen t + 7 <= 256 ->
  let f := with_crc (header a (zlen t + 7) c ++ t) in
  f_shape (128 <=? a) f /\ crc_valid f /\ nth 1 f 0 = a /\ nth 4 f 0 = c /\ bytes f /\ zlen f = zlen t + 7 /\ (forall i, (i < length t)%nat -> nth (5 + i) f 0 = nth i t 0) /\
  sub f 5 (zlen t) = t.
Proof.
  intros A C T L1 L. cbv zeta. set (n := zlen t + 7). set (x := [83; a; 0; 0; c] ++ t).
  assert (Bx : bytes x) by (unfold x; cbn [app]; unfold byte in *; bytes_cons; auto; unfold byte; lia).
  assert (Lx : zlen x = zlen t + 5) by (unfold x; rewrite zlen_app; change (zlen [83; a; 0; 0; c]) with 5; lia).
  assert (E : put_len n x = header a n c ++ t).
  { unfold x, put_len, header. cbn [upd app]. unfold byte0, byte1. rewrite (Z.mod_small (n / 256)) by (unfold n; lia). reflexivity. }
  destruct (with_crc_shape x n Bx ltac:(unfold zlen in Lx; lia) ltac:(unfold n; lia) L) as (B & FL & V & N0 & N1 & N4 & Z0).
  rewrite E in *. fold n. set (f := with_crc (header a n c ++ t)) in *.
  change (nth 0 x 0) with 83 in N0. change (nth 1 x 0) with a in N1. change (nth 4 x 0) with c in N4.
  assert (FE : f = header a n c ++ t ++ [textbook_crc 7439 (header a n c ++ t) mod 256; textbook_crc 7439 (header a n c ++ t) / 256]) by (unfold f, with_crc; rewrite <- app_assoc; reflexivity).
  split. { split; [exact N0|]. split; [unfold f_reply; rewrite N1; reflexivity|]. split; [rewrite FL; reflexivity|]. unfold n in Z0. lia. }
  split; [exact V|]. split; [exact N1|]. split; [exact N4|]. split; [exact B|]. split; [exact Z0|]. split.
  - intros i Hi. rewrite FE. rewrite app_nth2 by (cbn [length header]; lia). change (length (header a n c)) with 5%nat. replace (5 + i - 5)%nat with i by lia. apply app_nth1. exact Hi.
  - rewrite FE. exact (sub_mid (header a n c) t _).
Qed.

Lemma plain_len a s d : zlen (plain_frame a s d) = zlen d + 7.
Proof. unfold plain_frame. rewrite zlen_with_crc, zlen_app. change (zlen (header a (zlen d + 7) (4 + s))) with 5. lia. Qed.

Lemma transmit_plain e p n ty d : -1 <= seqn p <= 3 -> sc_active (fl p) = false -> tx_handshake p = false ->
  bytes d -> 1 <= zlen d -> 69 <= n <= 256 -> zlen d + 8 <= n -> n <= e_tx e ->
  exists b, transmit e p n ty d = Ok (set_pbuf b (tx_on p), true, [OTx (mk_of (tx_on p) ++ plain_frame (tx_addr p) (tx_num p) d)]) /\
    (buf_ok (pbuf p) -> buf_ok b).
Proof.
  intros S A H B L N F T. destruct (tx_init p n S ltac:(lia)) as (b0 & IN & BO). unfold transmit. rewrite IN.
  destruct (tx_on_fields p) as (M1 & A1 & S1). change (sc_active (fl (set_pbuf b0 (tx_on p)))) with (sc_active (fl (tx_on p))). rewrite A1, A.
  rewrite tx_hdr_plain by assumption. rewrite <- app_assoc.
  destruct (tx_ids p S) as (_ & _ & NR & BA & _).
  set (b := [83; tx_addr p; 0; 0; 4 + tx_num p] ++ d). set (p1 := set_pbuf b0 (tx_on p)).
  assert (Bb : bytes b). { unfold b. cbn [app]. unfold byte in *. bytes_cons; auto; unfold byte; lia. }
  assert (Lb : zlen b = zlen d + 5). { unfold b. rewrite zlen_app. change (zlen [83; tx_addr p; 0; 0; 4 + tx_num p]) with 5. lia. }
  assert (Mc : macced p1 b = false). { unfold macced. change (sc_active (fl p1)) with (sc_active (fl (tx_on p))). rewrite A1, A. reflexivity. }
  pose proof (finalize_plain p1 b n Bb eq_refl ltac:(lia) Mc) as FP. cbv zeta in FP. change (mk_of p1) with (mk_of (tx_on p)) in FP.
  assert (E : with_crc (put_len (zlen b + 2) b) = plain_frame (tx_addr p) (tx_num p) d).
  { unfold plain_frame. f_equal. replace (zlen b + 2) with (zlen d + 7) by lia. unfold b, put_len, header. cbn [upd app].
    unfold byte0, byte1. rewrite (Z.mod_small ((zlen d + 7) / 256)) by lia. reflexivity. }
  rewrite E in FP. assert (ML : 0 <= zlen (mk_of (tx_on p)) <= 1) by (rewrite zlen_mk; unfold mark_len; destruct (has_mark (fl (tx_on p))); lia).
  assert (LF : zlen (mk_of (tx_on p) ++ plain_frame (tx_addr p) (tx_num p) d) <= zlen d + 8) by (rewrite zlen_app, plain_len; lia).
  replace (zlen (mk_of (tx_on p) ++ plain_frame (tx_addr p) (tx_num p) d) >? n) with false in FP by lia.
  rewrite (send_all e p1 _ n _ _ FP). 2:{ pose proof (zlen_app (mk_of (tx_on p)) (plain_frame (tx_addr p) (tx_num p) d)). rewrite plain_len in *. lia. }
  eexists. split; [reflexivity|]. intros B0. simpl. apply buf_blit; [exact (BO B0)| |lia].
  apply bytes_app. split; [unfold mk_of; destruct (has_mark (fl (tx_on p))); [constructor; [unfold byte; lia|constructor]|constructor]|].
  exact (proj1 (proj2 (proj2 (proj2 (proj2 (crc_frame (tx_addr p) (4 + tx_num p) d BA ltac:(unfold byte; lia) B ltac:(lia) ltac:(lia))))))).
Qed.

(* bytes a frame of a session takes, with mark *)
Definition sec_room (ty : Z) (data : list Z) : Z := 15 + (if (ty =? 23) || (ty =? 24) then aes_pad_len (zlen data + 1) else zlen data).

Lemma encrypt_out_len p data : sc_keys_ok (sc p) -> bytes data ->
  bytes (osdp_encrypt (s_enc (sc p)) (last_out p) data) /\
  zlen (osdp_encrypt (s_enc (sc p)) (last_out p) data) = aes_pad_len (zlen data + 1).
Proof.
  intros K B. destruct (encrypt_data_length (negb (pd_mode (fl p))) (sc p) data K B) as [L Y].
  rewrite encrypt_data_spec in L, Y. unfold last_out. destruct (pd_mode (fl p)); auto.
Qed.

Lemma transmit_secure e p n ty code data : -1 <= seqn p <= 3 -> sc_active (fl p) = true -> sc_keys_ok (sc p) -> 21 <= ty <= 24 -> byte code -> bytes data ->
  69 <= n <= 256 -> sec_room ty data <= n -> n <= e_tx e ->
  let m := secure_mac (tx_addr p) (tx_num p) ty code data (s_enc (sc p)) (s_mac1 (sc p)) (s_mac2 (sc p)) (last_out p) in
  let f := secure_frame (tx_addr p) (tx_num p) ty code data (s_enc (sc p)) (s_mac1 (sc p)) (s_mac2 (sc p)) (last_out p) in
  (exists b, transmit e p n ty (code :: data) = Ok (set_pbuf b (put_mac (tx_on p) m), true, [OTx (mk_of (tx_on p) ++ f)]) /\
     (buf_ok (pbuf p) -> buf_ok b)) /\
  zlen f = sec_room ty data - 1 /\ blk m.
Proof.
  intros S A K T Bc B N F TX. cbv zeta. destruct (tx_init p n S ltac:(lia)) as (b0 & IN & BO). unfold transmit. rewrite IN.
  destruct (tx_on_fields p) as (M1 & A1 & S1). change (sc_active (fl (set_pbuf b0 (tx_on p)))) with (sc_active (fl (tx_on p))). rewrite A1, A.
  rewrite tx_hdr_secure by assumption.
  destruct (tx_ids p S) as (_ & _ & NR & BA & _).
  assert (RL : removelast (mk_of (tx_on p) ++ [83; tx_addr p; 0; 0; 12 + tx_num p; 2; 21]) = mk_of (tx_on p) ++ [83; tx_addr p; 0; 0; 12 + tx_num p; 2]).
  { rewrite removelast_app by discriminate. reflexivity. }
  rewrite RL. rewrite <- !app_assoc.
  change ([83; tx_addr p; 0; 0; 12 + tx_num p; 2] ++ [ty] ++ code :: data) with ([83; tx_addr p; 0; 0; 12 + tx_num p; 2; ty; code] ++ data).
  set (b := [83; tx_addr p; 0; 0; 12 + tx_num p; 2; ty; code] ++ data). set (p1 := set_pbuf b0 (tx_on p)).
  assert (K1 : sc_keys_ok (sc p1)) by (change (sc p1) with (sc (tx_on p)); rewrite S1; exact K).
  assert (LO : last_out p1 = last_out p) by (unfold last_out; change (sc p1) with (sc (tx_on p)); change (fl p1) with (fl (tx_on p)); rewrite S1, M1; reflexivity).
  assert (Bb : bytes b). { unfold b. cbn [app]. unfold byte in *. bytes_cons; auto; unfold byte; lia. }
  assert (Lb : zlen b = zlen data + 8). { unfold b. rewrite zlen_app. change (zlen [83; tx_addr p; 0; 0; 12 + tx_num p; 2; ty; code]) with 8. lia. }
  pose proof (zlen_nonneg data) as D0.
  assert (Mc : macced p1 b = true).
  { unfold macced. change (sc_active (fl p1)) with (sc_active (fl (tx_on p))). rewrite A1, A. change (getb b 4) with (12 + tx_num p). change (getb b 6) with ty.
    rewrite (proj1 (ctl_sec (tx_num p) NR)). cbn [andb]. apply Z.leb_le. lia. }
  pose proof (sealed_secure p1 (tx_addr p) (tx_num p) ty code data B K1) as SS. cbv zeta in SS. fold b in SS.
  assert (Ls : zlen (sealed_body p1 b) + 6 = sec_room ty data - 1).
  { rewrite SS. rewrite zlen_app. change (zlen [83; tx_addr p; 0; 0; 12 + tx_num p; 2; ty; code]) with 8. unfold sec_room.
    destruct ((ty =? 23) || (ty =? 24)); [rewrite (proj2 (encrypt_out_len p1 data K1 B))|]; lia. }
  assert (ML : mark_len p1 <= 1) by (unfold mark_len; destruct (has_mark (fl p1)); lia).
  assert (ML' : 0 <= mark_len p1) by (unfold mark_len; destruct (has_mark (fl p1)); lia).
  assert (H3 : mark_len p1 + zlen (sealed_body p1 b) + 6 <= n) by lia. assert (H4 : 8 <= zlen b) by lia.
  pose proof (finalize_secure_gen p1 b n Bb eq_refl H4 Mc eq_refl K1 (proj2 N) (or_intror (or_intror H3))) as FS. cbv zeta in FS.
  assert (WE : with_crc (put_len (zlen (sealed_body p1 b) + 6) (sealed_body p1 b) ++ firstn 4 (sealed_mac p1 b)) = wire_of p1 b) by (unfold wire_of; rewrite Mc; reflexivity).
  rewrite WE in FS.
  destruct (sealed_body_ok p1 b K1 Bb ltac:(lia)) as (B1 & L1 & _).
  assert (Bm : blk (sealed_mac p1 b)).
  { destruct K1 as (Ka & Kb & Kc & Kd & Ke). unfold sealed_mac. apply blk_mac_of; auto.
    - destruct (pd_mode (fl p1)); auto.
    - intros E. apply (f_equal zlen) in E. rewrite zlen_put_len in E. change (zlen (@nil Z)) with 0 in E. lia.
    - apply bytes_put_len. exact B1. }
  assert (Lw : zlen (wire_of p1 b) = sec_room ty data - 1).
  { rewrite <- WE, zlen_with_crc, zlen_app, zlen_put_len. unfold zlen at 2. rewrite firstn_length, (proj1 Bm). change (Z.of_nat (Nat.min 4 16)) with 4. lia. }
  assert (By : byte ty) by (unfold byte; lia).
  destruct (wire_secure p1 (tx_addr p) (tx_num p) ty code data B BA NR By Bc K1 Mc ltac:(fold b; lia)) as [W1 W2]. fold b in W1, W2.
  change (sc p1) with (sc (tx_on p)) in W1, W2. rewrite S1, LO in W1, W2.
  rewrite W1 in FS. rewrite W1 in Lw. rewrite W2 in FS. rewrite W2 in Bm.
  set (f := secure_frame _ _ _ _ _ _ _ _ _) in *. set (m := secure_mac _ _ _ _ _ _ _ _ _) in *.
  assert (ZF : zlen (mk_of p1 ++ f) = mark_len p1 + zlen f) by (rewrite zlen_app, zlen_mk; reflexivity).
  replace (zlen (mk_of p1 ++ f) >? n) with false in FS by lia.
  split; [|split; [exact Lw|exact Bm]].
  change (mk_of p1) with (mk_of (tx_on p)) in *.
  rewrite (send_all e p1 _ n _ _ FS). 2:{ unfold sec_room in *. destruct ((ty =? 23) || (ty =? 24)); [pose proof (aes_pad_len_bounds (zlen data + 1) ltac:(lia))|]; lia. }
  exists (blit (pbuf p1) 0 (mk_of (tx_on p) ++ f)). split. 2:{ intros B0. apply buf_blit; [exact (BO B0)| |lia].
    apply bytes_app. split; [unfold mk_of; destruct (has_mark (fl (tx_on p))); [constructor; [unfold byte; lia|constructor]|constructor]|].
    rewrite <- W1. destruct (wire_shape p1 b K1 Bb eq_refl ltac:(lia) ltac:(lia) ltac:(rewrite W1; lia)) as (WB & _). exact WB. }
  unfold put_mac. change (pd_mode (fl p1)) with (pd_mode (fl (tx_on p))). unfold p1. destruct (pd_mode (fl (tx_on p))); reflexivity.
Qed.

(* --- receiver --- *)
Definition accepts (p : pd) (s : Z) (busy : bool) : Prop :=
  if pd_mode (fl p) then seq_ok (seqn p) s else s = seqn p mod 4 /\ (s = 0 -> busy = false).

Record rx_ready (p : pd) : Prop := {
  rr_wf : rx_wf p;
  rr_sync : rx_sync p;
  rr_none : pending p = [];
  rr_skip : skip_seq (fl p) = false;
  rr_seq : -1 <= seqn p <= 3
}.

Definition seen (f : list Z) (p : pd) : pd := if pd_mode (fl p) then pd_seen f p else p.

(* a frame for the receiver with an acceptable number *)
Lemma take_any p es e f rest : rx_ready p -> Forall chunk_ok (es ++ [e]) ->
  f_shape (negb (pd_mode (fl p))) f -> zlen f <= 255 -> f_crc f = true -> crc_valid f -> f_mine (address p) f ->
  accepts p (f_seq f) ((zlen f =? 8) && (nth 5 f 0 =? 121)) ->
  delivers (stream (es ++ [e])) f rest -> (length rest < length (heard (e_rx e)))%nat ->
  exists q q1, waited p es q /\ check_packet e q = Ok (seen f q1, KNone) /\ rxcore q1 = rxcore p /\ rx_base q1 /\ full q1 /\ frame_of q1 = f /\ rb_contents (rb q1) = rest /\ rx_sync q1.
Proof.
  intros [W Sy P Sk Sq] C Sh L Cr V Mi Ac D Lt.
  destruct (deliver es e p f rest W Sy P C Sh L D Lt) as (q & q1 & Wt & Rc & CP & R1 & F & G & Rb & S1 & Bf).
  exists q, q1. split; [exact Wt|]. 
  assert (M1 : pd_mode (fl q1) = pd_mode (fl p)) by exact (f_equal (fun x => pd_mode (fl x)) R1).
  assert (K1 : skip_seq (fl q1) = skip_seq (fl p)) by exact (f_equal (fun x => skip_seq (fl x)) R1).
  assert (A1 : address q1 = address p) by exact (f_equal (fun x => address x) R1).
  assert (Q1 : seqn q1 = seqn p) by exact (f_equal (fun x => seqn x) R1).
  assert (In : f_intact f) by (unfold f_intact; rewrite Cr; exact V).
  split. 2:{ split; [exact R1|]. split; [exact (proj1 (proj1 (proj2 G)))|]. split; [exact (got_full _ _ _ G)|]. split; [exact F|]. split; [exact Rb|exact S1]. }
  rewrite CP. f_equal. unfold accepts in Ac. unfold seen. destruct (pd_mode (fl p)) eqn:Md; rewrite M1.
  - destruct (pd_frame q1 f M1 ltac:(congruence) ltac:(lia) Bf (proj1 (proj2 (proj2 (proj2 Sh))))) as [[X _]|[(_ & X & _)|[(_ & _ & _ & X)|(_ & _ & X & _)]]].
    + contradiction. + rewrite A1 in X. contradiction. + exact X. + rewrite Q1 in X. contradiction.
  - destruct Ac as [Ac Ab].
    destruct (cp_frame q1 f M1 ltac:(congruence) Bf (proj1 (proj2 (proj2 (proj2 Sh))))) as [[X _]|[(_ & X & _)|[(_ & _ & X & _)|[(_ & _ & _ & X & _)|(_ & _ & _ & _ & X)]]]].
    + contradiction. + rewrite A1 in X. contradiction.
    + exfalso. destruct X as (X1 & X2 & X3). specialize (Ab X1). unfold trailer_len in X2. rewrite Cr in X2. rewrite X3 in Ab. replace (zlen f =? 8) with true in Ab by lia. discriminate.
    + rewrite Q1 in X. contradiction.
    + exact X.
Qed.

Lemma ctl_plain s : 0 <= s <= 3 -> ctl_scb (4 + s) = false /\ ctl_crc (4 + s) = true.
Proof. intros H. assert (s = 0 \/ s = 1 \/ s = 2 \/ s = 3) as [-> | [-> | [-> | ->]]] by lia; split; reflexivity. Qed.

Lemma f_crc_of f c : nth 4 f 0 = c -> f_crc f = ctl_crc c.
Proof. intros <-. rewrite f_crc_ctl. reflexivity. Qed.

Lemma seen_sc f p : f_seq f <> 0 \/ pd_mode (fl p) = false -> sc (seen f p) = sc p /\ sc_active (fl (seen f p)) = sc_active (fl p).
Proof.
  intros H. unfold seen, pd_seen. destruct (pd_mode (fl p)); [|split; reflexivity]. destruct H as [H|H]; [|discriminate].
  replace (f_seq f =? 0) with false by lia. destruct (f_addr f =? 127); split; reflexivity.
Qed.

Lemma seen_full f p : full p -> full (seen f p).
Proof. intros H. unfold seen. destruct (pd_mode (fl p)); [apply full_seen|]; exact H. Qed.

Lemma seen_rx f p : pbuf (seen f p) = pbuf p /\ rb (seen f p) = rb p /\ frame_of (seen f p) = frame_of p /\ pd_mode (fl (seen f p)) = pd_mode (fl p) /\ sc_is_capable (seen f p) = sc_is_capable p.
Proof.
  unfold seen, pd_seen, frame_of, mark_len, sc_is_capable. destruct (pd_mode (fl p)) eqn:M; [|repeat split; exact M].
  destruct (f_seq f =? 0), (f_addr f =? 127); simpl; rewrite ?M; repeat split.
Qed.

Lemma seen_core f p q : rxcore q = rxcore p -> rxcore (seen f q) = rxcore (seen f p).
Proof.
  intros R. rewrite (core_with p q R). set (a := has_mark _). set (b := rb q). set (c := tstamp q). set (d := pblen q). set (x := plen q). set (y := pbuf q). clearbody a b c d x y.
  unfold seen, pd_seen, with_rx. simpl. destruct (pd_mode (fl p)); [|reflexivity]. destruct (f_seq f =? 0), (f_addr f =? 127); reflexivity.
Qed.

Lemma decode_open p f : length (pbuf p) = 256%nat -> full p -> frame_of p = f -> 6 <= zlen f -> f_scb f = false -> sc_active (fl p) = false ->
  decode_packet p = Ok (p, ret_data f 5 (zlen f - 5 - (if f_crc f then 2 else 1))).
Proof.
  intros LB F Ef L S A. destruct (frame_from p LB F) as (Z & G & G2). rewrite Ef in *.
  unfold decode_packet. cbv zeta. set (b := from (pbuf p) (mark_len p)) in *.
  assert (B4 : getb b 4 = getb f 4) by (unfold getb; apply G; unfold zlen in L; lia).
  rewrite B4, <- f_scb_ctl, S, <- f_crc_ctl, A.
  match goal with |- (if ?c then _ else _) = _ => replace c with false by (destruct (pd_mode (fl p)); reflexivity) end. cbv iota.
  f_equal. f_equal. destruct F as (F1 & _). rewrite F1. replace (plen p - mark_len p - (if f_crc f then 2 else 1) - 5) with (zlen f - 5 - (if f_crc f then 2 else 1)) by (destruct (f_crc f); lia).
  apply ret_data_frame; [exact G2|lia|destruct (f_crc f); lia].
Qed.

Lemma seen_base f p : rx_base p -> rx_base (seen f p).
Proof. unfold rx_base. destruct (seen_rx f p) as (X1 & X2 & _). rewrite X1, X2. auto. Qed.

(* a frame without security block, outside a session *)
Lemma take_plain p es e a s d rest : rx_ready p -> Forall chunk_ok (es ++ [e]) -> sc_active (fl p) = false ->
  byte a -> negb (pd_mode (fl p)) = (128 <=? a) -> a mod 128 = address p \/ a mod 128 = 127 ->
  0 <= s <= 3 -> bytes d -> 1 <= zlen d <= 248 -> accepts p s ((zlen d =? 1) && (nth 0 d 0 =? 121)) ->
  delivers (stream (es ++ [e])) (plain_frame a s d) rest -> (length rest < length (heard (e_rx e)))%nat ->
  exists q, takes p es e d q /\ rxcore q = rxcore (seen (plain_frame a s d) p) /\ rb_contents (rb q) = rest /\ rx_base q.
Proof.
  intros R C A Ba Dir Ad S B L Ac D Lt. unfold plain_frame in *.
  destruct (ctl_plain s S) as [Cs Cc].
  destruct (crc_frame a (4 + s) d Ba ltac:(unfold byte; lia) B ltac:(lia) ltac:(lia)) as (Sh & V & N1 & N4 & Bf & Zf & Nd & Sb).
  set (f := with_crc (header a (zlen d + 7) (4 + s) ++ d)) in *. rewrite <- Dir in Sh.
  assert (FS : f_seq f = s) by (unfold f_seq; rewrite N4; lia).
  assert (N5 : nth 5 f 0 = nth 0 d 0) by (apply (Nd 0%nat); unfold zlen in L; lia).
  destruct (take_any p es e f rest R C Sh ltac:(lia) ltac:(rewrite (f_crc_of f _ N4); exact Cc) V ltac:(unfold f_mine, f_addr; rewrite N1; exact Ad)) as (q & q1 & Wt & CP & R1 & B1 & F1 & E1 & Rb & S1); [|exact D|exact Lt|].
  { rewrite FS, N5. replace (zlen f =? 8) with (zlen d =? 1) by lia. exact Ac. }
  destruct (seen_rx f q1) as (X1 & X2 & X3 & X4 & X5).
  assert (A1 : sc_active (fl q1) = false) by (rewrite <- A; exact (f_equal (fun x => sc_active (fl x)) R1)).
  assert (A2 : sc_active (fl (seen f q1)) = false).
  { unfold seen, pd_seen. destruct (pd_mode (fl q1)); [|exact A1]. destruct (f_seq f =? 0), (f_addr f =? 127); simpl; first [reflexivity|exact A1]. }
  assert (Sc : f_scb f = false) by (rewrite f_scb_ctl; change (getb f 4) with (nth 4 f 0); rewrite N4; exact Cs).
  pose proof (decode_open (seen f q1) f ltac:(rewrite X1; exact (proj1 (proj2 (proj2 B1)))) (seen_full f q1 F1) ltac:(rewrite X3; exact E1) ltac:(lia) Sc A2) as DP.
  rewrite (f_crc_of f _ N4), Cc in DP. unfold ret_data in DP. replace (zlen f - 5 - 2) with (zlen d) in DP by lia. replace (zlen d <=? 0) with false in DP by lia. rewrite Sb in DP.
  exists (seen f q1). split. { exists q, (seen f q1). split; [exact Wt|]. split; [exact CP|exact DP]. }
  split; [exact (seen_core f p q1 R1)|]. split; [rewrite X2; exact Rb|exact (seen_base f q1 B1)].
Qed.

(* a frame of the session *)
Lemma take_secure p es e a s ty code data rest : rx_ready p -> Forall chunk_ok (es ++ [e]) -> sc_active (fl p) = true -> sc_keys_ok (sc p) ->
  (pd_mode (fl p) = true -> sc_is_capable p = true) -> 21 <= ty <= 24 -> byte code ->
  byte a -> negb (pd_mode (fl p)) = (128 <=? a) -> a mod 128 = address p \/ a mod 128 = 127 ->
  1 <= s <= 3 -> bytes data -> accepts p s false ->
  let f := secure_frame a s ty code data (s_enc (sc p)) (s_mac1 (sc p)) (s_mac2 (sc p)) (last_in p) in
  let m := secure_mac a s ty code data (s_enc (sc p)) (s_mac1 (sc p)) (s_mac2 (sc p)) (last_in p) in
  zlen f <= 255 -> delivers (stream (es ++ [e])) f rest -> (length rest < length (heard (e_rx e)))%nat ->
  exists q, takes p es e (code :: data) q /\ rxcore q = rxcore (took_mac (seen f p) m) /\ rb_contents (rb q) = rest /\ rx_base q /\ blk m /\ f_seq f = s /\ f_addr f = a mod 128.
Proof.
  intros R C A K Cp T Bc Ba Dir Ad S B Ac. cbv zeta. intros L D Lt.
  set (m := secure_mac _ _ _ _ _ _ _ _ _).
  set (f := secure_frame _ _ _ _ _ _ _ _ _) in *.
  assert (FE : exists t, f = with_crc (header a (zlen t + 7) (12 + s) ++ t) /\ bytes t /\ 1 <= zlen t /\ zlen t + 7 <= 256).
  { destruct K as (K1 & K2 & K3 & K4 & K5).
    assert (Li : blk (last_in p)) by (unfold last_in; destruct (pd_mode (fl p)); assumption).
    unfold f in *. rewrite secure_frame_eq in L |- *. cbv zeta in L |- *. set (d := sec_data ty (s_enc (sc p)) (last_in p) data) in *.
    assert (Bd : bytes d). { unfold d, sec_data. destruct ((ty =? 23) || (ty =? 24)); [exact (proj1 (osdp_encrypt_len p data (conj K1 (conj K2 (conj K3 (conj K4 K5)))) B))|exact B]. }
    set (b := sec_body a s ty code d) in *. pose proof (zlen_nonneg d) as D0.
    assert (LB : zlen b = zlen d + 8) by (unfold b, sec_body; rewrite !zlen_app; change (zlen (header a (zlen d + 14) (12 + s))) with 5; change (zlen [2; ty; code]) with 3; lia).
    set (x := osdp_mac (s_mac1 (sc p)) (s_mac2 (sc p)) (last_in p) b) in *.
    rewrite zlen_with_crc, zlen_app in L. pose proof (zlen_nonneg (firstn 4 x)) as X0.
    assert (Bb : bytes b).
    { assert (H : zlen d + 14 < 65536) by lia. unfold b, sec_body, header, bytes. cbn [app]. repeat (apply Forall_cons; [clear - D0 H Ba S T Bc; unfold byte in *; lia|]); exact Bd. }
    assert (NE : b <> []) by discriminate.
    assert (Bx : blk x) by (unfold x; rewrite <- mac_of_spec by assumption; apply blk_mac_of; assumption).
    assert (L4 : zlen (firstn 4 x) = 4) by (unfold zlen; rewrite firstn_length, (proj1 Bx); reflexivity).
    exists ([2; ty; code] ++ d ++ firstn 4 x).
    assert (LT : zlen ([2; ty; code] ++ d ++ firstn 4 x) = zlen d + 7) by (rewrite !zlen_app, L4; change (zlen [2; ty; code]) with 3; lia).
    rewrite LT. split; [|split; [|split; lia]].
    - unfold b, sec_body. replace (zlen d + 7 + 7) with (zlen d + 14) by lia. rewrite <- !app_assoc. reflexivity.
    - apply bytes_app. split; [|apply bytes_app; split; [exact Bd|apply bytes_firstn; exact (proj2 Bx)]].
      unfold byte in *. bytes_cons; [..|constructor]; unfold byte; lia. }
  destruct FE as (t & FE & Bt & Lt1 & Lt2).
  destruct (ctl_sec s ltac:(lia)) as [Cs Cc].
  destruct (crc_frame a (12 + s) t Ba ltac:(unfold byte; lia) Bt Lt1 Lt2) as (Sh & V & N1 & N4 & Bf & Zf & _ & _).
  rewrite <- FE in Sh, V, N1, N4, Bf, Zf. rewrite <- Dir in Sh.
  assert (FS : f_seq f = s) by (unfold f_seq; rewrite N4; lia).
  assert (FA : f_addr f = a mod 128) by (unfold f_addr; rewrite N1; reflexivity).
  assert (Ac' : accepts p (f_seq f) ((zlen f =? 8) && (nth 5 f 0 =? 121))).
  { rewrite FS. unfold accepts in *. destruct (pd_mode (fl p)); [exact Ac|]. split; [exact (proj1 Ac)|lia]. }
  destruct (take_any p es e f rest R C Sh L ltac:(rewrite (f_crc_of f _ N4); exact Cc) V ltac:(unfold f_mine; rewrite FA; exact Ad) Ac' D Lt)
    as (q & q1 & Wt & CP & R1 & B1 & F1 & E1 & Rb & S1).
  destruct (seen_rx f q1) as (X1 & X2 & X3 & X4 & X5).
  destruct (seen_sc f q1 ltac:(left; lia)) as [Y1 Y2].
  assert (A1 : sc_active (fl q1) = sc_active (fl p)) by exact (f_equal (fun x => sc_active (fl x)) R1).
  assert (M1 : pd_mode (fl q1) = pd_mode (fl p)) by exact (f_equal (fun x => pd_mode (fl x)) R1).
  assert (Q1 : sc q1 = sc p) by exact (f_equal (fun x => sc x) R1).
  assert (Cp1 : sc_is_capable q1 = sc_is_capable p).
  { unfold sc_is_capable. f_equal; [|f_equal]; [exact (f_equal (fun x => sc_capable (fl x)) R1)|exact (f_equal (fun x => sc_disabled (fl x)) R1)]. }
  assert (LI : last_in (seen f q1) = last_in p) by (unfold last_in; rewrite X4, M1, Y1, Q1; reflexivity).
  assert (FR : frame_of (seen f q1) = secure_frame a s ty code data (s_enc (sc (seen f q1))) (s_mac1 (sc (seen f q1))) (s_mac2 (sc (seen f q1))) (last_in (seen f q1))).
  { rewrite X3, E1, LI, Y1, Q1. reflexivity. }
  destruct (decode_secure_frame_gen (seen f q1) a s ty code data (seen_base f q1 B1) (seen_full f q1 F1) ltac:(rewrite Y1, Q1; exact K) ltac:(congruence) ltac:(rewrite X4, M1, X5, Cp1; exact Cp) Ba ltac:(lia) T Bc B FR) as (b & DP & Bm & Lb & Bb).
  rewrite LI, Y1, Q1 in DP, Bm. fold m in DP, Bm.
  exists (set_pbuf b (took_mac (seen f q1) m)). split. { exists q, (seen f q1). split; [exact Wt|]. split; [exact CP|exact DP]. }
  split.
  { pose proof (seen_core f p q1 R1) as SCo. unfold took_mac. rewrite X4, M1. destruct (seen_rx f p) as (_ & _ & _ & X4p & _). rewrite X4p.
    rewrite (core_with (seen f p) (seen f q1) SCo). destruct (pd_mode (fl p)); reflexivity. }
  split. { assert (RE : rb (set_pbuf b (took_mac (seen f q1) m)) = rb q1) by (rewrite <- X2; unfold took_mac; destruct (pd_mode (fl (seen f q1))); reflexivity). rewrite RE. exact Rb. }
  split. { destruct (seen_base f q1 B1) as (Z1 & Z2 & _). unfold took_mac. destruct (pd_mode (fl (seen f q1))); (split; [exact Z1|split; [exact Z2|split; [exact Lb|exact Bb]]]). }
  split; [exact Bm|]. split; [exact FS|exact FA].
Qed.
