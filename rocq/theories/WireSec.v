(** Frames inside a secure session: what is put on the wire and what decoding makes of it. *)
From Verif Require Import Base ListLemmas Crc SpecCrc CrcProofs CrcBurst Aes AesProofs Rb RbProofs
  Types Sc ScProofs Phy PhyCheck File Pd SpecRx SpecFrame SpecSec SpecSession RxProofs RxFwd PdRx PdCore PhyTx PdTx PdReply
  PdStep PdWire PdFwd PdSec MacProofs.
From Coq Require Import ZifyBool ZifyNat.
Ltac Zify.zify_post_hook ::= Z.div_mod_to_equations.
Local Opaque aes_ecb_encrypt aes_cbc_encrypt aes_cbc_decrypt mac_of RB_SIZE osdp_mac enc1 osdp_encrypt encrypt_data.

Definition last_out (p : pd) : list Z := if pd_mode (fl p) then c_mac (sc p) else r_mac (sc p).
Definition last_in (p : pd) : list Z := if pd_mode (fl p) then r_mac (sc p) else c_mac (sc p).

Lemma bytes0 n : 0 <= n < 65536 -> byte0 n = n mod 256 /\ byte1 n = n / 256.
Proof.
  intros H. unfold byte0, byte1. split.
  - try (rewrite Z.land_ones by lia; reflexivity); try reflexivity; try lia.
  - try lia.
Qed.

Lemma sealed_secure p addr seq ty code data : bytes data -> sc_keys_ok (sc p) ->
  let b := [83; addr; 0; 0; 12 + seq; 2; ty; code] ++ data in
  let d := if (ty =? 23) || (ty =? 24) then osdp_encrypt (s_enc (sc p)) (last_out p) data else data in
  sealed_body p b = [83; addr; 0; 0; 12 + seq; 2; ty; code] ++ d.
Proof.
  intros B K. cbv zeta. unfold sealed_body.
  change (getb ([83; addr; 0; 0; 12 + seq; 2; ty; code] ++ data) 6) with ty.
  change (skipn 8 ([83; addr; 0; 0; 12 + seq; 2; ty; code] ++ data)) with data.
  change (firstn 8 ([83; addr; 0; 0; 12 + seq; 2; ty; code] ++ data)) with [83; addr; 0; 0; 12 + seq; 2; ty; code].
  rewrite encrypt_data_spec. unfold last_out.
  destruct ((ty =? 23) || (ty =? 24)); [|reflexivity]. destruct (pd_mode (fl p)); reflexivity.
Qed.

Lemma put_len_hdr n a c t d : 0 <= n < 65536 ->
  put_len n ([83; a; 0; 0; c; 2; t] ++ d) = header a n c ++ [2; t] ++ d.
Proof.
  intros H. destruct (bytes0 n H) as [E1 E2]. unfold put_len. rewrite E1, E2. reflexivity.
Qed.

Lemma wire_secure p addr seq ty code data : bytes data -> byte addr -> 0 <= seq <= 3 -> byte ty -> byte code ->
  sc_keys_ok (sc p) ->
  let b := [83; addr; 0; 0; 12 + seq; 2; ty; code] ++ data in
  macced p b = true -> zlen (wire_of p b) <= 256 ->
  wire_of p b = secure_frame addr seq ty code data (s_enc (sc p)) (s_mac1 (sc p)) (s_mac2 (sc p)) (last_out p) /\
  sealed_mac p b = secure_mac addr seq ty code data (s_enc (sc p)) (s_mac1 (sc p)) (s_mac2 (sc p)) (last_out p).
Proof.
  intros B Ba Hs Bt Bc K b M L.
  pose proof (sealed_secure p addr seq ty code data B K) as S. cbv zeta in S. fold b in S.
  unfold wire_of in L |- *. rewrite M in L |- *.
  unfold sealed_mac in L |- *. unfold secure_frame, secure_mac.
  set (d := if (ty =? 23) || (ty =? 24) then osdp_encrypt (s_enc (sc p)) (last_out p) data else data) in *.
  assert (B8 : bytes b).
  { apply bytes_app; split || idtac. 2: exact B. clear - Ba Hs Bt Bc. repeat constructor; try (unfold byte in *; lia). }
  assert (L8 : 8 <= zlen b) by (unfold b; rewrite zlen_app; change (zlen [83; addr; 0; 0; 12 + seq; 2; ty; code]) with 8; pose proof (zlen_nonneg data); lia).
  destruct (sealed_body_ok p b K B8 L8) as (B1 & L1 & _).
  rewrite S in *.
  assert (LB : zlen ([83; addr; 0; 0; 12 + seq; 2; ty; code] ++ d) = zlen d + 8) by (rewrite zlen_app; change (zlen [83; addr; 0; 0; 12 + seq; 2; ty; code]) with 8; lia).
  rewrite LB in *.
  assert (LD : zlen d + 10 <= 256).
  { rewrite zlen_with_crc, zlen_app, zlen_put_len, LB in L. pose proof (zlen_nonneg (firstn 4 (mac_of (s_mac1 (sc p)) (s_mac2 (sc p)) (if pd_mode (fl p) then c_mac (sc p) else r_mac (sc p))
    (put_len (zlen d + 8 + 6) ([83; addr; 0; 0; 12 + seq; 2; ty; code] ++ d))))). lia. }
  pose proof (zlen_nonneg d) as D0.
  replace (zlen d + 8 + 6) with (zlen d + 14) by lia.
  assert (PL : put_len (zlen d + 14) ([83; addr; 0; 0; 12 + seq; 2; ty; code] ++ d) = header addr (zlen d + 14) (12 + seq) ++ [2; ty; code] ++ d).
  { exact (put_len_hdr (zlen d + 14) addr (12 + seq) ty (code :: d) ltac:(lia)). }
  pose proof (bytes_put_len (zlen d + 14) _ B1) as BP.
  rewrite PL in *.
  change (if pd_mode (fl p) then c_mac (sc p) else r_mac (sc p)) with (last_out p).
  destruct K as (K1 & K2 & K3 & K4 & K5).
  assert (blk (last_out p)) by (unfold last_out; destruct (pd_mode (fl p)); auto).
  rewrite mac_of_spec; auto. discriminate.
Qed.

Lemma ctl_sec seq : 0 <= seq <= 3 -> ctl_scb (12 + seq) = true /\ ctl_crc (12 + seq) = true.
Proof.
  intros H. assert (seq = 0 \/ seq = 1 \/ seq = 2 \/ seq = 3) as [-> | [-> | [-> | ->]]] by lia; split; reflexivity.
Qed.

Lemma sub_mid (a b c : list Z) : sub (a ++ b ++ c) (zlen a) (zlen b) = b.
Proof.
  unfold sub, from, zlen. rewrite !Nat2Z.id. rewrite skipn_app, skipn_all, Nat.sub_diag. simpl.
  rewrite firstn_app, firstn_all, Nat.sub_diag. simpl. apply app_nil_r.
Qed.

Definition sec_data (ty : Z) (kenc last data : list Z) : list Z :=
  if (ty =? 23) || (ty =? 24) then osdp_encrypt kenc last data else data.
Definition sec_body (addr seq ty code : Z) (d : list Z) : list Z :=
  header addr (zlen d + 14) (12 + seq) ++ [2; ty; code] ++ d.

Lemma secure_frame_eq addr seq ty code data kenc k1 k2 last :
  secure_frame addr seq ty code data kenc k1 k2 last =
  let b := sec_body addr seq ty code (sec_data ty kenc last data) in with_crc (b ++ firstn 4 (osdp_mac k1 k2 last b)).
Proof. reflexivity. Qed.
Lemma secure_mac_eq addr seq ty code data kenc k1 k2 last :
  secure_mac addr seq ty code data kenc k1 k2 last =
  osdp_mac k1 k2 last (sec_body addr seq ty code (sec_data ty kenc last data)).
Proof. reflexivity. Qed.

(* the receiving side after a frame with MAC m *)
Definition took_mac (p : pd) (m : list Z) : pd := if pd_mode (fl p) then set_c_mac m p else set_r_mac m p.

Lemma osdp_encrypt_len p data : sc_keys_ok (sc p) -> bytes data ->
  bytes (osdp_encrypt (s_enc (sc p)) (last_in p) data) /\
  zlen (osdp_encrypt (s_enc (sc p)) (last_in p) data) = aes_pad_len (zlen data + 1).
Proof.
  intros K B. destruct (encrypt_data_length (pd_mode (fl p)) (sc p) data K B) as [L Y].
  rewrite encrypt_data_spec in L, Y. unfold last_in. destruct (pd_mode (fl p)); auto.
Qed.

Lemma decode_secure_frame_gen p addr seq ty code data : rx_base p -> full p -> sc_keys_ok (sc p) -> sc_active (fl p) = true ->
  (pd_mode (fl p) = true -> sc_is_capable p = true) ->
  byte addr -> 0 <= seq <= 3 -> 21 <= ty <= 24 -> byte code -> bytes data ->
  frame_of p = secure_frame addr seq ty code data (s_enc (sc p)) (s_mac1 (sc p)) (s_mac2 (sc p)) (last_in p) ->
  let m := secure_mac addr seq ty code data (s_enc (sc p)) (s_mac1 (sc p)) (s_mac2 (sc p)) (last_in p) in
  exists b, decode_packet p = Ok (set_pbuf b (took_mac p m), DData (code :: data)) /\ blk m /\ length b = 256%nat /\ bytes b.
Proof.
  intros RB F K SA CAP Ba Hs Ht Bc Bd E. cbv zeta. rewrite secure_frame_eq in E. cbv zeta in E. rewrite secure_mac_eq.
  set (d := sec_data ty (s_enc (sc p)) (last_in p) data) in *.
  destruct RB as (R1 & R2 & R3 & R4).
  destruct (frame_from p R3 F) as (Z1 & Z2 & Z3).
  assert (PB : pblen p = plen p) by apply F.
  assert (BD : bytes d).
  { unfold d, sec_data. destruct ((ty =? 23) || (ty =? 24)); auto. apply osdp_encrypt_len; auto. }
  set (b := sec_body addr seq ty code d) in *.
  assert (LB : zlen b = zlen d + 8) by (unfold b, sec_body; rewrite !zlen_app; change (zlen (header addr (zlen d + 14) (12 + seq))) with 5; change (zlen [2; ty; code]) with 3; lia).
  pose proof (zlen_nonneg d) as D0.
  destruct K as (K1 & K2 & K3 & K4 & K5).
  assert (KL : blk (last_in p)) by (unfold last_in; destruct (pd_mode (fl p)); auto).
  assert (NE : b <> []) by discriminate.
  assert (PL : plen p <= 256) by apply F.
  assert (MK : 0 <= mark_len p) by (unfold mark_len; destruct (has_mark (fl p)); lia).
  set (m := osdp_mac (s_mac1 (sc p)) (s_mac2 (sc p)) (last_in p) b) in *.
  assert (LF : zlen (frame_of p) = zlen b + Z.of_nat (length (firstn 4 m)) + 2).
  { rewrite E, zlen_with_crc, zlen_app. unfold zlen. lia. }
  assert (BB : bytes b).
  { assert (H : zlen d + 14 < 65536) by lia. unfold b, sec_body, header, bytes. cbn [app]. repeat (apply Forall_cons; [clear - D0 H Ba Hs Ht Bc; unfold byte in *; lia|]); exact BD. }
  assert (MB : m = mac_of (s_mac1 (sc p)) (s_mac2 (sc p)) (last_in p) b) by (symmetry; apply mac_of_spec; auto).
  assert (Bm : blk m) by (rewrite MB; apply blk_mac_of; auto).
  assert (L4 : length (firstn 4 m) = 4%nat) by (rewrite firstn_length; destruct Bm as [-> _]; reflexivity).
  rewrite L4 in LF.
  assert (FE : frame_of p = b ++ firstn 4 m ++ [textbook_crc 7439 (b ++ firstn 4 m) mod 256; textbook_crc 7439 (b ++ firstn 4 m) / 256]).
  { rewrite E. unfold with_crc. rewrite app_assoc. reflexivity. }
  assert (GB : forall i, 0 <= i < zlen b -> getb (from (pbuf p) (mark_len p)) i = nth (Z.to_nat i) b 0).
  { intros i Hi. rewrite getb_frame by (auto; lia). rewrite FE. apply app_nth1. unfold zlen in Hi. lia. }
  assert (PRE : firstn (Z.to_nat (zlen b)) (from (pbuf p) (mark_len p)) = b).
  { rewrite frame_prefix by (auto; lia). rewrite FE. clearbody b. unfold zlen. rewrite Nat2Z.id. rewrite firstn_app, firstn_all, Nat.sub_diag. simpl. apply app_nil_r. }
  assert (MAC : sub (from (pbuf p) (mark_len p)) (zlen b) 4 = firstn 4 m).
  { rewrite Z3 by lia. rewrite FE. replace 4 with (zlen (firstn 4 m)) by (unfold zlen; rewrite L4; reflexivity). apply sub_mid. }
  assert (G4 : getb (from (pbuf p) (mark_len p)) 4 = 12 + seq) by (rewrite GB by lia; reflexivity).
  assert (G5 : getb (from (pbuf p) (mark_len p)) 5 = 2) by (rewrite GB by lia; reflexivity).
  assert (G6 : getb (from (pbuf p) (mark_len p)) 6 = ty) by (rewrite GB by lia; reflexivity).
  assert (G7 : getb (from (pbuf p) (mark_len p)) 7 = code) by (rewrite GB by lia; reflexivity).
  assert (SD : sub (from (pbuf p) (mark_len p)) 8 (zlen d) = d).
  { rewrite Z3 by lia. rewrite FE. unfold b, sec_body.
    change (header addr (zlen d + 14) (12 + seq) ++ [2; ty; code] ++ d) with ([83; addr; (zlen d + 14) mod 256; (zlen d + 14) / 256; 12 + seq; 2; ty; code] ++ d).
    rewrite <- !app_assoc. change 8 with (zlen [83; addr; (zlen d + 14) mod 256; (zlen d + 14) / 256; 12 + seq; 2; ty; code]) at 1. apply sub_mid. }
  assert (SD1 : sub (from (pbuf p) (mark_len p)) 7 (zlen d + 1) = code :: d).
  { rewrite Z3 by lia. rewrite FE. unfold b, sec_body.
    change (header addr (zlen d + 14) (12 + seq) ++ [2; ty; code] ++ d) with ([83; addr; (zlen d + 14) mod 256; (zlen d + 14) / 256; 12 + seq; 2; ty] ++ (code :: d)).
    rewrite <- !app_assoc. change 7 with (zlen [83; addr; (zlen d + 14) mod 256; (zlen d + 14) / 256; 12 + seq; 2; ty]) at 1.
    replace (zlen d + 1) with (zlen (code :: d)) by (rewrite zlen_cons; lia). apply sub_mid. }
  destruct (ctl_sec seq Hs) as [C1 C2].
  clearbody b. clear GB Z2 Z3 E FE NE.
  unfold decode_packet. rewrite G4, G5, G6, G7, C1, C2, SA.
  replace (pd_mode (fl p) && negb (sc_is_capable p)) with false by (destruct (pd_mode (fl p)); [rewrite CAP by auto|]; reflexivity).
  unfold SCS_11, SCS_13, SCS_14, SCS_15, SCS_18 in *.
  replace ((ty <? 17) || (ty >? 24)) with false by (clear - Ht; lia).
  replace (negb true && (ty >? 20)) with false by reflexivity.
  replace ((ty =? 17) || (ty =? 19)) with false by (clear - Ht; lia).
  cbn [andb negb]. replace (21 <=? ty) with true by (clear - Ht; lia).
  rewrite PB. replace (plen p - mark_len p - 2 - 4) with (zlen b) by lia.
  replace (plen p - mark_len p - 2 - 5 - 2) with (zlen d + 5) by lia.
  unfold decode_secure. rewrite PRE. unfold compute_mac.
  replace (zlen b =? 0) with false by (clear - LB D0; lia).
  rewrite bind_Ok, MAC, G6.
  change (5 + 2) with 7. change (7 + 1) with 8. rewrite G7.
  change (if pd_mode (fl p) then r_mac (sc p) else c_mac (sc p)) with (last_in p). rewrite <- MB.
  set (p1 := if pd_mode (fl p) then set_c_mac m p else set_r_mac m p).
  assert (P1 : p1 = took_mac p m) by reflexivity.
  assert (M1 : (if pd_mode (fl p) then c_mac (sc p1) else r_mac (sc p1)) = m) by (rewrite P1; unfold took_mac; destruct (pd_mode (fl p)); reflexivity).
  rewrite M1. replace (eqb_bytes (firstn 4 m) (firstn 4 m)) with true by (symmetry; apply eqb_bytes_eq; reflexivity).
  cbn [negb]. replace (zlen d + 5 - 4) with (zlen d + 1) by lia. replace (zlen d + 1 - 1) with (zlen d) by lia.
  unfold SCS_17, SCS_18 in *.
  assert (ED : d = if (ty =? 23) || (ty =? 24) then encrypt_data (pd_mode (fl p)) (sc p) data else data).
  { unfold d, sec_data. rewrite encrypt_data_spec. unfold last_in. reflexivity. }
  destruct ((ty =? 23) || (ty =? 24)) eqn:TY.
  - replace (zlen d <? 0) with false by (clear - D0; lia). cbn [andb]. rewrite SD. rewrite ED.
    destruct (decrypt_encrypt (pd_mode (fl p)) (allow_empty (fl p1)) (sc p) (sc p) data) as (x & X1 & X2 & X3 & X4); auto.
    { repeat split; try apply K1; try apply K2; try apply K3; try apply K4; try apply K5. }
    assert (DD : decrypt_data (pd_mode (fl p)) (allow_empty (fl p1)) (sc p1) (encrypt_data (pd_mode (fl p)) (sc p) data) =
                 decrypt_data (pd_mode (fl p)) (allow_empty (fl p1)) (sc p) (encrypt_data (pd_mode (fl p)) (sc p) data)).
    { unfold decrypt_data, data_iv. rewrite P1. unfold took_mac. destruct (pd_mode (fl p)); reflexivity. }
    rewrite DD, X1. eexists. split; [|split; [exact Bm|]].
    { f_equal. f_equal. unfold zlen. rewrite Nat2Z.id, X2. reflexivity. }
    assert (PE : pbuf p1 = pbuf p /\ mark_len p1 = mark_len p) by (rewrite P1; unfold took_mac, mark_len; destruct (pd_mode (fl p)); split; reflexivity).
        destruct PE as [-> ->]. rewrite <- ED in X3. split; [|apply bytes_blit; assumption].
        rewrite blit_length; [exact R3|lia|]. unfold zlen in *. rewrite X3, R3. lia.
  - exists (pbuf p1). split; [|split; [exact Bm|assert (PE : pbuf p1 = pbuf p) by (rewrite P1; unfold took_mac; destruct (pd_mode (fl p)); reflexivity); rewrite PE; split; assumption]]. unfold ret_data. replace (zlen d + 1 <=? 0) with false by (clear - D0; lia).
    rewrite SD1, ED, P1. f_equal. f_equal. unfold took_mac. destruct p, (pd_mode _); reflexivity.
Qed.

Lemma decode_secure_frame p addr seq ty code data : rx_base p -> full p -> sc_keys_ok (sc p) -> sc_active (fl p) = true ->
  (pd_mode (fl p) = true -> sc_is_capable p = true) ->
  byte addr -> 0 <= seq <= 3 -> 21 <= ty <= 24 -> byte code -> bytes data ->
  frame_of p = secure_frame addr seq ty code data (s_enc (sc p)) (s_mac1 (sc p)) (s_mac2 (sc p)) (last_in p) ->
  let m := secure_mac addr seq ty code data (s_enc (sc p)) (s_mac1 (sc p)) (s_mac2 (sc p)) (last_in p) in
  exists b, decode_packet p = Ok (set_pbuf b (took_mac p m), DData (code :: data)) /\ blk m.
Proof.
  intros. destruct (decode_secure_frame_gen p addr seq ty code data) as (b & X & Y & _); try assumption. exists b. split; [exact X|exact Y].
Qed.
