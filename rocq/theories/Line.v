(** Commands and replies of panel and device over one line, in clear or in a session. *)
From Verif Require Import Base ListLemmas Crc SpecCrc CrcProofs CrcBurst Aes AesProofs Rb RbProofs
  Types Sc ScProofs Phy PhyCheck File Pd Cp PdRun SpecRx SpecFrame SpecSec SpecSession SpecPd SpecLink RxProofs RxFwd PdRx PdCore PhyTx PdTx PdReply
  PdStep PdWire PdFwd PdSec PdHist2 MacProofs WireSec CpCtx SpecCp SpecCpRun CpTx CpRx CpStep CpInv CpEdge CpFacts CpSum CpFwd Chunk Trip ChunkRun LinkProofs LinkStep CpSend SpecHand SpecTalk Hand.
From Coq Require Import ZifyBool ZifyNat.
Ltac Zify.zify_post_hook ::= Z.div_mod_to_equations.
Local Opaque aes_ecb_encrypt aes_cbc_encrypt aes_cbc_decrypt mac_of RB_SIZE osdp_mac enc1 osdp_encrypt encrypt_data.

(* --- building is framing --- *)

Definition with_outs (ob : list out) (r : res (pd * bool * list out)) : res (pd * bool * list out) :=
  do y <- r ; match y with (q, ok, o) => Ok (q, ok, ob ++ o) end.

Definition cmd_ty (d : list Z) : Z := if zlen d >? 1 then 23 else 21.
Definition rep_ty (d : list Z) : Z := if zlen d >? 1 then 24 else 22.

Lemma cmd_transmit e p p' d ob : pd_mode (fl p) = false -> -1 <= seqn p <= 3 -> pd_typed p -> fread_typed e -> 69 <= tx_buf_size p ->
  in_sc_handshake false (cmd_id p) = false -> pd_mode (fl p') = false -> seqn p' = seqn p -> cp_hdr p' = cp_hdr p -> sc_active (fl p') = sc_active (fl p) ->
  build_cmd_switch e (cp_init p) (cmd_smb p) (cmd_room p) = Ok (cp_init p', Some d, None, ob) ->
  build_and_send e p = with_outs ob (transmit e p' (tx_buf_size p) (cmd_ty d) d).
Proof.
  intros M S T FT N H M' S' HH AA BS. assert (HO : hs_ok p) by (intros _; exact H).
  unfold build_and_send. cbv zeta. rewrite packet_init_cp by assumption. replace (tx_buf_size p <? 69) with false by lia.
  rewrite (command_built e p (cp_init p') d None ob T FT HO N BS), bind_Ok.
  unfold transmit. rewrite packet_init_cp by (assumption || lia). replace (tx_buf_size p <? 69) with false by lia.
  rewrite HH. change (sc_active (fl (cp_init p'))) with (sc_active (fl p')). rewrite AA.
  replace (255 :: cmd_body p d None) with ((if sc_active (fl p) then removelast (255 :: cp_hdr p) ++ [cmd_ty d] else 255 :: cp_hdr p) ++ d); [reflexivity|].
  unfold cmd_body, cp_hdr, cmd_ty. rewrite H. destruct (sc_active (fl p)); reflexivity.
Qed.

Lemma reply_built e p p2 d ob : pd_mode (fl p) = true -> pd_typed p -> bytes (e_rand e) -> 69 <= tx_buf_size p <= 256 ->
  build_switch e (after_init p) (reply_smb p) (reply_room p) = Ok (p2, Some d, None, ob) ->
  build_reply e (after_init p) (mk_of p ++ pd_hdr p) (tx_buf_size p) = Ok (p2, mk_of p ++ reply_body p (Some d) None, ob).
Proof.
  intros M T R N BS.
  assert (BR : exists y, build_reply e (after_init p) (mk_of p ++ pd_hdr p) (tx_buf_size p) = Ok y).
  { unfold build_reply. unfold data_offset, smb_pos. change (mark_len (after_init p)) with (mark_len p).
    set (off := mark_len p + 5 + _). cbv zeta.
    set (smb := if ctl_scb _ then Some (mark_len p + 5) else None).
    assert (F : off = zlen (mk_of p ++ pd_hdr p) /\
                smb = if sc_active (fl p) || in_sc_handshake true (reply_id p) then Some (mark_len p + 5) else None).
    { unfold off, smb, pd_hdr, mk_of, mark_len. fold (pd_addr p) (pd_ctl p).
      destruct (pd_ctl_cases p) as [C _]. simpl in C.
      destruct C as [<-|[<-|[<-|[<-|[]]]]];
      destruct (has_mark (fl p)), (sc_active (fl p)), (in_sc_handshake true (reply_id p)); split; reflexivity. }
    destruct F as [F1 F2]. rewrite F2. rewrite F1. clearbody off smb. clear F2.
    fold (reply_room p). fold (reply_smb p).
    replace (match (if reply_smb p then Some (mark_len p + 5) else None) with Some _ => true | None => false end)
      with (reply_smb p) by (destruct (reply_smb p); reflexivity).
    rewrite BS. cbn [bind]. eexists; reflexivity. }
  destruct BR as [[[q f] o] BR].
  destruct (build_reply_spec e p (tx_buf_size p) q f o M T R N BR) as (pay & ss & m & smb & BS2 & -> & Lf & Hm & -> & ->).
  fold (reply_room p) in BS2. rewrite BS in BS2. injection BS2 as <- <- <- <-. exact BR.
Qed.

Lemma reply_transmit e p p' d ob : pd_mode (fl p) = true -> pd_typed p -> bytes (e_rand e) -> 69 <= tx_buf_size p <= 256 -> zlen d <> 0 ->
  in_sc_handshake true (reply_id p) = false -> pd_mode (fl p') = true -> pd_hdr p' = pd_hdr p -> sc_active (fl p') = sc_active (fl p) -> mk_of p' = mk_of p ->
  build_switch e (after_init p) (reply_smb p) (reply_room p) = Ok (after_init p', Some d, None, ob) ->
  send_reply e p = with_outs ob (transmit e p' (tx_buf_size p) (rep_ty d) d).
Proof.
  intros M T R N NZ H M' HH AA MK BS. unfold send_reply. cbv zeta. rewrite packet_init_pd by assumption. replace (tx_buf_size p <? 69) with false by lia.
  fold (after_init p). rewrite (reply_built e p (after_init p') d ob M T R N BS), bind_Ok.
  unfold transmit. rewrite packet_init_pd by assumption. replace (tx_buf_size p <? 69) with false by lia. fold (after_init p').
  rewrite HH, MK. change (sc_active (fl (after_init p'))) with (sc_active (fl p')). rewrite AA.
  replace (mk_of p ++ reply_body p (Some d) None) with ((if sc_active (fl p) then removelast (mk_of p ++ pd_hdr p) ++ [rep_ty d] else mk_of p ++ pd_hdr p) ++ d); [reflexivity|].
  unfold reply_body, pd_hdr, rep_ty. rewrite H. unfold pd_addr, pd_ctl. destruct (sc_active (fl p)); [|rewrite <- app_assoc; reflexivity].
  unfold mk_of. destruct d as [|x [|y d]]; [exfalso; apply NZ; reflexivity| |].
  - destruct (has_mark (fl p)); reflexivity.
  - replace (zlen (x :: y :: d) >? 1) with true by (rewrite !zlen_cons; pose proof (zlen_nonneg d); lia). destruct (has_mark (fl p)); reflexivity.
Qed.

(* --- one command, one reply --- *)

Lemma fits_secure n d ty0 ty1 : fits n true d -> (ty0 = 21 /\ ty1 = 23) \/ (ty0 = 22 /\ ty1 = 24) ->
  exists code data, d = code :: data /\ payload_ok n (if zlen d >? 1 then ty1 else ty0) code data.
Proof.
  intros (B & L & N & F) T. destruct d as [|code data]; [change (zlen (@nil Z)) with 0 in L; lia|]. exists code, data. split; [reflexivity|].
  inversion B as [|x y Bc Bd]; subst. rewrite zlen_cons in *.
  split; [dif; lia|]. split; [exact Bc|]. split; [exact Bd|]. split; [exact N|].
  destruct (1 + zlen data >? 1) eqn:E.
  - replace ((ty1 =? 23) || (ty1 =? 24)) with true by (destruct T as [[-> ->]|[-> ->]]; reflexivity). replace (zlen data + 16) with (1 + zlen data + 15) by lia. exact F.
  - replace ((ty0 =? 23) || (ty0 =? 24)) with false by (destruct T as [[-> ->]|[-> ->]]; reflexivity). lia.
Qed.

Lemma sec_sent e c n ty code data c1 w : -1 <= seqn c <= 3 -> sc_active (fl c) = true -> sc_keys_ok (sc c) -> payload_ok n ty code data -> n <= e_tx e ->
  transmit e c n ty (code :: data) = Ok (c1, true, [OTx w]) -> sc_active (fl c1) = true /\ 2 < zlen w.
Proof.
  intros S A K PO TX TR. pose proof (room_ok _ _ _ _ PO) as RO. destruct PO as (T & Bc & Bd & N & _).
  destruct (transmit_secure e c n ty code data S A K T Bc Bd N RO TX) as ((b & TR' & _) & LF & _). rewrite TR' in TR. injection TR as <- <-.
  split.
  - unfold put_mac, tx_on. destruct (pd_mode (fl c)) eqn:M; simpl; rewrite M; exact A.
  - rewrite zlen_app, LF. pose proof (zlen_nonneg (mk_of (tx_on c))). pose proof (zlen_nonneg data). unfold sec_room. destruct ((ty =? 23) || (ty =? 24)); [rewrite pad_len by lia; lia|lia].
Qed.

Lemma delivers_some h m f : m = [] \/ m = [255] -> 2 < zlen (m ++ f) -> delivers (heard (e_rx h)) f [] -> (length (@nil Z) < length (heard (e_rx h)))%nat.
Proof.
  intros M L (nz & mk & E & _). rewrite E, !app_length. rewrite zlen_app in L. assert (zlen m <= 1) by (destruct M as [-> | ->]; [change (zlen (@nil Z)) with 0|change (zlen [255]) with 1]; lia). unfold zlen in *. cbn [length]. lia.
Qed.

Lemma line_cmd c p e n d : line c p -> quiet c -> quiet p -> fits n (sc_active (fl c)) d -> n <= e_tx e -> in_sc_handshake false (cmd_id c) = false ->
  exists c1 m f, transmit e c n (cmd_ty d) d = Ok (c1, true, [OTx (m ++ f)]) /\ (m = [] \/ m = [255]) /\ quiet c1 /\ (linkcore c1 = linkcore c /\ sc_active (fl c1) = sc_active (fl c)) /\
  forall h, chunk_ok h -> delivers (heard (e_rx h)) f [] ->
  exists p1, takes p [] h d p1 /\ line_reply c1 p1 /\ linkcore p1 = linkcore p /\ rx_base p1 /\ rb_contents (rb p1) = [] /\ sc_active (fl p1) = sc_active (fl p).
Proof.
  intros [E L] Qc Qp F TX HS. pose proof F as (B & L1 & N & _). destruct L as [(Ac & Ap & Sc & Sp & Sq) | I].
  - rewrite Ac in F. destruct F as (_ & _ & _ & F). pose proof (nd_c c p E) as Mc. pose proof (nd_p c p E) as Mp.
    destruct (transmit_plain e c n (cmd_ty d) d Sc Ac ltac:(unfold tx_handshake; rewrite Mc; exact HS) B L1 N F TX) as (b & TR & BO).
    exists (set_pbuf b (tx_on c)), (mk_of (tx_on c)), (plain_frame (tx_addr c) (tx_num c) d). split; [exact TR|]. split; [apply mk_cases|].
    assert (BB : buf_ok b) by (apply BO; split; apply Qc).
    assert (TO : tx_on c = set_seqn (seq_next (seqn c)) (set_has_mark true c)) by (unfold tx_on; rewrite Mc; reflexivity).
    split. { destruct Qc as (Q1 & Q2 & Q3 & Q4 & Q5 & Q6). rewrite TO. exact (conj Q1 (conj Q2 (conj Q3 (conj Q4 BB)))). }
    split. { rewrite TO. split; reflexivity. }
    intros h CK D. destruct E as [_ _ [Skc Skp] [Ad Ar] Bb].
    assert (TA : tx_addr c = address c) by (unfold tx_addr; rewrite Mc; lia).
    assert (TN : tx_num c = seq_next (seqn c)) by (unfold tx_num; rewrite Mc; reflexivity).
    assert (SN : 0 <= seq_next (seqn c) <= 3) by (unfold seq_next; dif; lia).
    rewrite TA, TN in *.
    assert (LT : (length (@nil Z) < length (heard (e_rx h)))%nat).
    { destruct D as (nz & mk & EQ & _). rewrite EQ, !app_length. assert (0 < zlen (plain_frame (address c) (seq_next (seqn c)) d)) by (rewrite plain_len; lia). unfold zlen in *. cbn [length]. lia. }
    destruct (take_plain p [] h (address c) (seq_next (seqn c)) d [] (quiet_ready p Qp Skp Sp)) as (p1 & TK & RX & RB & RBS).
    { constructor; [exact CK|constructor]. } { exact Ap. } { unfold byte; lia. } { rewrite Mp. cbn [negb]. symmetry; apply Z.leb_gt; lia. } { left; lia. } { exact SN. } { exact B. } { lia. }
    { unfold accepts. rewrite Mp. exact Sq. } { unfold stream; cbn [app map concat]; rewrite app_nil_r; exact D. } { exact LT. }
    exists p1. split; [exact TK|].
    set (f := plain_frame (address c) (seq_next (seqn c)) d) in *.
    assert (CF : f_seq f = seq_next (seqn c) /\ f_addr f = address c).
    { destruct (crc_frame (address c) (4 + seq_next (seqn c)) d ltac:(unfold byte; lia) ltac:(unfold byte; lia) B L1 ltac:(lia)) as (_ & _ & X1 & X2 & _).
      unfold f_seq, f_addr. unfold f, plain_frame. rewrite X1, X2. lia. }
    destruct CF as [FS FA].
    assert (SA : seq_after (seqn p) (seq_next (seqn c)) = seq_next (seqn c)).
    { unfold seq_after. destruct Sq as [-> | [-> | ->]]; [reflexivity| |]; dif; try lia; dif; lia. }
    assert (SE : linkcore (seen f p) = linkcore p /\ pd_mode (fl (seen f p)) = true /\ skip_seq (fl (seen f p)) = false /\ address (seen f p) = address p /\ broadcast (fl (seen f p)) = false /\
       sc_active (fl (seen f p)) = false /\ seqn (seen f p) = seq_next (seqn c)).
    { unfold seen. rewrite Mp. unfold pd_seen. rewrite FS, FA, SA. replace (address c =? 127) with false by lia. destruct (_ =? 0); simpl;
      repeat match goal with |- _ /\ _ => split; [first [assumption|reflexivity]|] end; first [assumption|reflexivity]. }
    destruct SE as (s1 & s2 & s3 & s4 & s5 & s6 & s7).
    pose proof (rx_linkcore _ _ RX) as LC. rewrite s1 in LC.
    assert (F1 : pd_mode (fl p1) = true) by (rewrite <- s2; exact (f_equal (fun x => pd_mode (fl x)) RX)).
    assert (F2 : skip_seq (fl p1) = false) by (rewrite <- s3; exact (f_equal (fun x => skip_seq (fl x)) RX)).
    assert (F3 : address p1 = address p) by (rewrite <- s4; exact (f_equal (fun x => address x) RX)).
    assert (F4 : broadcast (fl p1) = false) by (rewrite <- s5; exact (f_equal (fun x => broadcast (fl x)) RX)).
    assert (F5 : sc_active (fl p1) = false) by (rewrite <- s6; exact (f_equal (fun x => sc_active (fl x)) RX)).
    assert (F6 : seqn p1 = seq_next (seqn c)) by (rewrite <- s7; exact (f_equal (fun x => seqn x) RX)).
    split; [|split; [exact LC|split; [exact RBS|split; [exact RB|congruence]]]].
    rewrite TO. split.
    + constructor; simpl; [exact Mc|exact F1|split; assumption|split; [congruence|exact Ar]|exact F4].
    + left. simpl. split; [exact Ac|]. split; [exact F5|]. split; [exact SN|exact F6].
  - pose proof (proj1 (is_act c p I)) as Ac. rewrite Ac in F.
    destruct (fits_secure n d 21 23 F ltac:(auto)) as (code & data & ED & PO). fold (cmd_ty d) in PO. set (ty := cmd_ty d) in *. clearbody ty. subst d.
    destruct (step_cmd c p e n ty code data I Qc Qp PO TX) as (c1 & m & f & TR & Mk & Q1 & (LC & SN) & G).
    destruct (sec_sent e c n ty code data c1 _ ltac:(pose proof (is_seq c p I); lia) Ac (proj1 (in_step_keys c p I)) PO TX TR) as [A1 LW].
    exists c1, m, f. split; [exact TR|]. split; [exact Mk|]. split; [exact Q1|]. split; [split; [exact LC|congruence]|].
    intros h CK D. destruct (G [] h [] ltac:(constructor; [exact CK|constructor])) as (p1 & TK & I1 & S1 & RBS & RB & LCp).
    { unfold stream; cbn [app map concat]; rewrite app_nil_r; exact D. }
    { exact (delivers_some h m f Mk LW D). }
    exists p1. split; [exact TK|]. split; [split; [exact (is_ends _ _ (proj1 I1))|right; split; [exact I1|exact S1]]|]. split; [exact LCp|]. split; [exact RBS|]. split; [exact RB|].
    rewrite (proj2 (is_act _ _ (proj1 I1))), (proj2 (is_act _ _ I)). reflexivity.
Qed.

Lemma line_rep2 c p e n d : line_reply c p -> quiet c -> buf_ok (pbuf p) -> fits n (sc_active (fl p)) d -> n <= e_tx e -> in_sc_handshake true (reply_id p) = false ->
  nth 0 d 0 <> 121 ->
  exists p1 m f, transmit e p n (rep_ty d) d = Ok (p1, true, [OTx (m ++ f)]) /\ (m = [] \/ m = [255]) /\ buf_ok (pbuf p1) /\ (rb p1 = rb p /\ linkcore p1 = linkcore p) /\ (sc_active (fl c) = false -> line c (state_reset false p1)) /\
  forall h, chunk_ok h -> delivers (heard (e_rx h)) f [] ->
  exists c1, takes c [] h d c1 /\ linkcore c1 = linkcore c /\ rx_base c1 /\ rb_contents (rb c1) = [] /\ line (state_reset false c1) (state_reset false p1) /\ sc_active (fl c1) = sc_active (fl c).
Proof.
  intros [E L] Qc Bp F TX HS NB. pose proof F as (B & L1 & N & _). destruct L as [(Ac & Ap & Sc & Sq) | (I & S1)].
  - rewrite Ap in F. destruct F as (_ & _ & _ & F). pose proof (nd_c c p E) as Mc. pose proof (nd_p c p E) as Mp.
    destruct (transmit_plain e p n (rep_ty d) d ltac:(lia) Ap ltac:(unfold tx_handshake; rewrite Mp; exact HS) B L1 N F TX) as (b & TR & BO).
    exists (set_pbuf b (tx_on p)), (mk_of (tx_on p)), (plain_frame (tx_addr p) (tx_num p) d). split; [exact TR|]. split; [apply mk_cases|].
    split; [exact (BO Bp)|]. 
    assert (TO : tx_on p = set_broadcast false p) by (unfold tx_on; rewrite Mp; reflexivity).
    split. { rewrite TO. split; reflexivity. }
    split. { intros _. rewrite TO. split.
      - destruct E as [_ _ Sk Ad _]. constructor; simpl; [exact Mc|exact Mp|exact Sk|exact Ad|reflexivity].
      - left. simpl. split; [exact Ac|]. split; [exact Ap|]. rewrite Sq. split; [lia|]. split; [lia|]. right; right; reflexivity. }
    intros h CK D. destruct E as [_ _ [Skc Skp] [Ad Ar] Bb].
    assert (TA : tx_addr p = address c + 128) by (unfold tx_addr; rewrite Mp, Bb; lia).
    assert (TN : tx_num p = seqn c) by (unfold tx_num; rewrite Mp; lia).
    rewrite TA, TN in *.
    assert (LT : (length (@nil Z) < length (heard (e_rx h)))%nat).
    { destruct D as (nz & mk & EQ & _). rewrite EQ, !app_length. assert (0 < zlen (plain_frame (address c + 128) (seqn c) d)) by (rewrite plain_len; lia). unfold zlen in *. cbn [length]. lia. }
    destruct (take_plain c [] h (address c + 128) (seqn c) d [] (quiet_ready c Qc Skc ltac:(lia))) as (c1 & TK & RX & RB & RBS).
    { constructor; [exact CK|constructor]. } { exact Ac. } { unfold byte; lia. } { rewrite Mc. cbn [negb]. symmetry; apply Z.leb_le; lia. } { left; lia. } { lia. } { exact B. } { lia. }
    { unfold accepts. rewrite Mc. split; [lia|]. intros _. replace (nth 0 d 0 =? 121) with false by lia. apply andb_false_r. } { unfold stream; cbn [app map concat]; rewrite app_nil_r; exact D. } { exact LT. }
    unfold seen in RX. rewrite Mc in RX. cbv iota in RX.
    exists c1. split; [exact TK|]. split; [exact (rx_linkcore _ _ RX)|]. split; [exact RBS|]. split; [exact RB|].
    assert (F1 : pd_mode (fl c1) = false) by (rewrite <- Mc; exact (f_equal (fun x => pd_mode (fl x)) RX)).
    assert (F2 : skip_seq (fl c1) = false) by (rewrite <- Skc; exact (f_equal (fun x => skip_seq (fl x)) RX)).
    assert (F3 : address c1 = address c) by exact (f_equal (fun x => address x) RX).
    assert (F5 : sc_active (fl c1) = false) by (rewrite <- Ac; exact (f_equal (fun x => sc_active (fl x)) RX)).
    assert (F6 : seqn c1 = seqn c) by exact (f_equal (fun x => seqn x) RX).
    split; [|congruence]. rewrite TO. split.
    + constructor; simpl; [exact F1|exact Mp|split; assumption|split; [congruence|rewrite F3; exact Ar]|reflexivity].
    + left. simpl. split; [exact F5|]. split; [exact Ap|]. rewrite F6, Sq. split; [lia|]. split; [lia|]. right; right; reflexivity.
  - pose proof (proj2 (is_act c p (proj1 I))) as Ap. rewrite Ap in F.
    destruct (fits_secure n d 22 24 F ltac:(auto)) as (code & data & ED & PO). fold (rep_ty d) in PO. set (ty := rep_ty d) in *. clearbody ty. subst d.
    destruct (step_rep c p e n ty code data I Qc Bp S1 PO TX) as (p1 & m & f & TR & Mk & B1 & RL & G).
    destruct (sec_sent e p n ty code data p1 _ ltac:(pose proof (is_seq c p (proj1 I)); lia) Ap (proj2 (in_step_keys c p (proj1 I))) PO TX TR) as [A1 LW].
    exists p1, m, f. split; [exact TR|]. split; [exact Mk|]. split; [exact B1|]. split; [exact RL|].
    split. { intros X. rewrite (proj1 (is_act c p (proj1 I))) in X. discriminate. }
    intros h CK D. destruct (G [] h [] ltac:(constructor; [exact CK|constructor])) as (c1 & TK & I1 & RBS & RB & LCc).
    { unfold stream; cbn [app map concat]; rewrite app_nil_r; exact D. }
    { exact (delivers_some h m f Mk LW D). }
    exists c1. split; [exact TK|]. split; [exact LCc|]. split; [exact RBS|]. split; [exact RB|].
    pose proof (reset_step c1 p1 (proj1 I1)) as I2.
    split; [split; [exact (is_ends _ _ I2)|right; exact I2]|]. rewrite (proj1 (is_act _ _ (proj1 I1))), (proj1 (is_act _ _ (proj1 I))). reflexivity.
Qed.
Lemma line_rep c p e n d : line_reply c p -> quiet c -> buf_ok (pbuf p) -> fits n (sc_active (fl p)) d -> n <= e_tx e -> in_sc_handshake true (reply_id p) = false ->
  nth 0 d 0 <> 121 ->
  exists p1 m f, transmit e p n (rep_ty d) d = Ok (p1, true, [OTx (m ++ f)]) /\ (m = [] \/ m = [255]) /\ buf_ok (pbuf p1) /\ (rb p1 = rb p /\ linkcore p1 = linkcore p) /\
  forall h, chunk_ok h -> delivers (heard (e_rx h)) f [] ->
  exists c1, takes c [] h d c1 /\ linkcore c1 = linkcore c /\ rx_base c1 /\ rb_contents (rb c1) = [] /\ line (state_reset false c1) (state_reset false p1) /\ sc_active (fl c1) = sc_active (fl c).
Proof.
  intros L Qc Bp F TX HS NB. destruct (line_rep2 c p e n d L Qc Bp F TX HS NB) as (p1 & m & f & A & B & C & D & _ & G).
  exists p1, m, f. exact (conj A (conj B (conj C (conj D G)))).
Qed.
